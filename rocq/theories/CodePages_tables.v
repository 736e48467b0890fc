(** * The tables of the single byte code pages, extracted mechanically from
    keramics-encodings/src/*.rs (the script walked the constants, the conditions of the
    decoders and the match arms of the encoders in order) *)
From Verif Require Import Base CodePages_model.

(** ascii.rs: decoder [next] from line 39, encoder [next] from line 74 *)
Definition ascii : code_page := {|
  cp_decode := [Direct 0 256];
  cp_encode := [Direct 0 128] |}.

(** iso8859_1.rs: decoder [next] from line 39, encoder [next] from line 74 *)
Definition iso8859_1 : code_page := {|
  cp_decode := [Direct 0 256];
  cp_encode := [Direct 0 256] |}.

(** iso8859_10.rs: decoder [next] from line 51, encoder [next] from line 257 *)
Definition iso8859_10 : code_page := {|
  cp_decode := [Direct 0 160;
   Table 160 256 160 [Some 160; Some 260; Some 274; Some 290; Some 298; Some 296; Some 310; Some 167; Some 315; Some 272; Some 352; Some 358; Some 381; Some 173; Some 362; Some 330; Some 176; Some 261; Some 275; Some 291; Some 299; Some 297; Some 311; Some 183; Some 316; Some 273; Some 353; Some 359; Some 382; Some 8213; Some 363; Some 331; Some 256; Some 193; Some 194; Some 195; Some 196; Some 197; Some 198; Some 302; Some 268; Some 201; Some 280; Some 203; Some 278; Some 205; Some 206; Some 207; Some 208; Some 325; Some 332; Some 211; Some 212; Some 213; Some 214; Some 360; Some 216; Some 370; Some 218; Some 219; Some 220; Some 221; Some 222; Some 223; Some 257; Some 225; Some 226; Some 227; Some 228; Some 229; Some 230; Some 303; Some 269; Some 233; Some 281; Some 235; Some 279; Some 237; Some 238; Some 239; Some 240; Some 326; Some 333; Some 243; Some 244; Some 245; Some 246; Some 361; Some 248; Some 371; Some 250; Some 251; Some 252; Some 253; Some 254; Some 312]];
  cp_encode := [Direct 0 161;
   Table 192 336 192 [None; Some 193; Some 194; Some 195; Some 196; Some 197; Some 198; None; None; Some 201; None; Some 203; None; Some 205; Some 206; Some 207; Some 208; None; None; Some 211; Some 212; Some 213; Some 214; None; Some 216; None; Some 218; Some 219; Some 220; Some 221; Some 222; Some 223; None; Some 225; Some 226; Some 227; Some 228; Some 229; Some 230; None; None; Some 233; None; Some 235; None; Some 237; Some 238; Some 239; Some 240; None; None; Some 243; Some 244; Some 245; Some 246; None; Some 248; None; Some 250; Some 251; Some 252; Some 253; Some 254; None; Some 192; Some 224; None; None; Some 161; Some 177; None; None; None; None; None; None; Some 200; Some 232; None; None; Some 169; Some 185; Some 162; Some 178; None; None; Some 204; Some 236; Some 202; Some 234; None; None; None; None; None; None; None; None; Some 163; Some 179; None; None; None; None; Some 165; Some 181; Some 164; Some 180; None; None; Some 199; Some 231; None; None; None; None; None; None; Some 166; Some 182; Some 255; None; None; Some 168; Some 184; None; None; None; None; None; None; None; None; Some 209; Some 241; None; None; None; Some 175; Some 191; Some 210; Some 242; None; None];
   Table 352 368 352 [Some 170; Some 186; None; None; None; None; Some 171; Some 187; Some 215; Some 247; Some 174; Some 190; None; None; None; None];
   Table 167 168 167 [Some 167];
   Table 173 174 173 [Some 173];
   Table 176 177 176 [Some 176];
   Table 183 184 183 [Some 183];
   Table 370 371 370 [Some 217];
   Table 371 372 371 [Some 249];
   Table 381 382 381 [Some 172];
   Table 382 383 382 [Some 188];
   Table 8213 8214 8213 [Some 189]] |}.

(** iso8859_11.rs: decoder [next] from line 138, encoder [next] from line 282 *)
Definition iso8859_11 : code_page := {|
  cp_decode := [Direct 0 160;
   Table 160 256 160 [Some 160; Some 3585; Some 3586; Some 3587; Some 3588; Some 3589; Some 3590; Some 3591; Some 3592; Some 3593; Some 3594; Some 3595; Some 3596; Some 3597; Some 3598; Some 3599; Some 3600; Some 3601; Some 3602; Some 3603; Some 3604; Some 3605; Some 3606; Some 3607; Some 3608; Some 3609; Some 3610; Some 3611; Some 3612; Some 3613; Some 3614; Some 3615; Some 3616; Some 3617; Some 3618; Some 3619; Some 3620; Some 3621; Some 3622; Some 3623; Some 3624; Some 3625; Some 3626; Some 3627; Some 3628; Some 3629; Some 3630; Some 3631; Some 3632; Some 3633; Some 3634; Some 3635; Some 3636; Some 3637; Some 3638; Some 3639; Some 3640; Some 3641; Some 3642; None; None; None; None; Some 3647; Some 3648; Some 3649; Some 3650; Some 3651; Some 3652; Some 3653; Some 3654; Some 3655; Some 3656; Some 3657; Some 3658; Some 3659; Some 3660; Some 3661; Some 3662; Some 3663; Some 3664; Some 3665; Some 3666; Some 3667; Some 3668; Some 3669; Some 3670; Some 3671; Some 3672; Some 3673; Some 3674; Some 3675; None; None; None; None]];
  cp_encode := [Direct 0 161;
   Table 3584 3680 3584 [None; Some 161; Some 162; Some 163; Some 164; Some 165; Some 166; Some 167; Some 168; Some 169; Some 170; Some 171; Some 172; Some 173; Some 174; Some 175; Some 176; Some 177; Some 178; Some 179; Some 180; Some 181; Some 182; Some 183; Some 184; Some 185; Some 186; Some 187; Some 188; Some 189; Some 190; Some 191; Some 192; Some 193; Some 194; Some 195; Some 196; Some 197; Some 198; Some 199; Some 200; Some 201; Some 202; Some 203; Some 204; Some 205; Some 206; Some 207; Some 208; Some 209; Some 210; Some 211; Some 212; Some 213; Some 214; Some 215; Some 216; Some 217; Some 218; None; None; None; None; Some 223; Some 224; Some 225; Some 226; Some 227; Some 228; Some 229; Some 230; Some 231; Some 232; Some 233; Some 234; Some 235; Some 236; Some 237; Some 238; Some 239; Some 240; Some 241; Some 242; Some 243; Some 244; Some 245; Some 246; Some 247; Some 248; Some 249; Some 250; Some 251; None; None; None; None]] |}.

(** iso8859_13.rs: decoder [next] from line 51, encoder [next] from line 329 *)
Definition iso8859_13 : code_page := {|
  cp_decode := [Direct 0 160;
   Table 160 256 160 [Some 160; Some 8221; Some 162; Some 163; Some 164; Some 8222; Some 166; Some 167; Some 216; Some 169; Some 342; Some 171; Some 172; Some 173; Some 174; Some 198; Some 176; Some 177; Some 178; Some 179; Some 8220; Some 181; Some 182; Some 183; Some 248; Some 185; Some 343; Some 187; Some 188; Some 189; Some 190; Some 230; Some 260; Some 302; Some 256; Some 262; Some 196; Some 197; Some 280; Some 274; Some 268; Some 201; Some 377; Some 278; Some 290; Some 310; Some 298; Some 315; Some 352; Some 323; Some 325; Some 211; Some 332; Some 213; Some 214; Some 215; Some 370; Some 321; Some 346; Some 362; Some 220; Some 379; Some 381; Some 223; Some 261; Some 303; Some 257; Some 263; Some 228; Some 229; Some 281; Some 275; Some 269; Some 233; Some 378; Some 279; Some 291; Some 311; Some 299; Some 316; Some 353; Some 324; Some 326; Some 243; Some 333; Some 245; Some 246; Some 247; Some 371; Some 322; Some 347; Some 363; Some 252; Some 380; Some 382; Some 8217]];
  cp_encode := [Direct 0 160;
   Table 160 384 160 [Some 160; None; Some 162; Some 163; Some 164; None; Some 166; Some 167; None; Some 169; None; Some 171; Some 172; Some 173; Some 174; None; Some 176; Some 177; Some 178; Some 179; None; Some 181; Some 182; Some 183; None; Some 185; None; Some 187; Some 188; Some 189; Some 190; None; None; None; None; None; Some 196; Some 197; Some 175; None; None; Some 201; None; None; None; None; None; None; None; None; None; Some 211; None; Some 213; Some 214; Some 215; Some 168; None; None; None; Some 220; None; None; Some 223; None; None; None; None; Some 228; Some 229; Some 191; None; None; Some 233; None; None; None; None; None; None; None; None; None; Some 243; None; Some 245; Some 246; Some 247; Some 184; None; None; None; Some 252; None; None; None; Some 194; Some 226; None; None; Some 192; Some 224; Some 195; Some 227; None; None; None; None; Some 200; Some 232; None; None; None; None; Some 199; Some 231; None; None; Some 203; Some 235; Some 198; Some 230; None; None; None; None; None; None; None; None; Some 204; Some 236; None; None; None; None; None; None; Some 206; Some 238; None; None; Some 193; Some 225; None; None; None; None; None; None; Some 205; Some 237; None; None; None; Some 207; Some 239; None; None; None; None; Some 217; Some 249; Some 209; Some 241; Some 210; Some 242; None; None; None; None; None; Some 212; Some 244; None; None; None; None; None; None; None; None; Some 170; Some 186; None; None; Some 218; Some 250; None; None; None; None; Some 208; Some 240; None; None; None; None; None; None; None; None; Some 219; Some 251; None; None; None; None; None; None; Some 216; Some 248; None; None; None; None; None; Some 202; Some 234; Some 221; Some 253; Some 222; Some 254; None];
   Table 8216 8224 8216 [None; Some 255; None; None; Some 180; Some 161; Some 165; None]] |}.

(** iso8859_14.rs: decoder [next] from line 51, encoder [next] from line 180 *)
Definition iso8859_14 : code_page := {|
  cp_decode := [Direct 0 160;
   Table 160 256 160 [Some 160; Some 7682; Some 7683; Some 163; Some 266; Some 267; Some 7690; Some 167; Some 7808; Some 169; Some 7810; Some 7691; Some 7922; Some 173; Some 174; Some 376; Some 7710; Some 7711; Some 288; Some 289; Some 7744; Some 7745; Some 182; Some 7766; Some 7809; Some 7767; Some 7811; Some 7776; Some 7923; Some 7812; Some 7813; Some 7777; Some 192; Some 193; Some 194; Some 195; Some 196; Some 197; Some 198; Some 199; Some 200; Some 201; Some 202; Some 203; Some 204; Some 205; Some 206; Some 207; Some 372; Some 209; Some 210; Some 211; Some 212; Some 213; Some 214; Some 7786; Some 216; Some 217; Some 218; Some 219; Some 220; Some 221; Some 374; Some 223; Some 224; Some 225; Some 226; Some 227; Some 228; Some 229; Some 230; Some 231; Some 232; Some 233; Some 234; Some 235; Some 236; Some 237; Some 238; Some 239; Some 373; Some 241; Some 242; Some 243; Some 244; Some 245; Some 246; Some 7787; Some 248; Some 249; Some 250; Some 251; Some 252; Some 253; Some 375; Some 255]];
  cp_encode := [Direct 0 161;
   Table 192 256 192 [Some 192; Some 193; Some 194; Some 195; Some 196; Some 197; Some 198; Some 199; Some 200; Some 201; Some 202; Some 203; Some 204; Some 205; Some 206; Some 207; None; Some 209; Some 210; Some 211; Some 212; Some 213; Some 214; None; Some 216; Some 217; Some 218; Some 219; Some 220; Some 221; None; Some 223; Some 224; Some 225; Some 226; Some 227; Some 228; Some 229; Some 230; Some 231; Some 232; Some 233; Some 234; Some 235; Some 236; Some 237; Some 238; Some 239; None; Some 241; Some 242; Some 243; Some 244; Some 245; Some 246; None; Some 248; Some 249; Some 250; Some 251; Some 252; Some 253; None; Some 255];
   Table 368 376 368 [None; None; None; None; Some 208; Some 240; Some 222; Some 254];
   Table 7808 7816 7808 [Some 168; Some 184; Some 170; Some 186; Some 189; Some 190; None; None];
   Table 163 164 163 [Some 163];
   Table 167 168 167 [Some 167];
   Table 169 170 169 [Some 169];
   Table 173 174 173 [Some 173];
   Table 174 175 174 [Some 174];
   Table 182 183 182 [Some 182];
   Table 266 267 266 [Some 164];
   Table 267 268 267 [Some 165];
   Table 288 289 288 [Some 178];
   Table 289 290 289 [Some 179];
   Table 376 377 376 [Some 175];
   Table 7682 7683 7682 [Some 161];
   Table 7683 7684 7683 [Some 162];
   Table 7690 7691 7690 [Some 166];
   Table 7691 7692 7691 [Some 171];
   Table 7710 7711 7710 [Some 176];
   Table 7711 7712 7711 [Some 177];
   Table 7744 7745 7744 [Some 180];
   Table 7745 7746 7745 [Some 181];
   Table 7766 7767 7766 [Some 183];
   Table 7767 7768 7767 [Some 185];
   Table 7776 7777 7776 [Some 187];
   Table 7777 7778 7777 [Some 191];
   Table 7786 7787 7786 [Some 215];
   Table 7787 7788 7787 [Some 247];
   Table 7922 7923 7922 [Some 172];
   Table 7923 7924 7923 [Some 188]] |}.

(** iso8859_15.rs: decoder [next] from line 45, encoder [next] from line 120 *)
Definition iso8859_15 : code_page := {|
  cp_decode := [Direct 0 160;
   Direct 192 256;
   Table 160 192 160 [Some 160; Some 161; Some 162; Some 163; Some 8364; Some 165; Some 352; Some 167; Some 353; Some 169; Some 170; Some 171; Some 172; Some 173; Some 174; Some 175; Some 176; Some 177; Some 178; Some 179; Some 381; Some 181; Some 182; Some 183; Some 382; Some 185; Some 186; Some 187; Some 338; Some 339; Some 376; Some 191]];
  cp_encode := [Direct 0 160;
   Direct 192 256;
   Table 160 192 160 [Some 160; Some 161; Some 162; Some 163; None; Some 165; None; Some 167; None; Some 169; Some 170; Some 171; Some 172; Some 173; Some 174; Some 175; Some 176; Some 177; Some 178; Some 179; None; Some 181; Some 182; Some 183; None; Some 185; Some 186; Some 187; None; None; None; Some 191];
   Table 338 339 338 [Some 188];
   Table 339 340 339 [Some 189];
   Table 352 353 352 [Some 166];
   Table 353 354 353 [Some 168];
   Table 376 377 376 [Some 190];
   Table 381 382 381 [Some 180];
   Table 382 383 382 [Some 184];
   Table 8364 8365 8364 [Some 164]] |}.

(** iso8859_16.rs: decoder [next] from line 51, encoder [next] from line 239 *)
Definition iso8859_16 : code_page := {|
  cp_decode := [Direct 0 160;
   Table 160 256 160 [Some 160; Some 260; Some 261; Some 321; Some 8364; Some 8222; Some 352; Some 167; Some 353; Some 169; Some 536; Some 171; Some 377; Some 173; Some 378; Some 379; Some 176; Some 177; Some 268; Some 322; Some 381; Some 8221; Some 182; Some 183; Some 382; Some 269; Some 537; Some 187; Some 338; Some 339; Some 376; Some 380; Some 192; Some 193; Some 194; Some 258; Some 196; Some 262; Some 198; Some 199; Some 200; Some 201; Some 202; Some 203; Some 204; Some 205; Some 206; Some 207; Some 272; Some 323; Some 210; Some 211; Some 212; Some 336; Some 214; Some 346; Some 368; Some 217; Some 218; Some 219; Some 220; Some 280; Some 538; Some 223; Some 224; Some 225; Some 226; Some 259; Some 228; Some 263; Some 230; Some 231; Some 232; Some 233; Some 234; Some 235; Some 236; Some 237; Some 238; Some 239; Some 273; Some 324; Some 242; Some 243; Some 244; Some 337; Some 246; Some 347; Some 369; Some 249; Some 250; Some 251; Some 252; Some 281; Some 539; Some 255]];
  cp_encode := [Direct 0 161;
   Table 168 264 168 [None; Some 169; None; Some 171; None; Some 173; None; None; Some 176; Some 177; None; None; None; None; Some 182; Some 183; None; None; None; Some 187; None; None; None; None; Some 192; Some 193; Some 194; None; Some 196; None; Some 198; Some 199; Some 200; Some 201; Some 202; Some 203; Some 204; Some 205; Some 206; Some 207; None; None; Some 210; Some 211; Some 212; None; Some 214; None; None; Some 217; Some 218; Some 219; Some 220; None; None; Some 223; Some 224; Some 225; Some 226; None; Some 228; None; Some 230; Some 231; Some 232; Some 233; Some 234; Some 235; Some 236; Some 237; Some 238; Some 239; None; None; Some 242; Some 243; Some 244; None; Some 246; None; None; Some 249; Some 250; Some 251; Some 252; None; None; Some 255; None; None; Some 195; Some 227; Some 161; Some 162; Some 197; Some 229];
   Table 320 344 320 [None; Some 163; Some 179; Some 209; Some 241; None; None; None; None; None; None; None; None; None; None; None; Some 213; Some 245; Some 188; Some 189; None; None; None; None];
   Table 376 384 376 [Some 190; Some 172; Some 174; Some 175; Some 191; Some 180; Some 184; None];
   Table 536 544 536 [Some 170; Some 186; Some 222; Some 254; None; None; None; None];
   Table 167 168 167 [Some 167];
   Table 268 269 268 [Some 178];
   Table 269 270 269 [Some 185];
   Table 272 273 272 [Some 208];
   Table 273 274 273 [Some 240];
   Table 280 281 280 [Some 221];
   Table 281 282 281 [Some 253];
   Table 346 347 346 [Some 215];
   Table 347 348 347 [Some 247];
   Table 352 353 352 [Some 166];
   Table 353 354 353 [Some 168];
   Table 368 369 368 [Some 216];
   Table 369 370 369 [Some 248];
   Table 8221 8222 8221 [Some 181];
   Table 8222 8223 8222 [Some 165];
   Table 8364 8365 8364 [Some 164]] |}.

(** iso8859_2.rs: decoder [next] from line 51, encoder [next] from line 308 *)
Definition iso8859_2 : code_page := {|
  cp_decode := [Direct 0 160;
   Table 160 256 160 [Some 160; Some 260; Some 728; Some 321; Some 164; Some 317; Some 346; Some 167; Some 168; Some 352; Some 350; Some 356; Some 377; Some 173; Some 381; Some 379; Some 176; Some 261; Some 731; Some 322; Some 180; Some 318; Some 347; Some 711; Some 184; Some 353; Some 351; Some 357; Some 378; Some 733; Some 382; Some 380; Some 340; Some 193; Some 194; Some 258; Some 196; Some 313; Some 262; Some 199; Some 268; Some 201; Some 280; Some 203; Some 282; Some 205; Some 206; Some 270; Some 272; Some 323; Some 327; Some 211; Some 212; Some 336; Some 214; Some 215; Some 344; Some 366; Some 218; Some 368; Some 220; Some 221; Some 354; Some 223; Some 341; Some 225; Some 226; Some 259; Some 228; Some 314; Some 263; Some 231; Some 269; Some 233; Some 281; Some 235; Some 283; Some 237; Some 238; Some 271; Some 273; Some 324; Some 328; Some 243; Some 244; Some 337; Some 246; Some 247; Some 345; Some 367; Some 250; Some 369; Some 252; Some 253; Some 355; Some 729]];
  cp_encode := [Direct 0 160;
   Table 160 288 160 [Some 160; None; None; None; Some 164; None; None; Some 167; Some 168; None; None; None; None; Some 173; None; None; Some 176; None; None; None; Some 180; None; None; None; Some 184; None; None; None; None; None; None; None; None; Some 193; Some 194; None; Some 196; None; None; Some 199; None; Some 201; None; Some 203; None; Some 205; Some 206; None; None; None; None; Some 211; Some 212; None; Some 214; Some 215; None; None; Some 218; None; Some 220; Some 221; None; Some 223; None; Some 225; Some 226; None; Some 228; None; None; Some 231; None; Some 233; None; Some 235; None; Some 237; Some 238; None; None; None; None; Some 243; Some 244; None; Some 246; Some 247; None; None; Some 250; None; Some 252; Some 253; None; None; None; None; Some 195; Some 227; Some 161; Some 177; Some 198; Some 230; None; None; None; None; Some 200; Some 232; Some 207; Some 239; Some 208; Some 240; None; None; None; None; None; None; Some 202; Some 234; Some 204; Some 236; None; None; None; None];
   Table 312 384 312 [None; Some 197; Some 229; None; None; Some 165; Some 181; None; None; Some 163; Some 179; Some 209; Some 241; None; None; Some 210; Some 242; None; None; None; None; None; None; None; Some 213; Some 245; None; None; Some 192; Some 224; None; None; Some 216; Some 248; Some 166; Some 182; None; None; Some 170; Some 186; Some 169; Some 185; Some 222; Some 254; Some 171; Some 187; None; None; None; None; None; None; None; None; Some 217; Some 249; Some 219; Some 251; None; None; None; None; None; None; None; Some 172; Some 188; Some 175; Some 191; Some 174; Some 190; None];
   Table 728 736 728 [Some 162; Some 255; Some 26; Some 178; Some 26; Some 189; Some 26; None];
   Table 711 712 711 [Some 183]] |}.

(** iso8859_3.rs: decoder [next] from line 138, encoder [next] from line 349 *)
Definition iso8859_3 : code_page := {|
  cp_decode := [Direct 0 160;
   Table 160 256 160 [Some 160; Some 294; Some 728; Some 163; Some 164; None; Some 292; Some 167; Some 168; Some 304; Some 350; Some 286; Some 308; Some 173; None; Some 379; Some 176; Some 295; Some 178; Some 179; Some 180; Some 181; Some 293; Some 183; Some 184; Some 305; Some 351; Some 287; Some 309; Some 189; None; Some 380; Some 192; Some 193; Some 194; None; Some 196; Some 266; Some 264; Some 199; Some 200; Some 201; Some 202; Some 203; Some 204; Some 205; Some 206; Some 207; None; Some 209; Some 210; Some 211; Some 212; Some 288; Some 214; Some 215; Some 284; Some 217; Some 218; Some 219; Some 220; Some 364; Some 348; Some 223; Some 224; Some 225; Some 226; None; Some 228; Some 267; Some 265; Some 231; Some 232; Some 233; Some 234; Some 235; Some 236; Some 237; Some 238; Some 239; None; Some 241; Some 242; Some 243; Some 244; Some 289; Some 246; Some 247; Some 285; Some 249; Some 250; Some 251; Some 252; Some 365; Some 349; Some 729]];
  cp_encode := [Direct 0 160;
   Table 160 312 160 [Some 160; None; None; Some 163; Some 164; None; None; Some 167; Some 168; None; None; None; None; Some 173; None; None; Some 176; None; Some 178; Some 179; Some 180; Some 181; None; Some 183; Some 184; None; None; None; None; Some 189; None; None; Some 192; Some 193; Some 194; None; Some 196; None; None; Some 199; Some 200; Some 201; Some 202; Some 203; Some 204; Some 205; Some 206; Some 207; None; Some 209; Some 210; Some 211; Some 212; None; Some 214; Some 215; None; Some 217; Some 218; Some 219; Some 220; None; None; Some 223; Some 224; Some 225; Some 226; None; Some 228; None; None; Some 231; Some 232; Some 233; Some 234; Some 235; Some 236; Some 237; Some 238; Some 239; None; Some 241; Some 242; Some 243; Some 244; None; Some 246; Some 247; None; Some 249; Some 250; Some 251; Some 252; None; None; None; None; None; None; None; None; None; None; None; Some 198; Some 230; Some 197; Some 229; None; None; None; None; None; None; None; None; None; None; None; None; None; None; None; None; Some 216; Some 248; Some 171; Some 187; Some 213; Some 245; None; None; Some 166; Some 182; Some 161; Some 177; None; None; None; None; None; None; None; None; Some 169; Some 185; None; None; Some 172; Some 188; None; None];
   Table 344 352 344 [None; None; None; None; Some 222; Some 254; Some 170; Some 186];
   Table 364 365 364 [Some 221];
   Table 365 366 365 [Some 253];
   Table 379 380 379 [Some 175];
   Table 380 381 380 [Some 191];
   Table 728 729 728 [Some 162];
   Table 729 730 729 [Some 255]] |}.

(** iso8859_4.rs: decoder [next] from line 51, encoder [next] from line 318 *)
Definition iso8859_4 : code_page := {|
  cp_decode := [Direct 0 160;
   Table 160 256 160 [Some 160; Some 260; Some 312; Some 342; Some 164; Some 296; Some 315; Some 167; Some 168; Some 352; Some 274; Some 290; Some 358; Some 173; Some 381; Some 175; Some 176; Some 261; Some 731; Some 343; Some 180; Some 297; Some 316; Some 711; Some 184; Some 353; Some 275; Some 291; Some 359; Some 330; Some 382; Some 331; Some 256; Some 193; Some 194; Some 195; Some 196; Some 197; Some 198; Some 302; Some 268; Some 201; Some 280; Some 203; Some 278; Some 205; Some 206; Some 298; Some 272; Some 325; Some 332; Some 310; Some 212; Some 213; Some 214; Some 215; Some 216; Some 370; Some 218; Some 219; Some 220; Some 360; Some 362; Some 223; Some 257; Some 225; Some 226; Some 227; Some 228; Some 229; Some 230; Some 303; Some 269; Some 233; Some 281; Some 235; Some 279; Some 237; Some 238; Some 299; Some 273; Some 326; Some 333; Some 311; Some 244; Some 245; Some 246; Some 247; Some 248; Some 371; Some 250; Some 251; Some 252; Some 361; Some 363; Some 729]];
  cp_encode := [Direct 0 160;
   Table 160 384 160 [Some 160; None; None; None; Some 164; None; None; Some 167; Some 168; None; None; None; None; Some 173; None; Some 175; Some 176; None; None; None; Some 180; None; None; None; Some 184; None; None; None; None; None; None; None; None; Some 193; Some 194; Some 195; Some 196; Some 197; Some 198; None; None; Some 201; None; Some 203; None; Some 205; Some 206; None; None; None; None; None; Some 212; Some 213; Some 214; Some 215; Some 216; None; Some 218; Some 219; Some 220; None; None; Some 223; None; Some 225; Some 226; Some 227; Some 228; Some 229; Some 230; None; None; Some 233; None; Some 235; None; Some 237; Some 238; None; None; None; None; None; Some 244; Some 245; Some 246; Some 247; Some 248; None; Some 250; Some 251; Some 252; None; None; None; Some 192; Some 224; None; None; Some 161; Some 177; None; None; None; None; None; None; Some 200; Some 232; None; None; Some 208; Some 240; Some 170; Some 186; None; None; Some 204; Some 236; Some 202; Some 234; None; None; None; None; None; None; None; None; Some 171; Some 187; None; None; None; None; Some 165; Some 181; Some 207; Some 239; None; None; Some 199; Some 231; None; None; None; None; None; None; Some 211; Some 243; Some 162; None; None; Some 166; Some 182; None; None; None; None; None; None; None; None; Some 209; Some 241; None; None; None; Some 189; Some 191; Some 210; Some 242; None; None; None; None; None; None; None; None; Some 163; Some 179; None; None; None; None; None; None; None; None; Some 169; Some 185; None; None; None; None; Some 172; Some 188; Some 221; Some 253; Some 222; Some 254; None; None; None; None; None; None; Some 217; Some 249; None; None; None; None; None; None; None; None; None; Some 174; Some 190; Some 26];
   Table 711 712 711 [Some 183];
   Table 729 730 729 [Some 255];
   Table 731 732 731 [Some 178]] |}.

(** iso8859_5.rs: decoder [next] from line 51, encoder [next] from line 190 *)
Definition iso8859_5 : code_page := {|
  cp_decode := [Direct 0 160;
   Table 160 256 160 [Some 160; Some 1025; Some 1026; Some 1027; Some 1028; Some 1029; Some 1030; Some 1031; Some 1032; Some 1033; Some 1034; Some 1035; Some 1036; Some 173; Some 1038; Some 1039; Some 1040; Some 1041; Some 1042; Some 1043; Some 1044; Some 1045; Some 1046; Some 1047; Some 1048; Some 1049; Some 1050; Some 1051; Some 1052; Some 1053; Some 1054; Some 1055; Some 1056; Some 1057; Some 1058; Some 1059; Some 1060; Some 1061; Some 1062; Some 1063; Some 1064; Some 1065; Some 1066; Some 1067; Some 1068; Some 1069; Some 1070; Some 1071; Some 1072; Some 1073; Some 1074; Some 1075; Some 1076; Some 1077; Some 1078; Some 1079; Some 1080; Some 1081; Some 1082; Some 1083; Some 1084; Some 1085; Some 1086; Some 1087; Some 1088; Some 1089; Some 1090; Some 1091; Some 1092; Some 1093; Some 1094; Some 1095; Some 1096; Some 1097; Some 1098; Some 1099; Some 1100; Some 1101; Some 1102; Some 1103; Some 8470; Some 1105; Some 1106; Some 1107; Some 1108; Some 1109; Some 1110; Some 1111; Some 1112; Some 1113; Some 1114; Some 1115; Some 1116; Some 167; Some 1118; Some 1119]];
  cp_encode := [Direct 0 161;
   Table 1024 1120 1024 [None; Some 161; Some 162; Some 163; Some 164; Some 165; Some 166; Some 167; Some 168; Some 169; Some 170; Some 171; Some 172; None; Some 174; Some 175; Some 176; Some 177; Some 178; Some 179; Some 180; Some 181; Some 182; Some 183; Some 184; Some 185; Some 186; Some 187; Some 188; Some 189; Some 190; Some 191; Some 192; Some 193; Some 194; Some 195; Some 196; Some 197; Some 198; Some 199; Some 200; Some 201; Some 202; Some 203; Some 204; Some 205; Some 206; Some 207; Some 208; Some 209; Some 210; Some 211; Some 212; Some 213; Some 214; Some 215; Some 216; Some 217; Some 218; Some 219; Some 220; Some 221; Some 222; Some 223; Some 224; Some 225; Some 226; Some 227; Some 228; Some 229; Some 230; Some 231; Some 232; Some 233; Some 234; Some 235; Some 236; Some 237; Some 238; Some 239; None; Some 241; Some 242; Some 243; Some 244; Some 245; Some 246; Some 247; Some 248; Some 249; Some 250; Some 251; Some 252; None; Some 254; Some 255];
   Table 167 168 167 [Some 253];
   Table 173 174 173 [Some 173];
   Table 8470 8471 8470 [Some 240]] |}.

(** iso8859_6.rs: decoder [next] from line 138, encoder [next] from line 250 *)
Definition iso8859_6 : code_page := {|
  cp_decode := [Direct 0 160;
   Table 160 256 160 [Some 160; None; None; None; Some 164; None; None; None; None; None; None; None; Some 1548; Some 173; None; None; None; None; None; None; None; None; None; None; None; None; None; Some 1563; None; None; None; Some 1567; None; Some 1569; Some 1570; Some 1571; Some 1572; Some 1573; Some 1574; Some 1575; Some 1576; Some 1577; Some 1578; Some 1579; Some 1580; Some 1581; Some 1582; Some 1583; Some 1584; Some 1585; Some 1586; Some 1587; Some 1588; Some 1589; Some 1590; Some 1591; Some 1592; Some 1593; Some 1594; None; None; None; None; None; Some 1600; Some 1601; Some 1602; Some 1603; Some 1604; Some 1605; Some 1606; Some 1607; Some 1608; Some 1609; Some 1610; Some 1611; Some 1612; Some 1613; Some 1614; Some 1615; Some 1616; Some 1617; Some 1618; None; None; None; None; None; None; None; None; None; None; None; None; None]];
  cp_encode := [Direct 0 161;
   Table 1560 1624 1560 [None; None; None; Some 187; None; None; None; Some 191; None; Some 193; Some 194; Some 195; Some 196; Some 197; Some 198; Some 199; Some 200; Some 201; Some 202; Some 203; Some 204; Some 205; Some 206; Some 207; Some 208; Some 209; Some 210; Some 211; Some 212; Some 213; Some 214; Some 215; Some 216; Some 217; Some 218; None; None; None; None; None; Some 224; Some 225; Some 226; Some 227; Some 228; Some 229; Some 230; Some 231; Some 232; Some 233; Some 234; Some 235; Some 236; Some 237; Some 238; Some 239; Some 240; Some 241; Some 242; None; None; None; None; None];
   Table 164 165 164 [Some 164];
   Table 173 174 173 [Some 173];
   Table 1548 1549 1548 [Some 172]] |}.

(** iso8859_7.rs: decoder [next] from line 138, encoder [next] from line 293 *)
Definition iso8859_7 : code_page := {|
  cp_decode := [Direct 0 160;
   Table 160 256 160 [Some 160; Some 8216; Some 8217; Some 163; Some 8364; Some 8367; Some 166; Some 167; Some 168; Some 169; Some 890; Some 171; Some 172; Some 173; None; Some 8213; Some 176; Some 177; Some 178; Some 179; Some 900; Some 901; Some 902; Some 183; Some 904; Some 905; Some 906; Some 187; Some 908; Some 189; Some 910; Some 911; Some 912; Some 913; Some 914; Some 915; Some 916; Some 917; Some 918; Some 919; Some 920; Some 921; Some 922; Some 923; Some 924; Some 925; Some 926; Some 927; Some 928; Some 929; None; Some 931; Some 932; Some 933; Some 934; Some 935; Some 936; Some 937; Some 938; Some 939; Some 940; Some 941; Some 942; Some 943; Some 944; Some 945; Some 946; Some 947; Some 948; Some 949; Some 950; Some 951; Some 952; Some 953; Some 954; Some 955; Some 956; Some 957; Some 958; Some 959; Some 960; Some 961; Some 962; Some 963; Some 964; Some 965; Some 966; Some 967; Some 968; Some 969; Some 970; Some 971; Some 972; Some 973; Some 974; None]];
  cp_encode := [Direct 0 160;
   Table 160 184 160 [Some 160; None; None; Some 163; None; None; Some 166; Some 167; Some 168; Some 169; None; Some 171; Some 172; Some 173; None; None; Some 176; Some 177; Some 178; Some 179; None; None; None; Some 183];
   Table 896 976 896 [None; None; None; None; Some 180; Some 181; Some 182; None; Some 184; Some 185; Some 186; None; Some 188; None; Some 190; Some 191; Some 192; Some 193; Some 194; Some 195; Some 196; Some 197; Some 198; Some 199; Some 200; Some 201; Some 202; Some 203; Some 204; Some 205; Some 206; Some 207; Some 208; Some 209; None; Some 211; Some 212; Some 213; Some 214; Some 215; Some 216; Some 217; Some 218; Some 219; Some 220; Some 221; Some 222; Some 223; Some 224; Some 225; Some 226; Some 227; Some 228; Some 229; Some 230; Some 231; Some 232; Some 233; Some 234; Some 235; Some 236; Some 237; Some 238; Some 239; Some 240; Some 241; Some 242; Some 243; Some 244; Some 245; Some 246; Some 247; Some 248; Some 249; Some 250; Some 251; Some 252; Some 253; Some 254; None];
   Table 187 188 187 [Some 187];
   Table 189 190 189 [Some 189];
   Table 890 891 890 [Some 170];
   Table 8213 8214 8213 [Some 175];
   Table 8216 8217 8216 [Some 161];
   Table 8217 8218 8217 [Some 162];
   Table 8364 8365 8364 [Some 164];
   Table 8367 8368 8367 [Some 165]] |}.

(** iso8859_8.rs: decoder [next] from line 138, encoder [next] from line 253 *)
Definition iso8859_8 : code_page := {|
  cp_decode := [Direct 0 160;
   Table 160 256 160 [Some 160; None; Some 162; Some 163; Some 164; Some 165; Some 166; Some 167; Some 168; Some 169; Some 215; Some 171; Some 172; Some 173; Some 174; Some 175; Some 176; Some 177; Some 178; Some 179; Some 180; Some 181; Some 182; Some 183; Some 184; Some 185; Some 247; Some 187; Some 188; Some 189; Some 190; None; None; None; None; None; None; None; None; None; None; None; None; None; None; None; None; None; None; None; None; None; None; None; None; None; None; None; None; None; None; None; None; Some 8215; Some 1488; Some 1489; Some 1490; Some 1491; Some 1492; Some 1493; Some 1494; Some 1495; Some 1496; Some 1497; Some 1498; Some 1499; Some 1500; Some 1501; Some 1502; Some 1503; Some 1504; Some 1505; Some 1506; Some 1507; Some 1508; Some 1509; Some 1510; Some 1511; Some 1512; Some 1513; Some 1514; None; None; Some 8206; Some 8207; None]];
  cp_encode := [Direct 0 160;
   Table 160 192 160 [Some 160; None; Some 162; Some 163; Some 164; Some 165; Some 166; Some 167; Some 168; Some 169; None; Some 171; Some 172; Some 173; Some 174; Some 175; Some 176; Some 177; Some 178; Some 179; Some 180; Some 181; Some 182; Some 183; Some 184; Some 185; None; Some 187; Some 188; Some 189; Some 190; None];
   Table 1488 1520 1488 [Some 224; Some 225; Some 226; Some 227; Some 228; Some 229; Some 230; Some 231; Some 232; Some 233; Some 234; Some 235; Some 236; Some 237; Some 238; Some 239; Some 240; Some 241; Some 242; Some 243; Some 244; Some 245; Some 246; Some 247; Some 248; Some 249; Some 250; None; None; None; None; None];
   Table 215 216 215 [Some 170];
   Table 247 248 247 [Some 186];
   Table 8206 8207 8206 [Some 253];
   Table 8207 8208 8207 [Some 254];
   Table 8215 8216 8215 [Some 223]] |}.

(** iso8859_9.rs: decoder [next] from line 47, encoder [next] from line 138 *)
Definition iso8859_9 : code_page := {|
  cp_decode := [Direct 0 208;
   Table 208 256 208 [Some 286; Some 209; Some 210; Some 211; Some 212; Some 213; Some 214; Some 215; Some 216; Some 217; Some 218; Some 219; Some 220; Some 304; Some 350; Some 223; Some 224; Some 225; Some 226; Some 227; Some 228; Some 229; Some 230; Some 231; Some 232; Some 233; Some 234; Some 235; Some 236; Some 237; Some 238; Some 239; Some 287; Some 241; Some 242; Some 243; Some 244; Some 245; Some 246; Some 247; Some 248; Some 249; Some 250; Some 251; Some 252; Some 305; Some 351; Some 255]];
  cp_encode := [Direct 0 208;
   Table 208 256 208 [None; Some 209; Some 210; Some 211; Some 212; Some 213; Some 214; Some 215; Some 216; Some 217; Some 218; Some 219; Some 220; None; None; Some 223; Some 224; Some 225; Some 226; Some 227; Some 228; Some 229; Some 230; Some 231; Some 232; Some 233; Some 234; Some 235; Some 236; Some 237; Some 238; Some 239; None; Some 241; Some 242; Some 243; Some 244; Some 245; Some 246; Some 247; Some 248; Some 249; Some 250; Some 251; Some 252; None; None; Some 255];
   Table 286 287 286 [Some 208];
   Table 287 288 287 [Some 240];
   Table 304 305 304 [Some 221];
   Table 305 306 305 [Some 253];
   Table 350 351 350 [Some 222];
   Table 351 352 351 [Some 254]] |}.

(** koi8_r.rs: decoder [next] from line 54, encoder [next] from line 204 *)
Definition koi8_r : code_page := {|
  cp_decode := [Direct 0 128;
   Table 128 256 128 [Some 9472; Some 9474; Some 9484; Some 9488; Some 9492; Some 9496; Some 9500; Some 9508; Some 9516; Some 9524; Some 9532; Some 9600; Some 9604; Some 9608; Some 9612; Some 9616; Some 9617; Some 9618; Some 9619; Some 8992; Some 9632; Some 8729; Some 8730; Some 8776; Some 8804; Some 8805; Some 160; Some 8993; Some 176; Some 178; Some 183; Some 247; Some 9552; Some 9553; Some 9554; Some 1105; Some 9555; Some 9556; Some 9557; Some 9558; Some 9559; Some 9560; Some 9561; Some 9562; Some 9563; Some 9564; Some 9565; Some 9566; Some 9567; Some 9568; Some 9569; Some 1025; Some 9570; Some 9571; Some 9572; Some 9573; Some 9574; Some 9575; Some 9576; Some 9577; Some 9578; Some 9579; Some 9580; Some 169; Some 1102; Some 1072; Some 1073; Some 1094; Some 1076; Some 1077; Some 1092; Some 1075; Some 1093; Some 1080; Some 1081; Some 1082; Some 1083; Some 1084; Some 1085; Some 1086; Some 1087; Some 1103; Some 1088; Some 1089; Some 1090; Some 1091; Some 1078; Some 1074; Some 1100; Some 1099; Some 1079; Some 1096; Some 1101; Some 1097; Some 1095; Some 1098; Some 1070; Some 1040; Some 1041; Some 1062; Some 1044; Some 1045; Some 1060; Some 1043; Some 1061; Some 1048; Some 1049; Some 1050; Some 1051; Some 1052; Some 1053; Some 1054; Some 1055; Some 1071; Some 1056; Some 1057; Some 1058; Some 1059; Some 1046; Some 1042; Some 1068; Some 1067; Some 1047; Some 1064; Some 1069; Some 1065; Some 1063; Some 1066]];
  cp_encode := [Direct 0 128;
   Table 1040 1112 1040 [Some 225; Some 226; Some 247; Some 231; Some 228; Some 229; Some 246; Some 250; Some 233; Some 234; Some 235; Some 236; Some 237; Some 238; Some 239; Some 240; Some 242; Some 243; Some 244; Some 245; Some 230; Some 232; Some 227; Some 254; Some 251; Some 253; Some 255; Some 249; Some 248; Some 252; Some 224; Some 241; Some 193; Some 194; Some 215; Some 199; Some 196; Some 197; Some 214; Some 218; Some 201; Some 202; Some 203; Some 204; Some 205; Some 206; Some 207; Some 208; Some 210; Some 211; Some 212; Some 213; Some 198; Some 200; Some 195; Some 222; Some 219; Some 221; Some 223; Some 217; Some 216; Some 220; Some 192; Some 209; None; Some 163; None; None; None; None; None; None];
   Table 9552 9584 9552 [Some 160; Some 161; Some 162; Some 164; Some 165; Some 166; Some 167; Some 168; Some 169; Some 170; Some 171; Some 172; Some 173; Some 174; Some 175; Some 176; Some 177; Some 178; Some 180; Some 181; Some 182; Some 183; Some 184; Some 185; Some 186; Some 187; Some 188; Some 189; Some 190; None; None; None];
   Table 160 161 160 [Some 154];
   Table 169 170 169 [Some 191];
   Table 176 177 176 [Some 156];
   Table 178 179 178 [Some 157];
   Table 183 184 183 [Some 158];
   Table 247 248 247 [Some 159];
   Table 1025 1026 1025 [Some 179];
   Table 8729 8730 8729 [Some 149];
   Table 8730 8731 8730 [Some 150];
   Table 8776 8777 8776 [Some 151];
   Table 8804 8805 8804 [Some 152];
   Table 8805 8806 8805 [Some 153];
   Table 8992 8993 8992 [Some 147];
   Table 8993 8994 8993 [Some 155];
   Table 9472 9473 9472 [Some 128];
   Table 9474 9475 9474 [Some 129];
   Table 9484 9485 9484 [Some 130];
   Table 9488 9489 9488 [Some 131];
   Table 9492 9493 9492 [Some 132];
   Table 9496 9497 9496 [Some 133];
   Table 9500 9501 9500 [Some 134];
   Table 9508 9509 9508 [Some 135];
   Table 9516 9517 9516 [Some 136];
   Table 9524 9525 9524 [Some 137];
   Table 9532 9533 9532 [Some 138];
   Table 9600 9601 9600 [Some 139];
   Table 9604 9605 9604 [Some 140];
   Table 9608 9609 9608 [Some 141];
   Table 9612 9613 9612 [Some 142];
   Table 9616 9617 9616 [Some 143];
   Table 9617 9618 9617 [Some 144];
   Table 9618 9619 9618 [Some 145];
   Table 9619 9620 9619 [Some 146];
   Table 9632 9633 9632 [Some 148]] |}.

(** koi8_u.rs: decoder [next] from line 54, encoder [next] from line 204 *)
Definition koi8_u : code_page := {|
  cp_decode := [Direct 0 128;
   Table 128 256 128 [Some 9472; Some 9474; Some 9484; Some 9488; Some 9492; Some 9496; Some 9500; Some 9508; Some 9516; Some 9524; Some 9532; Some 9600; Some 9604; Some 9608; Some 9612; Some 9616; Some 9617; Some 9618; Some 9619; Some 8992; Some 9632; Some 8729; Some 8730; Some 8776; Some 8804; Some 8805; Some 160; Some 8993; Some 176; Some 178; Some 183; Some 247; Some 9552; Some 9553; Some 9554; Some 1105; Some 1108; Some 9556; Some 1110; Some 1111; Some 9559; Some 9560; Some 9561; Some 9562; Some 9563; Some 1169; Some 9565; Some 9566; Some 9567; Some 9568; Some 9569; Some 1025; Some 1028; Some 9571; Some 1030; Some 1031; Some 9574; Some 9575; Some 9576; Some 9577; Some 9578; Some 1168; Some 9580; Some 169; Some 1102; Some 1072; Some 1073; Some 1094; Some 1076; Some 1077; Some 1092; Some 1075; Some 1093; Some 1080; Some 1081; Some 1082; Some 1083; Some 1084; Some 1085; Some 1086; Some 1087; Some 1103; Some 1088; Some 1089; Some 1090; Some 1091; Some 1078; Some 1074; Some 1100; Some 1099; Some 1079; Some 1096; Some 1101; Some 1097; Some 1095; Some 1098; Some 1070; Some 1040; Some 1041; Some 1062; Some 1044; Some 1045; Some 1060; Some 1043; Some 1061; Some 1048; Some 1049; Some 1050; Some 1051; Some 1052; Some 1053; Some 1054; Some 1055; Some 1071; Some 1056; Some 1057; Some 1058; Some 1059; Some 1046; Some 1042; Some 1068; Some 1067; Some 1047; Some 1064; Some 1069; Some 1065; Some 1063; Some 1066]];
  cp_encode := [Direct 0 128;
   Table 1040 1112 1040 [Some 225; Some 226; Some 247; Some 231; Some 228; Some 229; Some 246; Some 250; Some 233; Some 234; Some 235; Some 236; Some 237; Some 238; Some 239; Some 240; Some 242; Some 243; Some 244; Some 245; Some 230; Some 232; Some 227; Some 254; Some 251; Some 253; Some 255; Some 249; Some 248; Some 252; Some 224; Some 241; Some 193; Some 194; Some 215; Some 199; Some 196; Some 197; Some 214; Some 218; Some 201; Some 202; Some 203; Some 204; Some 205; Some 206; Some 207; Some 208; Some 210; Some 211; Some 212; Some 213; Some 198; Some 200; Some 195; Some 222; Some 219; Some 221; Some 223; Some 217; Some 216; Some 220; Some 192; Some 209; None; Some 163; None; None; Some 164; None; Some 166; Some 167];
   Table 9552 9584 9552 [Some 160; Some 161; Some 162; None; Some 165; None; None; Some 168; Some 169; Some 170; Some 171; Some 172; None; Some 174; Some 175; Some 176; Some 177; Some 178; None; Some 181; None; None; Some 184; Some 185; Some 186; Some 187; Some 188; None; Some 190; None; None; None];
   Table 160 161 160 [Some 154];
   Table 169 170 169 [Some 191];
   Table 176 177 176 [Some 156];
   Table 178 179 178 [Some 157];
   Table 183 184 183 [Some 158];
   Table 247 248 247 [Some 159];
   Table 1025 1026 1025 [Some 179];
   Table 1028 1029 1028 [Some 180];
   Table 1030 1031 1030 [Some 182];
   Table 1031 1032 1031 [Some 183];
   Table 1168 1169 1168 [Some 189];
   Table 1169 1170 1169 [Some 173];
   Table 8729 8730 8729 [Some 149];
   Table 8730 8731 8730 [Some 150];
   Table 8776 8777 8776 [Some 151];
   Table 8804 8805 8804 [Some 152];
   Table 8805 8806 8805 [Some 153];
   Table 8992 8993 8992 [Some 147];
   Table 8993 8994 8993 [Some 155];
   Table 9472 9473 9472 [Some 128];
   Table 9474 9475 9474 [Some 129];
   Table 9484 9485 9484 [Some 130];
   Table 9488 9489 9488 [Some 131];
   Table 9492 9493 9492 [Some 132];
   Table 9496 9497 9496 [Some 133];
   Table 9500 9501 9500 [Some 134];
   Table 9508 9509 9508 [Some 135];
   Table 9516 9517 9516 [Some 136];
   Table 9524 9525 9524 [Some 137];
   Table 9532 9533 9532 [Some 138];
   Table 9600 9601 9600 [Some 139];
   Table 9604 9605 9604 [Some 140];
   Table 9608 9609 9608 [Some 141];
   Table 9612 9613 9612 [Some 142];
   Table 9616 9617 9616 [Some 143];
   Table 9617 9618 9617 [Some 144];
   Table 9618 9619 9618 [Some 145];
   Table 9619 9620 9619 [Some 146];
   Table 9632 9633 9632 [Some 148]] |}.

(** mac_arabic.rs: decoder [next] from line 54, encoder [next] from line 415 *)
Definition mac_arabic : code_page := {|
  cp_decode := [Direct 0 128;
   Table 128 256 128 [Some 196; Some 160; Some 199; Some 201; Some 209; Some 214; Some 220; Some 225; Some 224; Some 226; Some 228; Some 1722; Some 171; Some 231; Some 233; Some 232; Some 234; Some 235; Some 237; Some 8230; Some 238; Some 239; Some 241; Some 243; Some 187; Some 244; Some 246; Some 247; Some 250; Some 249; Some 251; Some 252; Some 32; Some 33; Some 34; Some 35; Some 36; Some 1642; Some 38; Some 39; Some 40; Some 41; Some 42; Some 43; Some 1548; Some 45; Some 46; Some 47; Some 1632; Some 1633; Some 1634; Some 1635; Some 1636; Some 1637; Some 1638; Some 1639; Some 1640; Some 1641; Some 58; Some 1563; Some 60; Some 61; Some 62; Some 1567; Some 10058; Some 1569; Some 1570; Some 1571; Some 1572; Some 1573; Some 1574; Some 1575; Some 1576; Some 1577; Some 1578; Some 1579; Some 1580; Some 1581; Some 1582; Some 1583; Some 1584; Some 1585; Some 1586; Some 1587; Some 1588; Some 1589; Some 1590; Some 1591; Some 1592; Some 1593; Some 1594; Some 91; Some 92; Some 93; Some 94; Some 95; Some 1600; Some 1601; Some 1602; Some 1603; Some 1604; Some 1605; Some 1606; Some 1607; Some 1608; Some 1609; Some 1610; Some 1611; Some 1612; Some 1613; Some 1614; Some 1615; Some 1616; Some 1617; Some 1618; Some 1662; Some 1657; Some 1670; Some 1749; Some 1700; Some 1711; Some 1672; Some 1681; Some 123; Some 124; Some 125; Some 1688; Some 1746]];
  cp_encode := [Direct 0 32;
   Direct 64 91;
   Direct 96 123;
   Direct 126 128;
   Table 32 64 32 [Some 160; Some 161; Some 162; Some 163; Some 164; Some 37; Some 166; Some 167; Some 168; Some 169; Some 170; Some 171; Some 44; Some 173; Some 174; Some 175; Some 48; Some 49; Some 50; Some 51; Some 52; Some 53; Some 54; Some 55; Some 56; Some 57; Some 186; Some 59; Some 188; Some 189; Some 190; Some 63];
   Table 160 256 160 [Some 129; None; None; None; None; None; None; None; None; None; None; Some 140; None; None; None; None; None; None; None; None; None; None; None; None; None; None; None; Some 152; None; None; None; None; None; None; None; None; Some 128; None; None; Some 130; None; Some 131; None; None; None; None; None; None; None; Some 132; None; None; None; None; Some 133; None; None; None; None; None; Some 134; None; None; None; Some 136; Some 135; Some 137; None; Some 138; None; None; Some 141; Some 143; Some 142; Some 144; Some 145; None; Some 146; Some 148; Some 149; None; Some 150; None; Some 151; Some 153; None; Some 154; Some 155; None; Some 157; Some 156; Some 158; Some 159; None; None; None];
   Table 1544 1728 1544 [None; None; None; None; Some 172; None; None; None; None; None; None; None; None; None; None; None; None; None; None; Some 187; None; None; None; Some 191; None; Some 193; Some 194; Some 195; Some 196; Some 197; Some 198; Some 199; Some 200; Some 201; Some 202; Some 203; Some 204; Some 205; Some 206; Some 207; Some 208; Some 209; Some 210; Some 211; Some 212; Some 213; Some 214; Some 215; Some 216; Some 217; Some 218; None; None; None; None; None; Some 224; Some 225; Some 226; Some 227; Some 228; Some 229; Some 230; Some 231; Some 232; Some 233; Some 234; Some 235; Some 236; Some 237; Some 238; Some 239; Some 240; Some 241; Some 242; None; None; None; None; None; None; None; None; None; None; None; None; None; Some 176; Some 177; Some 178; Some 179; Some 180; Some 181; Some 182; Some 183; Some 184; Some 185; Some 165; None; None; None; None; None; None; None; None; None; None; None; None; None; None; Some 244; None; None; None; None; Some 243; None; None; None; None; None; None; None; Some 245; None; Some 249; None; None; None; None; None; None; None; None; Some 250; None; None; None; None; None; None; Some 254; None; None; None; None; None; None; None; None; None; None; None; Some 247; None; None; None; None; None; None; None; None; None; None; Some 248; None; None; None; None; None; None; None; None; None; None; Some 139; None; None; None; None; None];
   Table 91 92 91 [Some 219];
   Table 92 93 92 [Some 220];
   Table 93 94 93 [Some 221];
   Table 94 95 94 [Some 222];
   Table 95 96 95 [Some 223];
   Table 123 124 123 [Some 251];
   Table 124 125 124 [Some 252];
   Table 125 126 125 [Some 253];
   Table 1746 1747 1746 [Some 255];
   Table 1749 1750 1749 [Some 246];
   Table 8230 8231 8230 [Some 147];
   Table 10058 10059 10058 [Some 192]] |}.

(** mac_celtic.rs: decoder [next] from line 54, encoder [next] from line 252 *)
Definition mac_celtic : code_page := {|
  cp_decode := [Direct 0 128;
   Table 128 256 128 [Some 196; Some 197; Some 199; Some 201; Some 209; Some 214; Some 220; Some 225; Some 224; Some 226; Some 228; Some 227; Some 229; Some 231; Some 233; Some 232; Some 234; Some 235; Some 237; Some 236; Some 238; Some 239; Some 241; Some 243; Some 242; Some 244; Some 246; Some 245; Some 250; Some 249; Some 251; Some 252; Some 8224; Some 176; Some 162; Some 163; Some 167; Some 8226; Some 182; Some 223; Some 174; Some 169; Some 8482; Some 180; Some 168; Some 8800; Some 198; Some 216; Some 8734; Some 177; Some 8804; Some 8805; Some 165; Some 181; Some 8706; Some 8721; Some 8719; Some 960; Some 8747; Some 170; Some 186; Some 937; Some 230; Some 248; Some 191; Some 161; Some 172; Some 8730; Some 402; Some 8776; Some 8710; Some 171; Some 187; Some 8230; Some 160; Some 192; Some 195; Some 213; Some 338; Some 339; Some 8211; Some 8212; Some 8220; Some 8221; Some 8216; Some 8217; Some 247; Some 9674; Some 255; Some 376; Some 8260; Some 8364; Some 8249; Some 8250; Some 374; Some 375; Some 8225; Some 183; Some 7922; Some 7923; Some 8240; Some 194; Some 202; Some 193; Some 203; Some 200; Some 205; Some 206; Some 207; Some 204; Some 211; Some 212; Some 9827; Some 210; Some 218; Some 219; Some 217; Some 305; Some 221; Some 253; Some 372; Some 373; Some 7812; Some 7813; Some 7808; Some 7809; Some 7810; Some 7811]];
  cp_encode := [Direct 0 128;
   Table 160 256 160 [Some 202; Some 193; Some 162; Some 163; None; Some 180; None; Some 164; Some 172; Some 169; Some 187; Some 199; Some 194; None; Some 168; None; Some 161; Some 177; None; None; Some 171; Some 181; Some 166; Some 225; None; None; Some 188; Some 200; None; None; None; Some 192; Some 203; Some 231; Some 229; Some 204; Some 128; Some 129; Some 174; Some 130; Some 233; Some 131; Some 230; Some 232; Some 237; Some 234; Some 235; Some 236; None; Some 132; Some 241; Some 238; Some 239; Some 205; Some 133; None; Some 175; Some 244; Some 242; Some 243; Some 134; Some 246; None; Some 167; Some 136; Some 135; Some 137; Some 139; Some 138; Some 140; Some 190; Some 141; Some 143; Some 142; Some 144; Some 145; Some 147; Some 146; Some 148; Some 149; None; Some 150; Some 152; Some 151; Some 153; Some 155; Some 154; Some 214; Some 191; Some 157; Some 156; Some 158; Some 159; Some 247; None; Some 216];
   Table 8208 8264 8208 [None; None; None; Some 208; Some 209; None; None; None; Some 212; Some 213; None; None; Some 210; Some 211; None; None; Some 160; Some 224; Some 165; None; None; None; Some 201; None; None; None; None; None; None; None; None; None; Some 228; None; None; None; None; None; None; None; None; Some 220; Some 221; None; None; None; None; None; None; None; None; None; Some 218; None; None; None];
   Table 305 306 305 [Some 245];
   Table 338 339 338 [Some 206];
   Table 339 340 339 [Some 207];
   Table 372 373 372 [Some 248];
   Table 373 374 373 [Some 249];
   Table 374 375 374 [Some 222];
   Table 375 376 375 [Some 223];
   Table 376 377 376 [Some 217];
   Table 402 403 402 [Some 196];
   Table 937 938 937 [Some 189];
   Table 960 961 960 [Some 185];
   Table 7808 7809 7808 [Some 252];
   Table 7809 7810 7809 [Some 253];
   Table 7810 7811 7810 [Some 254];
   Table 7811 7812 7811 [Some 255];
   Table 7812 7813 7812 [Some 250];
   Table 7813 7814 7813 [Some 251];
   Table 7922 7923 7922 [Some 226];
   Table 7923 7924 7923 [Some 227];
   Table 8364 8365 8364 [Some 219];
   Table 8482 8483 8482 [Some 170];
   Table 8706 8707 8706 [Some 182];
   Table 8710 8711 8710 [Some 198];
   Table 8719 8720 8719 [Some 184];
   Table 8721 8722 8721 [Some 183];
   Table 8730 8731 8730 [Some 195];
   Table 8734 8735 8734 [Some 176];
   Table 8747 8748 8747 [Some 186];
   Table 8776 8777 8776 [Some 197];
   Table 8800 8801 8800 [Some 173];
   Table 8804 8805 8804 [Some 178];
   Table 8805 8806 8805 [Some 179];
   Table 9674 9675 9674 [Some 215];
   Table 9827 9828 9827 [Some 240]] |}.

(** mac_central_eur_roman.rs: decoder [next] from line 54, encoder [next] from line 348 *)
Definition mac_central_eur_roman : code_page := {|
  cp_decode := [Direct 0 128;
   Table 128 256 128 [Some 196; Some 256; Some 257; Some 201; Some 260; Some 214; Some 220; Some 225; Some 261; Some 268; Some 228; Some 269; Some 262; Some 263; Some 233; Some 377; Some 378; Some 270; Some 237; Some 271; Some 274; Some 275; Some 278; Some 243; Some 279; Some 244; Some 246; Some 245; Some 250; Some 282; Some 283; Some 252; Some 8224; Some 176; Some 280; Some 163; Some 167; Some 8226; Some 182; Some 223; Some 174; Some 169; Some 8482; Some 281; Some 168; Some 8800; Some 291; Some 302; Some 303; Some 298; Some 8804; Some 8805; Some 299; Some 310; Some 8706; Some 8721; Some 322; Some 315; Some 316; Some 317; Some 318; Some 313; Some 314; Some 325; Some 326; Some 323; Some 172; Some 8730; Some 324; Some 327; Some 8710; Some 171; Some 187; Some 8230; Some 160; Some 328; Some 336; Some 213; Some 337; Some 332; Some 8211; Some 8212; Some 8220; Some 8221; Some 8216; Some 8217; Some 247; Some 9674; Some 333; Some 340; Some 341; Some 344; Some 8249; Some 8250; Some 345; Some 342; Some 343; Some 352; Some 8218; Some 8222; Some 353; Some 346; Some 347; Some 193; Some 356; Some 357; Some 205; Some 381; Some 382; Some 362; Some 211; Some 212; Some 363; Some 366; Some 218; Some 367; Some 368; Some 369; Some 370; Some 371; Some 221; Some 253; Some 311; Some 379; Some 321; Some 380; Some 290; Some 711]];
  cp_encode := [Direct 0 128;
   Table 160 384 160 [Some 202; None; None; Some 163; None; None; None; Some 164; Some 172; Some 169; None; Some 199; Some 194; None; Some 168; None; Some 161; None; None; None; None; None; Some 166; None; None; None; None; Some 200; None; None; None; None; None; Some 231; None; None; Some 128; None; None; None; None; Some 131; None; None; None; Some 234; None; None; None; None; None; Some 238; Some 239; Some 205; Some 133; None; None; None; Some 242; None; Some 134; Some 248; None; Some 167; None; Some 135; None; None; Some 138; None; None; None; None; Some 142; None; None; None; Some 146; None; None; None; None; None; Some 151; Some 153; Some 155; Some 154; Some 214; None; None; Some 156; None; Some 159; Some 249; None; None; Some 129; Some 130; None; None; Some 132; Some 136; Some 140; Some 141; None; None; None; None; Some 137; Some 139; Some 145; Some 147; None; None; Some 148; Some 149; None; None; Some 150; Some 152; Some 162; Some 171; Some 157; Some 158; None; None; None; None; None; None; Some 254; Some 174; None; None; None; None; None; None; Some 177; Some 180; None; None; Some 175; Some 176; None; None; None; None; None; None; Some 181; Some 250; None; Some 189; Some 190; Some 185; Some 186; Some 187; Some 188; None; None; Some 252; Some 184; Some 193; Some 196; Some 191; Some 192; Some 197; Some 203; None; None; None; Some 207; Some 216; None; None; Some 204; Some 206; None; None; Some 217; Some 218; Some 223; Some 224; Some 219; Some 222; Some 229; Some 230; None; None; None; None; Some 225; Some 228; None; None; Some 232; Some 233; None; None; None; None; Some 237; Some 240; None; None; Some 241; Some 243; Some 244; Some 245; Some 246; Some 247; None; None; None; None; None; Some 143; Some 144; Some 251; Some 253; Some 235; Some 236; None];
   Table 8208 8232 8208 [None; None; None; Some 208; Some 209; None; None; None; Some 212; Some 213; Some 226; None; Some 210; Some 211; Some 227; None; Some 160; None; Some 165; None; None; None; Some 201; None];
   Table 711 712 711 [Some 255];
   Table 8249 8250 8249 [Some 220];
   Table 8250 8251 8250 [Some 221];
   Table 8482 8483 8482 [Some 170];
   Table 8706 8707 8706 [Some 182];
   Table 8710 8711 8710 [Some 198];
   Table 8721 8722 8721 [Some 183];
   Table 8730 8731 8730 [Some 195];
   Table 8800 8801 8800 [Some 173];
   Table 8804 8805 8804 [Some 178];
   Table 8805 8806 8805 [Some 179];
   Table 9674 9675 9674 [Some 215]] |}.

(** mac_croatian.rs: decoder [next] from line 54, encoder [next] from line 276 *)
Definition mac_croatian : code_page := {|
  cp_decode := [Direct 0 128;
   Table 128 256 128 [Some 196; Some 197; Some 199; Some 201; Some 209; Some 214; Some 220; Some 225; Some 224; Some 226; Some 228; Some 227; Some 229; Some 231; Some 233; Some 232; Some 234; Some 235; Some 237; Some 236; Some 238; Some 239; Some 241; Some 243; Some 242; Some 244; Some 246; Some 245; Some 250; Some 249; Some 251; Some 252; Some 8224; Some 176; Some 162; Some 163; Some 167; Some 8226; Some 182; Some 223; Some 174; Some 352; Some 8482; Some 180; Some 168; Some 8800; Some 381; Some 216; Some 8734; Some 177; Some 8804; Some 8805; Some 8710; Some 181; Some 8706; Some 8721; Some 8719; Some 353; Some 8747; Some 170; Some 186; Some 937; Some 382; Some 248; Some 191; Some 161; Some 172; Some 8730; Some 402; Some 8776; Some 262; Some 171; Some 268; Some 8230; Some 160; Some 192; Some 195; Some 213; Some 338; Some 339; Some 272; Some 8212; Some 8220; Some 8221; Some 8216; Some 8217; Some 247; Some 9674; Some 63743; Some 169; Some 8260; Some 8364; Some 8249; Some 8250; Some 198; Some 187; Some 8211; Some 183; Some 8218; Some 8222; Some 8240; Some 194; Some 263; Some 193; Some 269; Some 200; Some 205; Some 206; Some 207; Some 204; Some 211; Some 212; Some 273; Some 210; Some 218; Some 219; Some 217; Some 305; Some 710; Some 732; Some 175; Some 960; Some 203; Some 730; Some 184; Some 202; Some 230; Some 711]];
  cp_encode := [Direct 0 128;
   Table 160 280 160 [Some 202; Some 193; Some 162; Some 163; None; None; None; Some 164; Some 172; Some 217; Some 187; Some 199; Some 194; None; Some 168; Some 248; Some 161; Some 177; None; None; Some 171; Some 181; Some 166; Some 225; Some 252; None; Some 188; Some 223; None; None; None; Some 192; Some 203; Some 231; Some 229; Some 204; Some 128; Some 129; Some 222; Some 130; Some 233; Some 131; Some 253; Some 250; Some 237; Some 234; Some 235; Some 236; None; Some 132; Some 241; Some 238; Some 239; Some 205; Some 133; None; Some 175; Some 244; Some 242; Some 243; Some 134; None; None; Some 167; Some 136; Some 135; Some 137; Some 139; Some 138; Some 140; Some 254; Some 141; Some 143; Some 142; Some 144; Some 145; Some 147; Some 146; Some 148; Some 149; None; Some 150; Some 152; Some 151; Some 153; Some 155; Some 154; Some 214; Some 191; Some 157; Some 156; Some 158; Some 159; None; None; None; None; None; None; None; None; None; Some 198; Some 230; None; None; None; None; Some 200; Some 232; None; None; Some 208; Some 240; None; None; None; None; None; None];
   Table 8208 8264 8208 [None; None; None; Some 224; Some 209; None; None; None; Some 212; Some 213; Some 226; None; Some 210; Some 211; Some 227; None; Some 160; None; Some 165; None; None; None; Some 201; None; None; None; None; None; None; None; None; None; Some 228; None; None; None; None; None; None; None; None; Some 220; Some 221; None; None; None; None; None; None; None; None; None; Some 218; None; None; None];
   Table 305 306 305 [Some 245];
   Table 338 339 338 [Some 206];
   Table 339 340 339 [Some 207];
   Table 352 353 352 [Some 169];
   Table 353 354 353 [Some 185];
   Table 381 382 381 [Some 174];
   Table 382 383 382 [Some 190];
   Table 402 403 402 [Some 196];
   Table 710 711 710 [Some 246];
   Table 711 712 711 [Some 255];
   Table 730 731 730 [Some 251];
   Table 732 733 732 [Some 247];
   Table 937 938 937 [Some 189];
   Table 960 961 960 [Some 249];
   Table 8364 8365 8364 [Some 219];
   Table 8482 8483 8482 [Some 170];
   Table 8706 8707 8706 [Some 182];
   Table 8710 8711 8710 [Some 180];
   Table 8719 8720 8719 [Some 184];
   Table 8721 8722 8721 [Some 183];
   Table 8730 8731 8730 [Some 195];
   Table 8734 8735 8734 [Some 176];
   Table 8747 8748 8747 [Some 186];
   Table 8776 8777 8776 [Some 197];
   Table 8800 8801 8800 [Some 173];
   Table 8804 8805 8804 [Some 178];
   Table 8805 8806 8805 [Some 179];
   Table 9674 9675 9674 [Some 215];
   Table 63743 63744 63743 [Some 216]] |}.

(** mac_cyrillic.rs: decoder [next] from line 54, encoder [next] from line 255 *)
Definition mac_cyrillic : code_page := {|
  cp_decode := [Direct 0 128;
   Table 128 256 128 [Some 1040; Some 1041; Some 1042; Some 1043; Some 1044; Some 1045; Some 1046; Some 1047; Some 1048; Some 1049; Some 1050; Some 1051; Some 1052; Some 1053; Some 1054; Some 1055; Some 1056; Some 1057; Some 1058; Some 1059; Some 1060; Some 1061; Some 1062; Some 1063; Some 1064; Some 1065; Some 1066; Some 1067; Some 1068; Some 1069; Some 1070; Some 1071; Some 8224; Some 176; Some 1168; Some 163; Some 167; Some 8226; Some 182; Some 1030; Some 174; Some 169; Some 8482; Some 1026; Some 1106; Some 8800; Some 1027; Some 1107; Some 8734; Some 177; Some 8804; Some 8805; Some 1110; Some 181; Some 1169; Some 1032; Some 1028; Some 1108; Some 1031; Some 1111; Some 1033; Some 1113; Some 1034; Some 1114; Some 1112; Some 1029; Some 172; Some 8730; Some 402; Some 8776; Some 8710; Some 171; Some 187; Some 8230; Some 160; Some 1035; Some 1115; Some 1036; Some 1116; Some 1109; Some 8211; Some 8212; Some 8220; Some 8221; Some 8216; Some 8217; Some 247; Some 8222; Some 1038; Some 1118; Some 1039; Some 1119; Some 8470; Some 1025; Some 1105; Some 1103; Some 1072; Some 1073; Some 1074; Some 1075; Some 1076; Some 1077; Some 1078; Some 1079; Some 1080; Some 1081; Some 1082; Some 1083; Some 1084; Some 1085; Some 1086; Some 1087; Some 1088; Some 1089; Some 1090; Some 1091; Some 1092; Some 1093; Some 1094; Some 1095; Some 1096; Some 1097; Some 1098; Some 1099; Some 1100; Some 1101; Some 1102; Some 8364]];
  cp_encode := [Direct 0 128;
   Table 160 192 160 [Some 202; None; None; Some 163; None; None; None; Some 164; None; Some 169; None; Some 199; Some 194; None; Some 168; None; Some 161; Some 177; None; None; None; Some 181; Some 166; None; None; None; None; Some 200; None; None; None; None];
   Table 1024 1120 1024 [None; Some 221; Some 171; Some 174; Some 184; Some 193; Some 167; Some 186; Some 183; Some 188; Some 190; Some 203; Some 205; None; Some 216; Some 218; Some 128; Some 129; Some 130; Some 131; Some 132; Some 133; Some 134; Some 135; Some 136; Some 137; Some 138; Some 139; Some 140; Some 141; Some 142; Some 143; Some 144; Some 145; Some 146; Some 147; Some 148; Some 149; Some 150; Some 151; Some 152; Some 153; Some 154; Some 155; Some 156; Some 157; Some 158; Some 159; Some 224; Some 225; Some 226; Some 227; Some 228; Some 229; Some 230; Some 231; Some 232; Some 233; Some 234; Some 235; Some 236; Some 237; Some 238; Some 239; Some 240; Some 241; Some 242; Some 243; Some 244; Some 245; Some 246; Some 247; Some 248; Some 249; Some 250; Some 251; Some 252; Some 253; Some 254; Some 223; None; Some 222; Some 172; Some 175; Some 185; Some 207; Some 180; Some 187; Some 192; Some 189; Some 191; Some 204; Some 206; None; Some 217; Some 219];
   Table 8208 8232 8208 [None; None; None; Some 208; Some 209; None; None; None; Some 212; Some 213; None; None; Some 210; Some 211; Some 215; None; Some 160; None; Some 165; None; None; None; Some 201; None];
   Table 247 248 247 [Some 214];
   Table 402 403 402 [Some 196];
   Table 1168 1169 1168 [Some 162];
   Table 1169 1170 1169 [Some 182];
   Table 8364 8365 8364 [Some 255];
   Table 8470 8471 8470 [Some 220];
   Table 8482 8483 8482 [Some 170];
   Table 8710 8711 8710 [Some 198];
   Table 8730 8731 8730 [Some 195];
   Table 8734 8735 8734 [Some 176];
   Table 8776 8777 8776 [Some 197];
   Table 8800 8801 8800 [Some 173];
   Table 8804 8805 8804 [Some 178];
   Table 8805 8806 8805 [Some 179]] |}.

(** mac_dingbats.rs: decoder [next] from line 266, encoder [next] from line 525 *)
Definition mac_dingbats : code_page := {|
  cp_decode := [Direct 0 32;
   Table 32 256 32 [Some 32; Some 9985; Some 9986; Some 9987; Some 9988; Some 9742; Some 9990; Some 9991; Some 9992; Some 9993; Some 9755; Some 9758; Some 9996; Some 9997; Some 9998; Some 9999; Some 10000; Some 10001; Some 10002; Some 10003; Some 10004; Some 10005; Some 10006; Some 10007; Some 10008; Some 10009; Some 10010; Some 10011; Some 10012; Some 10013; Some 10014; Some 10015; Some 10016; Some 10017; Some 10018; Some 10019; Some 10020; Some 10021; Some 10022; Some 10023; Some 9733; Some 10025; Some 10026; Some 10027; Some 10028; Some 10029; Some 10030; Some 10031; Some 10032; Some 10033; Some 10034; Some 10035; Some 10036; Some 10037; Some 10038; Some 10039; Some 10040; Some 10041; Some 10042; Some 10043; Some 10044; Some 10045; Some 10046; Some 10047; Some 10048; Some 10049; Some 10050; Some 10051; Some 10052; Some 10053; Some 10054; Some 10055; Some 10056; Some 10057; Some 10058; Some 10059; Some 9679; Some 10061; Some 9632; Some 10063; Some 10064; Some 10065; Some 10066; Some 9650; Some 9660; Some 9670; Some 10070; Some 9687; Some 10072; Some 10073; Some 10074; Some 10075; Some 10076; Some 10077; Some 10078; Some 127; Some 10088; Some 10089; Some 10090; Some 10091; Some 10092; Some 10093; Some 10094; Some 10095; Some 10096; Some 10097; Some 10098; Some 10099; Some 10100; Some 10101; None; None; None; None; None; None; None; None; None; None; None; None; None; None; None; None; None; None; None; Some 10081; Some 10082; Some 10083; Some 10084; Some 10085; Some 10086; Some 10087; Some 9827; Some 9830; Some 9829; Some 9824; Some 9312; Some 9313; Some 9314; Some 9315; Some 9316; Some 9317; Some 9318; Some 9319; Some 9320; Some 9321; Some 10102; Some 10103; Some 10104; Some 10105; Some 10106; Some 10107; Some 10108; Some 10109; Some 10110; Some 10111; Some 10112; Some 10113; Some 10114; Some 10115; Some 10116; Some 10117; Some 10118; Some 10119; Some 10120; Some 10121; Some 10122; Some 10123; Some 10124; Some 10125; Some 10126; Some 10127; Some 10128; Some 10129; Some 10130; Some 10131; Some 10132; Some 8594; Some 8596; Some 8597; Some 10136; Some 10137; Some 10138; Some 10139; Some 10140; Some 10141; Some 10142; Some 10143; Some 10144; Some 10145; Some 10146; Some 10147; Some 10148; Some 10149; Some 10150; Some 10151; Some 10152; Some 10153; Some 10154; Some 10155; Some 10156; Some 10157; Some 10158; Some 10159; None; Some 10161; Some 10162; Some 10163; Some 10164; Some 10165; Some 10166; Some 10167; Some 10168; Some 10169; Some 10170; Some 10171; Some 10172; Some 10173; Some 10174; None]];
  cp_encode := [Direct 0 33;
   Direct 127 128;
   Table 9312 9328 9312 [Some 172; Some 173; Some 174; Some 175; Some 176; Some 177; Some 178; Some 179; Some 180; Some 181; None; None; None; None; None; None];
   Table 9984 10176 9984 [None; Some 33; Some 34; Some 35; Some 36; None; Some 38; Some 39; Some 40; Some 41; None; None; Some 44; Some 45; Some 46; Some 47; Some 48; Some 49; Some 50; Some 51; Some 52; Some 53; Some 54; Some 55; Some 56; Some 57; Some 58; Some 59; Some 60; Some 61; Some 62; Some 63; Some 64; Some 65; Some 66; Some 67; Some 68; Some 69; Some 70; Some 71; None; Some 73; Some 74; Some 75; Some 76; Some 77; Some 78; Some 79; Some 80; Some 81; Some 82; Some 83; Some 84; Some 85; Some 86; Some 87; Some 88; Some 89; Some 90; Some 91; Some 92; Some 93; Some 94; Some 95; Some 96; Some 97; Some 98; Some 99; Some 100; Some 101; Some 102; Some 103; Some 104; Some 105; Some 106; Some 107; None; Some 109; None; Some 111; Some 112; Some 113; Some 114; None; None; None; Some 118; None; Some 120; Some 121; Some 122; Some 123; Some 124; Some 125; Some 126; None; None; Some 161; Some 162; Some 163; Some 164; Some 165; Some 166; Some 167; Some 128; Some 129; Some 130; Some 131; Some 132; Some 133; Some 134; Some 135; Some 136; Some 137; Some 138; Some 139; Some 140; Some 141; Some 182; Some 183; Some 184; Some 185; Some 186; Some 187; Some 188; Some 189; Some 190; Some 191; Some 192; Some 193; Some 194; Some 195; Some 196; Some 197; Some 198; Some 199; Some 200; Some 201; Some 202; Some 203; Some 204; Some 205; Some 206; Some 207; Some 208; Some 209; Some 210; Some 211; Some 212; None; None; None; Some 216; Some 217; Some 218; Some 219; Some 220; Some 221; Some 222; Some 223; Some 224; Some 225; Some 226; Some 227; Some 228; Some 229; Some 230; Some 231; Some 232; Some 233; Some 234; Some 235; Some 236; Some 237; Some 238; Some 239; None; Some 241; Some 242; Some 243; Some 244; Some 245; Some 246; Some 247; Some 248; Some 249; Some 250; Some 251; Some 252; Some 253; Some 254; None];
   Table 8594 8595 8594 [Some 213];
   Table 8596 8597 8596 [Some 214];
   Table 8597 8598 8597 [Some 215];
   Table 9632 9633 9632 [Some 110];
   Table 9650 9651 9650 [Some 115];
   Table 9660 9661 9660 [Some 116];
   Table 9670 9671 9670 [Some 117];
   Table 9679 9680 9679 [Some 108];
   Table 9687 9688 9687 [Some 119];
   Table 9733 9734 9733 [Some 72];
   Table 9742 9743 9742 [Some 37];
   Table 9755 9756 9755 [Some 42];
   Table 9758 9759 9758 [Some 43];
   Table 9824 9825 9824 [Some 171];
   Table 9827 9828 9827 [Some 168];
   Table 9829 9830 9829 [Some 170];
   Table 9830 9831 9830 [Some 169]] |}.

(** mac_farsi.rs: decoder [next] from line 54, encoder [next] from line 421 *)
Definition mac_farsi : code_page := {|
  cp_decode := [Direct 0 128;
   Table 128 256 128 [Some 196; Some 160; Some 199; Some 201; Some 209; Some 214; Some 220; Some 225; Some 224; Some 226; Some 228; Some 1722; Some 171; Some 231; Some 233; Some 232; Some 234; Some 235; Some 237; Some 8230; Some 238; Some 239; Some 241; Some 243; Some 187; Some 244; Some 246; Some 247; Some 250; Some 249; Some 251; Some 252; Some 32; Some 33; Some 34; Some 35; Some 36; Some 1642; Some 38; Some 39; Some 40; Some 41; Some 42; Some 43; Some 1548; Some 45; Some 46; Some 47; Some 1776; Some 1777; Some 1778; Some 1779; Some 1780; Some 1781; Some 1782; Some 1783; Some 1784; Some 1785; Some 58; Some 1563; Some 60; Some 61; Some 62; Some 1567; Some 10058; Some 1569; Some 1570; Some 1571; Some 1572; Some 1573; Some 1574; Some 1575; Some 1576; Some 1577; Some 1578; Some 1579; Some 1580; Some 1581; Some 1582; Some 1583; Some 1584; Some 1585; Some 1586; Some 1587; Some 1588; Some 1589; Some 1590; Some 1591; Some 1592; Some 1593; Some 1594; Some 91; Some 92; Some 93; Some 94; Some 95; Some 1600; Some 1601; Some 1602; Some 1603; Some 1604; Some 1605; Some 1606; Some 1607; Some 1608; Some 1609; Some 1610; Some 1611; Some 1612; Some 1613; Some 1614; Some 1615; Some 1616; Some 1617; Some 1618; Some 1662; Some 1657; Some 1670; Some 1749; Some 1700; Some 1711; Some 1672; Some 1681; Some 123; Some 124; Some 125; Some 1688; Some 1746]];
  cp_encode := [Direct 0 32;
   Direct 64 91;
   Direct 96 123;
   Direct 126 128;
   Table 32 64 32 [Some 160; Some 161; Some 162; Some 163; Some 164; Some 37; Some 166; Some 167; Some 168; Some 169; Some 170; Some 171; Some 44; Some 173; Some 174; Some 175; Some 48; Some 49; Some 50; Some 51; Some 52; Some 53; Some 54; Some 55; Some 56; Some 57; Some 186; Some 59; Some 188; Some 189; Some 190; Some 63];
   Table 160 256 160 [Some 129; None; None; None; None; None; None; None; None; None; None; Some 140; None; None; None; None; None; None; None; None; None; None; None; None; None; None; None; Some 152; None; None; None; None; None; None; None; None; Some 128; None; None; Some 130; None; Some 131; None; None; None; None; None; None; None; Some 132; None; None; None; None; Some 133; None; None; None; None; None; Some 134; None; None; None; Some 136; Some 135; Some 137; None; Some 138; None; None; Some 141; Some 143; Some 142; Some 144; Some 145; None; Some 146; Some 148; Some 149; None; Some 150; None; Some 151; Some 153; None; Some 154; Some 155; None; Some 157; Some 156; Some 158; Some 159; None; None; None];
   Table 1544 1624 1544 [None; None; None; None; Some 172; None; None; None; None; None; None; None; None; None; None; None; None; None; None; Some 187; None; None; None; Some 191; None; Some 193; Some 194; Some 195; Some 196; Some 197; Some 198; Some 199; Some 200; Some 201; Some 202; Some 203; Some 204; Some 205; Some 206; Some 207; Some 208; Some 209; Some 210; Some 211; Some 212; Some 213; Some 214; Some 215; Some 216; Some 217; Some 218; None; None; None; None; None; Some 224; Some 225; Some 226; Some 227; Some 228; Some 229; Some 230; Some 231; Some 232; Some 233; Some 234; Some 235; Some 236; Some 237; Some 238; Some 239; Some 240; Some 241; Some 242; None; None; None; None; None];
   Table 1640 1728 1640 [None; None; Some 165; None; None; None; None; None; None; None; None; None; None; None; None; None; None; Some 244; None; None; None; None; Some 243; None; None; None; None; None; None; None; Some 245; None; Some 249; None; None; None; None; None; None; None; None; Some 250; None; None; None; None; None; None; Some 254; None; None; None; None; None; None; None; None; None; None; None; Some 247; None; None; None; None; None; None; None; None; None; None; Some 248; None; None; None; None; None; None; None; None; None; None; Some 139; None; None; None; None; None];
   Table 1776 1792 1776 [Some 176; Some 177; Some 178; Some 179; Some 180; Some 181; Some 182; Some 183; Some 184; Some 185; None; None; None; None; None; None];
   Table 91 92 91 [Some 219];
   Table 92 93 92 [Some 220];
   Table 93 94 93 [Some 221];
   Table 94 95 94 [Some 222];
   Table 95 96 95 [Some 223];
   Table 123 124 123 [Some 251];
   Table 124 125 124 [Some 252];
   Table 125 126 125 [Some 253];
   Table 1746 1747 1746 [Some 255];
   Table 1749 1750 1749 [Some 246];
   Table 8230 8231 8230 [Some 147];
   Table 10058 10059 10058 [Some 192]] |}.

(** mac_gaelic.rs: decoder [next] from line 54, encoder [next] from line 236 *)
Definition mac_gaelic : code_page := {|
  cp_decode := [Direct 0 128;
   Table 128 256 128 [Some 196; Some 197; Some 199; Some 201; Some 209; Some 214; Some 220; Some 225; Some 224; Some 226; Some 228; Some 227; Some 229; Some 231; Some 233; Some 232; Some 234; Some 235; Some 237; Some 236; Some 238; Some 239; Some 241; Some 243; Some 242; Some 244; Some 246; Some 245; Some 250; Some 249; Some 251; Some 252; Some 8224; Some 176; Some 162; Some 163; Some 167; Some 8226; Some 182; Some 223; Some 174; Some 169; Some 8482; Some 180; Some 168; Some 8800; Some 198; Some 216; Some 7682; Some 177; Some 8804; Some 8805; Some 7683; Some 266; Some 267; Some 7690; Some 7691; Some 7710; Some 7711; Some 288; Some 289; Some 7744; Some 230; Some 248; Some 7745; Some 7766; Some 7767; Some 636; Some 402; Some 383; Some 7776; Some 171; Some 187; Some 8230; Some 160; Some 192; Some 195; Some 213; Some 338; Some 339; Some 8211; Some 8212; Some 8220; Some 8221; Some 8216; Some 8217; Some 7777; Some 7835; Some 255; Some 376; Some 7786; Some 8364; Some 8249; Some 8250; Some 374; Some 375; Some 7787; Some 183; Some 7922; Some 7923; Some 8266; Some 194; Some 202; Some 193; Some 203; Some 200; Some 205; Some 206; Some 207; Some 204; Some 211; Some 212; Some 9827; Some 210; Some 218; Some 219; Some 217; Some 305; Some 221; Some 253; Some 372; Some 373; Some 7812; Some 7813; Some 7808; Some 7809; Some 7810; Some 7811]];
  cp_encode := [Direct 0 128;
   Table 160 272 160 [Some 202; None; Some 162; Some 163; None; None; None; Some 164; Some 172; Some 169; None; Some 199; None; None; Some 168; None; Some 161; Some 177; None; None; Some 171; None; Some 166; Some 225; None; None; None; Some 200; None; None; None; None; Some 203; Some 231; Some 229; Some 204; Some 128; Some 129; Some 174; Some 130; Some 233; Some 131; Some 230; Some 232; Some 237; Some 234; Some 235; Some 236; None; Some 132; Some 241; Some 238; Some 239; Some 205; Some 133; None; Some 175; Some 244; Some 242; Some 243; Some 134; Some 246; None; Some 167; Some 136; Some 135; Some 137; Some 139; Some 138; Some 140; Some 190; Some 141; Some 143; Some 142; Some 144; Some 145; Some 147; Some 146; Some 148; Some 149; None; Some 150; Some 152; Some 151; Some 153; Some 155; Some 154; None; Some 191; Some 157; Some 156; Some 158; Some 159; Some 247; None; Some 216; None; None; None; None; None; None; None; None; None; None; Some 181; Some 182; None; None; None; None];
   Table 8208 8232 8208 [None; None; None; Some 208; Some 209; None; None; None; Some 212; Some 213; None; None; Some 210; Some 211; None; None; Some 160; None; Some 165; None; None; None; Some 201; None];
   Table 288 289 288 [Some 187];
   Table 289 290 289 [Some 188];
   Table 305 306 305 [Some 245];
   Table 338 339 338 [Some 206];
   Table 339 340 339 [Some 207];
   Table 372 373 372 [Some 248];
   Table 373 374 373 [Some 249];
   Table 374 375 374 [Some 222];
   Table 375 376 375 [Some 223];
   Table 376 377 376 [Some 217];
   Table 383 384 383 [Some 197];
   Table 402 403 402 [Some 196];
   Table 636 637 636 [Some 195];
   Table 7682 7683 7682 [Some 176];
   Table 7683 7684 7683 [Some 180];
   Table 7690 7691 7690 [Some 183];
   Table 7691 7692 7691 [Some 184];
   Table 7710 7711 7710 [Some 185];
   Table 7711 7712 7711 [Some 186];
   Table 7744 7745 7744 [Some 189];
   Table 7745 7746 7745 [Some 192];
   Table 7766 7767 7766 [Some 193];
   Table 7767 7768 7767 [Some 194];
   Table 7776 7777 7776 [Some 198];
   Table 7777 7778 7777 [Some 214];
   Table 7786 7787 7786 [Some 218];
   Table 7787 7788 7787 [Some 224];
   Table 7808 7809 7808 [Some 252];
   Table 7809 7810 7809 [Some 253];
   Table 7810 7811 7810 [Some 254];
   Table 7811 7812 7811 [Some 255];
   Table 7812 7813 7812 [Some 250];
   Table 7813 7814 7813 [Some 251];
   Table 7835 7836 7835 [Some 215];
   Table 7922 7923 7922 [Some 226];
   Table 7923 7924 7923 [Some 227];
   Table 8249 8250 8249 [Some 220];
   Table 8250 8251 8250 [Some 221];
   Table 8266 8267 8266 [Some 228];
   Table 8364 8365 8364 [Some 219];
   Table 8482 8483 8482 [Some 170];
   Table 8800 8801 8800 [Some 173];
   Table 8804 8805 8804 [Some 178];
   Table 8805 8806 8805 [Some 179];
   Table 9827 9828 9827 [Some 240]] |}.

(** windows1250.rs: decoder [next] from line 170, encoder [next] from line 483 *)
Definition windows1250 : code_page := {|
  cp_decode := [Direct 0 128;
   Table 128 256 128 [Some 8364; None; Some 8218; None; Some 8222; Some 8230; Some 8224; Some 8225; None; Some 8240; Some 352; Some 8249; Some 346; Some 356; Some 381; Some 377; None; Some 8216; Some 8217; Some 8220; Some 8221; Some 8226; Some 8211; Some 8212; None; Some 8482; Some 353; Some 8250; Some 347; Some 357; Some 382; Some 378; Some 160; Some 711; Some 728; Some 321; Some 164; Some 260; Some 166; Some 167; Some 168; Some 169; Some 350; Some 171; Some 172; Some 173; Some 174; Some 379; Some 176; Some 177; Some 731; Some 322; Some 180; Some 181; Some 182; Some 183; Some 184; Some 261; Some 351; Some 187; Some 317; Some 733; Some 318; Some 380; Some 340; Some 193; Some 194; Some 258; Some 196; Some 313; Some 262; Some 199; Some 268; Some 201; Some 280; Some 203; Some 282; Some 205; Some 206; Some 270; Some 272; Some 323; Some 327; Some 211; Some 212; Some 336; Some 214; Some 215; Some 344; Some 366; Some 218; Some 368; Some 220; Some 221; Some 354; Some 223; Some 341; Some 225; Some 226; Some 259; Some 228; Some 314; Some 263; Some 231; Some 269; Some 233; Some 281; Some 235; Some 283; Some 237; Some 238; Some 271; Some 273; Some 324; Some 328; Some 243; Some 244; Some 337; Some 246; Some 247; Some 345; Some 367; Some 250; Some 369; Some 252; Some 253; Some 355; Some 729]];
  cp_encode := [Direct 0 128;
   Table 160 288 160 [Some 160; None; None; None; Some 164; None; Some 166; Some 167; Some 168; Some 169; None; Some 171; Some 172; Some 173; Some 174; None; Some 176; Some 177; None; None; Some 180; Some 181; Some 182; Some 183; Some 184; None; None; Some 187; None; None; None; None; None; Some 193; Some 194; None; Some 196; None; None; Some 199; None; Some 201; None; Some 203; None; Some 205; Some 206; None; None; None; None; Some 211; Some 212; None; Some 214; Some 215; None; None; Some 218; None; Some 220; Some 221; None; Some 223; None; Some 225; Some 226; None; Some 228; None; None; Some 231; None; Some 233; None; Some 235; None; Some 237; Some 238; None; None; None; None; Some 243; Some 244; None; Some 246; Some 247; None; None; Some 250; None; Some 252; Some 253; None; None; None; None; Some 195; Some 227; Some 165; Some 185; Some 198; Some 230; None; None; None; None; Some 200; Some 232; Some 207; Some 239; Some 208; Some 240; None; None; None; None; None; None; Some 202; Some 234; Some 204; Some 236; None; None; None; None];
   Table 312 384 312 [None; Some 197; Some 229; None; None; Some 188; Some 190; None; None; Some 163; Some 179; Some 209; Some 241; None; None; Some 210; Some 242; None; None; None; None; None; None; None; Some 213; Some 245; None; None; Some 192; Some 224; None; None; Some 216; Some 248; Some 140; Some 156; None; None; Some 170; Some 186; Some 138; Some 154; Some 222; Some 254; Some 141; Some 157; None; None; None; None; None; None; None; None; Some 217; Some 249; Some 219; Some 251; None; None; None; None; None; None; None; Some 143; Some 159; Some 175; Some 191; Some 142; Some 158; None];
   Table 728 736 728 [Some 162; Some 255; None; Some 178; None; Some 189; None; None];
   Table 8208 8256 8208 [None; None; None; Some 150; Some 151; None; None; None; Some 145; Some 146; Some 130; None; Some 147; Some 148; Some 132; None; Some 134; Some 135; Some 149; None; None; None; Some 133; None; None; None; None; None; None; None; None; None; Some 137; None; None; None; None; None; None; None; None; Some 139; Some 155; None; None; None; None; None];
   Table 711 712 711 [Some 161];
   Table 8364 8365 8364 [Some 128];
   Table 8482 8483 8482 [Some 153]] |}.

(** windows1251.rs: decoder [next] from line 170, encoder [next] from line 376 *)
Definition windows1251 : code_page := {|
  cp_decode := [Direct 0 128;
   Table 128 256 128 [Some 1026; Some 1027; Some 8218; Some 1107; Some 8222; Some 8230; Some 8224; Some 8225; Some 8364; Some 8240; Some 1033; Some 8249; Some 1034; Some 1036; Some 1035; Some 1039; Some 1106; Some 8216; Some 8217; Some 8220; Some 8221; Some 8226; Some 8211; Some 8212; None; Some 8482; Some 1113; Some 8250; Some 1114; Some 1116; Some 1115; Some 1119; Some 160; Some 1038; Some 1118; Some 1032; Some 164; Some 1168; Some 166; Some 167; Some 1025; Some 169; Some 1028; Some 171; Some 172; Some 173; Some 174; Some 1031; Some 176; Some 177; Some 1030; Some 1110; Some 1169; Some 181; Some 182; Some 183; Some 1105; Some 8470; Some 1108; Some 187; Some 1112; Some 1029; Some 1109; Some 1111; Some 1040; Some 1041; Some 1042; Some 1043; Some 1044; Some 1045; Some 1046; Some 1047; Some 1048; Some 1049; Some 1050; Some 1051; Some 1052; Some 1053; Some 1054; Some 1055; Some 1056; Some 1057; Some 1058; Some 1059; Some 1060; Some 1061; Some 1062; Some 1063; Some 1064; Some 1065; Some 1066; Some 1067; Some 1068; Some 1069; Some 1070; Some 1071; Some 1072; Some 1073; Some 1074; Some 1075; Some 1076; Some 1077; Some 1078; Some 1079; Some 1080; Some 1081; Some 1082; Some 1083; Some 1084; Some 1085; Some 1086; Some 1087; Some 1088; Some 1089; Some 1090; Some 1091; Some 1092; Some 1093; Some 1094; Some 1095; Some 1096; Some 1097; Some 1098; Some 1099; Some 1100; Some 1101; Some 1102; Some 1103]];
  cp_encode := [Direct 0 128;
   Table 160 192 160 [Some 160; None; None; None; Some 164; None; Some 166; Some 167; None; Some 169; None; Some 171; Some 172; Some 173; Some 174; None; Some 176; Some 177; None; None; None; Some 181; Some 182; Some 183; None; None; None; Some 187; None; None; None; None];
   Table 1024 1120 1024 [None; Some 168; Some 128; Some 129; Some 170; Some 189; Some 178; Some 175; Some 163; Some 138; Some 140; Some 142; Some 141; None; Some 161; Some 143; Some 192; Some 193; Some 194; Some 195; Some 196; Some 197; Some 198; Some 199; Some 200; Some 201; Some 202; Some 203; Some 204; Some 205; Some 206; Some 207; Some 208; Some 209; Some 210; Some 211; Some 212; Some 213; Some 214; Some 215; Some 216; Some 217; Some 218; Some 219; Some 220; Some 221; Some 222; Some 223; Some 224; Some 225; Some 226; Some 227; Some 228; Some 229; Some 230; Some 231; Some 232; Some 233; Some 234; Some 235; Some 236; Some 237; Some 238; Some 239; Some 240; Some 241; Some 242; Some 243; Some 244; Some 245; Some 246; Some 247; Some 248; Some 249; Some 250; Some 251; Some 252; Some 253; Some 254; Some 255; None; Some 184; Some 144; Some 131; Some 186; Some 190; Some 179; Some 191; Some 188; Some 154; Some 156; Some 158; Some 157; None; Some 162; Some 159];
   Table 8208 8232 8208 [None; None; None; Some 150; Some 151; None; None; None; Some 145; Some 146; Some 130; None; Some 147; Some 148; Some 132; None; Some 134; Some 135; Some 149; None; None; None; Some 133; None];
   Table 1168 1169 1168 [Some 165];
   Table 1169 1170 1169 [Some 180];
   Table 8240 8241 8240 [Some 137];
   Table 8249 8250 8249 [Some 139];
   Table 8250 8251 8250 [Some 155];
   Table 8364 8365 8364 [Some 136];
   Table 8470 8471 8470 [Some 185];
   Table 8482 8483 8482 [Some 153]] |}.

(** windows1252.rs: decoder [next] from line 74, encoder [next] from line 146 *)
Definition windows1252 : code_page := {|
  cp_decode := [Direct 0 128;
   Direct 160 256;
   Table 128 160 128 [Some 8364; None; Some 8218; Some 402; Some 8222; Some 8230; Some 8224; Some 8225; Some 710; Some 8240; Some 352; Some 8249; Some 338; None; Some 381; None; None; Some 8216; Some 8217; Some 8220; Some 8221; Some 8226; Some 8211; Some 8212; Some 732; Some 8482; Some 353; Some 8250; Some 339; None; Some 382; Some 376]];
  cp_encode := [Direct 0 128;
   Direct 160 256;
   Table 8208 8232 8208 [None; None; None; Some 150; Some 151; None; None; None; Some 145; Some 146; Some 130; None; Some 147; Some 148; Some 132; None; Some 134; Some 135; Some 149; None; None; None; Some 133; None];
   Table 338 339 338 [Some 140];
   Table 339 340 339 [Some 156];
   Table 352 353 352 [Some 138];
   Table 353 354 353 [Some 154];
   Table 376 377 376 [Some 159];
   Table 381 382 381 [Some 142];
   Table 382 383 382 [Some 158];
   Table 402 403 402 [Some 131];
   Table 710 711 710 [Some 136];
   Table 732 733 732 [Some 152];
   Table 8240 8241 8240 [Some 137];
   Table 8249 8250 8249 [Some 139];
   Table 8250 8251 8250 [Some 155];
   Table 8364 8365 8364 [Some 128];
   Table 8482 8483 8482 [Some 153]] |}.

(** windows1253.rs: decoder [next] from line 170, encoder [next] from line 360 *)
Definition windows1253 : code_page := {|
  cp_decode := [Direct 0 128;
   Table 128 256 128 [Some 8364; None; Some 8218; Some 402; Some 8222; Some 8230; Some 8224; Some 8225; None; Some 8240; None; Some 8249; None; None; None; None; None; Some 8216; Some 8217; Some 8220; Some 8221; Some 8226; Some 8211; Some 8212; None; Some 8482; None; Some 8250; None; None; None; None; Some 160; Some 901; Some 902; Some 163; Some 164; Some 165; Some 166; Some 167; Some 168; Some 169; None; Some 171; Some 172; Some 173; Some 174; Some 8213; Some 176; Some 177; Some 178; Some 179; Some 900; Some 181; Some 182; Some 183; Some 904; Some 905; Some 906; Some 187; Some 908; Some 189; Some 910; Some 911; Some 912; Some 913; Some 914; Some 915; Some 916; Some 917; Some 918; Some 919; Some 920; Some 921; Some 922; Some 923; Some 924; Some 925; Some 926; Some 927; Some 928; Some 929; None; Some 931; Some 932; Some 933; Some 934; Some 935; Some 936; Some 937; Some 938; Some 939; Some 940; Some 941; Some 942; Some 943; Some 944; Some 945; Some 946; Some 947; Some 948; Some 949; Some 950; Some 951; Some 952; Some 953; Some 954; Some 955; Some 956; Some 957; Some 958; Some 959; Some 960; Some 961; Some 962; Some 963; Some 964; Some 965; Some 966; Some 967; Some 968; Some 969; Some 970; Some 971; Some 972; Some 973; Some 974; None]];
  cp_encode := [Direct 0 128;
   Table 160 192 160 [Some 160; None; None; Some 163; Some 164; Some 165; Some 166; Some 167; Some 168; Some 169; None; Some 171; Some 172; Some 173; Some 174; None; Some 176; Some 177; Some 178; Some 179; None; Some 181; Some 182; Some 183; None; None; None; Some 187; None; Some 189; None; None];
   Table 896 976 896 [None; None; None; None; Some 180; Some 161; Some 162; None; Some 184; Some 185; Some 186; None; Some 188; None; Some 190; Some 191; Some 192; Some 193; Some 194; Some 195; Some 196; Some 197; Some 198; Some 199; Some 200; Some 201; Some 202; Some 203; Some 204; Some 205; Some 206; Some 207; Some 208; Some 209; None; Some 211; Some 212; Some 213; Some 214; Some 215; Some 216; Some 217; Some 218; Some 219; Some 220; Some 221; Some 222; Some 223; Some 224; Some 225; Some 226; Some 227; Some 228; Some 229; Some 230; Some 231; Some 232; Some 233; Some 234; Some 235; Some 236; Some 237; Some 238; Some 239; Some 240; Some 241; Some 242; Some 243; Some 244; Some 245; Some 246; Some 247; Some 248; Some 249; Some 250; Some 251; Some 252; Some 253; Some 254; None];
   Table 8208 8232 8208 [None; None; None; Some 150; Some 151; Some 175; None; None; Some 145; Some 146; Some 130; None; Some 147; Some 148; Some 132; None; Some 134; Some 135; Some 149; None; None; None; Some 133; None];
   Table 402 403 402 [Some 131];
   Table 8240 8241 8240 [Some 137];
   Table 8249 8250 8249 [Some 139];
   Table 8250 8251 8250 [Some 155];
   Table 8364 8365 8364 [Some 128];
   Table 8482 8483 8482 [Some 153]] |}.

(** windows1254.rs: decoder [next] from line 84, encoder [next] from line 208 *)
Definition windows1254 : code_page := {|
  cp_decode := [Direct 0 128;
   Table 128 160 128 [Some 8364; None; Some 8218; Some 402; Some 8222; Some 8230; Some 8224; Some 8225; Some 710; Some 8240; Some 352; Some 8249; Some 338; None; None; None; None; Some 8216; Some 8217; Some 8220; Some 8221; Some 8226; Some 8211; Some 8212; Some 732; Some 8482; Some 353; Some 8250; Some 339; None; None; Some 376];
   Direct 160 208;
   Table 208 224 208 [Some 286; Some 209; Some 210; Some 211; Some 212; Some 213; Some 214; Some 215; Some 216; Some 217; Some 218; Some 219; Some 220; Some 304; Some 350; Some 223];
   Direct 224 240;
   Table 240 256 240 [Some 287; Some 241; Some 242; Some 243; Some 244; Some 245; Some 246; Some 247; Some 248; Some 249; Some 250; Some 251; Some 252; Some 305; Some 351; Some 255]];
  cp_encode := [Direct 0 128;
   Direct 160 208;
   Table 208 256 208 [None; Some 209; Some 210; Some 211; Some 212; Some 213; Some 214; Some 215; Some 216; Some 217; Some 218; Some 219; Some 220; None; None; Some 223; Some 224; Some 225; Some 226; Some 227; Some 228; Some 229; Some 230; Some 231; Some 232; Some 233; Some 234; Some 235; Some 236; Some 237; Some 238; Some 239; None; Some 241; Some 242; Some 243; Some 244; Some 245; Some 246; Some 247; Some 248; Some 249; Some 250; Some 251; Some 252; None; None; Some 255];
   Table 8208 8232 8208 [None; None; None; Some 150; Some 151; None; None; None; Some 145; Some 146; Some 130; None; Some 147; Some 148; Some 132; None; Some 134; Some 135; Some 149; None; None; None; Some 133; None];
   Table 286 287 286 [Some 208];
   Table 287 288 287 [Some 240];
   Table 304 305 304 [Some 221];
   Table 305 306 305 [Some 253];
   Table 338 339 338 [Some 140];
   Table 339 340 339 [Some 156];
   Table 350 351 350 [Some 222];
   Table 351 352 351 [Some 254];
   Table 352 353 352 [Some 138];
   Table 353 354 353 [Some 154];
   Table 376 377 376 [Some 159];
   Table 402 403 402 [Some 131];
   Table 710 711 710 [Some 136];
   Table 732 733 732 [Some 152];
   Table 8240 8241 8240 [Some 137];
   Table 8249 8250 8249 [Some 139];
   Table 8250 8251 8250 [Some 155];
   Table 8364 8365 8364 [Some 128];
   Table 8482 8483 8482 [Some 153]] |}.

(** windows1255.rs: decoder [next] from line 170, encoder [next] from line 352 *)
Definition windows1255 : code_page := {|
  cp_decode := [Direct 0 128;
   Table 128 256 128 [Some 8364; None; Some 8218; Some 402; Some 8222; Some 8230; Some 8224; Some 8225; Some 710; Some 8240; None; Some 8249; None; None; None; None; None; Some 8216; Some 8217; Some 8220; Some 8221; Some 8226; Some 8211; Some 8212; Some 732; Some 8482; None; Some 8250; None; None; None; None; Some 160; Some 161; Some 162; Some 163; Some 8362; Some 165; Some 166; Some 167; Some 168; Some 169; Some 215; Some 171; Some 172; Some 173; Some 174; Some 175; Some 176; Some 177; Some 178; Some 179; Some 180; Some 181; Some 182; Some 183; Some 184; Some 185; Some 247; Some 187; Some 188; Some 189; Some 190; Some 191; Some 1456; Some 1457; Some 1458; Some 1459; Some 1460; Some 1461; Some 1462; Some 1463; Some 1464; Some 1465; None; Some 1467; Some 1468; Some 1469; Some 1470; Some 1471; Some 1472; Some 1473; Some 1474; Some 1475; Some 1520; Some 1521; Some 1522; Some 1523; Some 1524; None; None; None; None; None; None; None; Some 1488; Some 1489; Some 1490; Some 1491; Some 1492; Some 1493; Some 1494; Some 1495; Some 1496; Some 1497; Some 1498; Some 1499; Some 1500; Some 1501; Some 1502; Some 1503; Some 1504; Some 1505; Some 1506; Some 1507; Some 1508; Some 1509; Some 1510; Some 1511; Some 1512; Some 1513; Some 1514; None; None; Some 8206; Some 8207; None]];
  cp_encode := [Direct 0 128;
   Table 160 192 160 [Some 160; Some 161; Some 162; Some 163; None; Some 165; Some 166; Some 167; Some 168; Some 169; None; Some 171; Some 172; Some 173; Some 174; Some 175; Some 176; Some 177; Some 178; Some 179; Some 180; Some 181; Some 182; Some 183; Some 184; Some 185; None; Some 187; Some 188; Some 189; Some 190; Some 191];
   Table 1456 1528 1456 [Some 192; Some 193; Some 194; Some 195; Some 196; Some 197; Some 198; Some 199; Some 200; Some 201; None; Some 203; Some 204; Some 205; Some 206; Some 207; Some 208; Some 209; Some 210; Some 211; None; None; None; None; None; None; None; None; None; None; None; None; Some 224; Some 225; Some 226; Some 227; Some 228; Some 229; Some 230; Some 231; Some 232; Some 233; Some 234; Some 235; Some 236; Some 237; Some 238; Some 239; Some 240; Some 241; Some 242; Some 243; Some 244; Some 245; Some 246; Some 247; Some 248; Some 249; Some 250; None; None; None; None; None; Some 212; Some 213; Some 214; Some 215; Some 216; None; None; None];
   Table 8208 8232 8208 [None; None; None; Some 150; Some 151; None; None; None; Some 145; Some 146; Some 130; None; Some 147; Some 148; Some 132; None; Some 134; Some 135; Some 149; None; None; None; Some 133; None];
   Table 215 216 215 [Some 170];
   Table 247 248 247 [Some 186];
   Table 402 403 402 [Some 131];
   Table 710 711 710 [Some 136];
   Table 732 733 732 [Some 152];
   Table 8206 8207 8206 [Some 253];
   Table 8207 8208 8207 [Some 254];
   Table 8240 8241 8240 [Some 137];
   Table 8249 8250 8249 [Some 139];
   Table 8250 8251 8250 [Some 155];
   Table 8362 8363 8362 [Some 164];
   Table 8364 8365 8364 [Some 128];
   Table 8482 8483 8482 [Some 153]] |}.

(** windows1256.rs: decoder [next] from line 54, encoder [next] from line 266 *)
Definition windows1256 : code_page := {|
  cp_decode := [Direct 0 128;
   Table 128 256 128 [Some 8364; Some 1662; Some 8218; Some 402; Some 8222; Some 8230; Some 8224; Some 8225; Some 710; Some 8240; Some 1657; Some 8249; Some 338; Some 1670; Some 1688; Some 1672; Some 1711; Some 8216; Some 8217; Some 8220; Some 8221; Some 8226; Some 8211; Some 8212; Some 1705; Some 8482; Some 1681; Some 8250; Some 339; Some 8204; Some 8205; Some 1722; Some 160; Some 1548; Some 162; Some 163; Some 164; Some 165; Some 166; Some 167; Some 168; Some 169; Some 1726; Some 171; Some 172; Some 173; Some 174; Some 175; Some 176; Some 177; Some 178; Some 179; Some 180; Some 181; Some 182; Some 183; Some 184; Some 185; Some 1563; Some 187; Some 188; Some 189; Some 190; Some 1567; Some 1729; Some 1569; Some 1570; Some 1571; Some 1572; Some 1573; Some 1574; Some 1575; Some 1576; Some 1577; Some 1578; Some 1579; Some 1580; Some 1581; Some 1582; Some 1583; Some 1584; Some 1585; Some 1586; Some 1587; Some 1588; Some 1589; Some 1590; Some 215; Some 1591; Some 1592; Some 1593; Some 1594; Some 1600; Some 1601; Some 1602; Some 1603; Some 224; Some 1604; Some 226; Some 1605; Some 1606; Some 1607; Some 1608; Some 231; Some 232; Some 233; Some 234; Some 235; Some 1609; Some 1610; Some 238; Some 239; Some 1611; Some 1612; Some 1613; Some 1614; Some 244; Some 1615; Some 1616; Some 247; Some 1617; Some 249; Some 1618; Some 251; Some 252; Some 8206; Some 8207; Some 1746]];
  cp_encode := [Direct 0 128;
   Table 160 192 160 [Some 160; None; Some 162; Some 163; Some 164; Some 165; Some 166; Some 167; Some 168; Some 169; None; Some 171; Some 172; Some 173; Some 174; Some 175; Some 176; Some 177; Some 178; Some 179; Some 180; Some 181; Some 182; Some 183; Some 184; Some 185; None; Some 187; Some 188; Some 189; Some 190; None];
   Table 224 256 224 [Some 224; None; Some 226; None; None; None; None; Some 231; Some 232; Some 233; Some 234; Some 235; None; None; Some 238; Some 239; None; None; None; None; Some 244; None; None; Some 247; None; Some 249; None; Some 251; Some 252; None; None; None];
   Table 1560 1624 1560 [None; None; None; Some 186; None; None; None; Some 191; None; Some 193; Some 194; Some 195; Some 196; Some 197; Some 198; Some 199; Some 200; Some 201; Some 202; Some 203; Some 204; Some 205; Some 206; Some 207; Some 208; Some 209; Some 210; Some 211; Some 212; Some 213; Some 214; Some 216; Some 217; Some 218; Some 219; None; None; None; None; None; Some 220; Some 221; Some 222; Some 223; Some 225; Some 227; Some 228; Some 229; Some 230; Some 236; Some 237; Some 240; Some 241; Some 242; Some 243; Some 245; Some 246; Some 248; Some 250; None; None; None; None; None];
   Table 8200 8232 8200 [None; None; None; None; Some 157; Some 158; Some 253; Some 254; None; None; None; Some 150; Some 151; None; None; None; Some 145; Some 146; Some 130; None; Some 147; Some 148; Some 132; None; Some 134; Some 135; Some 149; None; None; None; Some 133; None];
   Table 215 216 215 [Some 215];
   Table 338 339 338 [Some 140];
   Table 339 340 339 [Some 156];
   Table 402 403 402 [Some 131];
   Table 710 711 710 [Some 136];
   Table 1548 1549 1548 [Some 161];
   Table 1657 1658 1657 [Some 138];
   Table 1662 1663 1662 [Some 129];
   Table 1670 1671 1670 [Some 141];
   Table 1672 1673 1672 [Some 143];
   Table 1681 1682 1681 [Some 154];
   Table 1688 1689 1688 [Some 142];
   Table 1705 1706 1705 [Some 152];
   Table 1711 1712 1711 [Some 144];
   Table 1722 1723 1722 [Some 159];
   Table 1726 1727 1726 [Some 170];
   Table 1729 1730 1729 [Some 192];
   Table 1746 1747 1746 [Some 255];
   Table 8240 8241 8240 [Some 137];
   Table 8249 8250 8249 [Some 139];
   Table 8250 8251 8250 [Some 155];
   Table 8364 8365 8364 [Some 128];
   Table 8482 8483 8482 [Some 153]] |}.

(** windows1257.rs: decoder [next] from line 170, encoder [next] from line 469 *)
Definition windows1257 : code_page := {|
  cp_decode := [Direct 0 128;
   Table 128 256 128 [Some 8364; None; Some 8218; None; Some 8222; Some 8230; Some 8224; Some 8225; None; Some 8240; None; Some 8249; None; Some 168; Some 711; Some 184; None; Some 8216; Some 8217; Some 8220; Some 8221; Some 8226; Some 8211; Some 8212; None; Some 8482; None; Some 8250; None; Some 175; Some 731; None; Some 160; None; Some 162; Some 163; Some 164; None; Some 166; Some 167; Some 216; Some 169; Some 342; Some 171; Some 172; Some 173; Some 174; Some 198; Some 176; Some 177; Some 178; Some 179; Some 180; Some 181; Some 182; Some 183; Some 248; Some 185; Some 343; Some 187; Some 188; Some 189; Some 190; Some 230; Some 260; Some 302; Some 256; Some 262; Some 196; Some 197; Some 280; Some 274; Some 268; Some 201; Some 377; Some 278; Some 290; Some 310; Some 298; Some 315; Some 352; Some 323; Some 325; Some 211; Some 332; Some 213; Some 214; Some 215; Some 370; Some 321; Some 346; Some 362; Some 220; Some 379; Some 381; Some 223; Some 261; Some 303; Some 257; Some 263; Some 228; Some 229; Some 281; Some 275; Some 269; Some 233; Some 378; Some 279; Some 291; Some 311; Some 299; Some 316; Some 353; Some 324; Some 326; Some 243; Some 333; Some 245; Some 246; Some 247; Some 371; Some 322; Some 347; Some 363; Some 252; Some 380; Some 382; Some 729]];
  cp_encode := [Direct 0 128;
   Table 160 384 160 [Some 160; None; Some 162; Some 163; Some 164; None; Some 166; Some 167; Some 141; Some 169; None; Some 171; Some 172; Some 173; Some 174; Some 157; Some 176; Some 177; Some 178; Some 179; Some 180; Some 181; Some 182; Some 183; Some 143; Some 185; None; Some 187; Some 188; Some 189; Some 190; None; None; None; None; None; Some 196; Some 197; Some 175; None; None; Some 201; None; None; None; None; None; None; None; None; None; Some 211; None; Some 213; Some 214; Some 215; Some 168; None; None; None; Some 220; None; None; Some 223; None; None; None; None; Some 228; Some 229; Some 191; None; None; Some 233; None; None; None; None; None; None; None; None; None; Some 243; None; Some 245; Some 246; Some 247; Some 184; None; None; None; Some 252; None; None; None; Some 194; Some 226; None; None; Some 192; Some 224; Some 195; Some 227; None; None; None; None; Some 200; Some 232; None; None; None; None; Some 199; Some 231; None; None; Some 203; Some 235; Some 198; Some 230; None; None; None; None; None; None; None; None; Some 204; Some 236; None; None; None; None; None; None; Some 206; Some 238; None; None; Some 193; Some 225; None; None; None; None; None; None; Some 205; Some 237; None; None; None; Some 207; Some 239; None; None; None; None; Some 217; Some 249; Some 209; Some 241; Some 210; Some 242; None; None; None; None; None; Some 212; Some 244; None; None; None; None; None; None; None; None; Some 170; Some 186; None; None; Some 218; Some 250; None; None; None; None; Some 208; Some 240; None; None; None; None; None; None; None; None; Some 219; Some 251; None; None; None; None; None; None; Some 216; Some 248; None; None; None; None; None; Some 202; Some 234; Some 221; Some 253; Some 222; Some 254; None];
   Table 8208 8232 8208 [None; None; None; Some 150; Some 151; None; None; None; Some 145; Some 146; Some 130; None; Some 147; Some 148; Some 132; None; Some 134; Some 135; Some 149; None; None; None; Some 133; None];
   Table 711 712 711 [Some 142];
   Table 729 730 729 [Some 255];
   Table 731 732 731 [Some 158];
   Table 8240 8241 8240 [Some 137];
   Table 8249 8250 8249 [Some 139];
   Table 8250 8251 8250 [Some 155];
   Table 8364 8365 8364 [Some 128];
   Table 8482 8483 8482 [Some 153]] |}.

(** windows1258.rs: decoder [next] from line 170, encoder [next] from line 317 *)
Definition windows1258 : code_page := {|
  cp_decode := [Direct 0 128;
   Table 128 256 128 [Some 8364; None; Some 8218; Some 402; Some 8222; Some 8230; Some 8224; Some 8225; Some 710; Some 8240; None; Some 8249; Some 338; None; None; None; None; Some 8216; Some 8217; Some 8220; Some 8221; Some 8226; Some 8211; Some 8212; Some 732; Some 8482; None; Some 8250; Some 339; None; None; Some 376; Some 160; Some 161; Some 162; Some 163; Some 164; Some 165; Some 166; Some 167; Some 168; Some 169; Some 170; Some 171; Some 172; Some 173; Some 174; Some 175; Some 176; Some 177; Some 178; Some 179; Some 180; Some 181; Some 182; Some 183; Some 184; Some 185; Some 186; Some 187; Some 188; Some 189; Some 190; Some 191; Some 192; Some 193; Some 194; Some 258; Some 196; Some 197; Some 198; Some 199; Some 200; Some 201; Some 202; Some 203; Some 768; Some 205; Some 206; Some 207; Some 272; Some 209; Some 777; Some 211; Some 212; Some 416; Some 214; Some 215; Some 216; Some 217; Some 218; Some 219; Some 220; Some 431; Some 771; Some 223; Some 224; Some 225; Some 226; Some 259; Some 228; Some 229; Some 230; Some 231; Some 232; Some 233; Some 234; Some 235; Some 769; Some 237; Some 238; Some 239; Some 273; Some 241; Some 803; Some 243; Some 244; Some 417; Some 246; Some 247; Some 248; Some 249; Some 250; Some 251; Some 252; Some 432; Some 8363; Some 255]];
  cp_encode := [Direct 0 128;
   Direct 160 192;
   Table 192 264 192 [Some 192; Some 193; Some 194; None; Some 196; Some 197; Some 198; Some 199; Some 200; Some 201; Some 202; Some 203; None; Some 205; Some 206; Some 207; None; Some 209; None; Some 211; Some 212; None; Some 214; Some 215; Some 216; Some 217; Some 218; Some 219; Some 220; None; None; Some 223; Some 224; Some 225; Some 226; None; Some 228; Some 229; Some 230; Some 231; Some 232; Some 233; Some 234; Some 235; None; Some 237; Some 238; Some 239; None; Some 241; None; Some 243; Some 244; None; Some 246; Some 247; Some 248; Some 249; Some 250; Some 251; Some 252; None; None; Some 255; None; None; Some 195; Some 227; None; None; None; None];
   Table 8208 8232 8208 [None; None; None; Some 150; Some 151; None; None; None; Some 145; Some 146; Some 130; None; Some 147; Some 148; Some 132; None; Some 134; Some 135; Some 149; None; None; None; Some 133; None];
   Table 272 273 272 [Some 208];
   Table 273 274 273 [Some 240];
   Table 338 339 338 [Some 140];
   Table 339 340 339 [Some 156];
   Table 376 377 376 [Some 159];
   Table 402 403 402 [Some 131];
   Table 416 417 416 [Some 213];
   Table 417 418 417 [Some 245];
   Table 431 432 431 [Some 221];
   Table 432 433 432 [Some 253];
   Table 710 711 710 [Some 136];
   Table 732 733 732 [Some 152];
   Table 768 769 768 [Some 204];
   Table 769 770 769 [Some 236];
   Table 771 772 771 [Some 222];
   Table 777 778 777 [Some 210];
   Table 803 804 803 [Some 242];
   Table 8240 8241 8240 [Some 137];
   Table 8249 8250 8249 [Some 139];
   Table 8250 8251 8250 [Some 155];
   Table 8363 8364 8363 [Some 254];
   Table 8364 8365 8364 [Some 128];
   Table 8482 8483 8482 [Some 153]] |}.

(** windows874.rs: decoder [next] from line 170, encoder [next] from line 325 *)
Definition windows874 : code_page := {|
  cp_decode := [Direct 0 128;
   Table 128 256 128 [Some 8364; None; None; None; None; Some 8230; None; None; None; None; None; None; None; None; None; None; None; Some 8216; Some 8217; Some 8220; Some 8221; Some 8226; Some 8211; Some 8212; None; None; None; None; None; None; None; None; Some 160; Some 3585; Some 3586; Some 3587; Some 3588; Some 3589; Some 3590; Some 3591; Some 3592; Some 3593; Some 3594; Some 3595; Some 3596; Some 3597; Some 3598; Some 3599; Some 3600; Some 3601; Some 3602; Some 3603; Some 3604; Some 3605; Some 3606; Some 3607; Some 3608; Some 3609; Some 3610; Some 3611; Some 3612; Some 3613; Some 3614; Some 3615; Some 3616; Some 3617; Some 3618; Some 3619; Some 3620; Some 3621; Some 3622; Some 3623; Some 3624; Some 3625; Some 3626; Some 3627; Some 3628; Some 3629; Some 3630; Some 3631; Some 3632; Some 3633; Some 3634; Some 3635; Some 3636; Some 3637; Some 3638; Some 3639; Some 3640; Some 3641; Some 3642; None; None; None; None; Some 3647; Some 3648; Some 3649; Some 3650; Some 3651; Some 3652; Some 3653; Some 3654; Some 3655; Some 3656; Some 3657; Some 3658; Some 3659; Some 3660; Some 3661; Some 3662; Some 3663; Some 3664; Some 3665; Some 3666; Some 3667; Some 3668; Some 3669; Some 3670; Some 3671; Some 3672; Some 3673; Some 3674; Some 3675; None; None; None; None]];
  cp_encode := [Direct 0 128;
   Direct 160 161;
   Table 3584 3680 3584 [None; Some 161; Some 162; Some 163; Some 164; Some 165; Some 166; Some 167; Some 168; Some 169; Some 170; Some 171; Some 172; Some 173; Some 174; Some 175; Some 176; Some 177; Some 178; Some 179; Some 180; Some 181; Some 182; Some 183; Some 184; Some 185; Some 186; Some 187; Some 188; Some 189; Some 190; Some 191; Some 192; Some 193; Some 194; Some 195; Some 196; Some 197; Some 198; Some 199; Some 200; Some 201; Some 202; Some 203; Some 204; Some 205; Some 206; Some 207; Some 208; Some 209; Some 210; Some 211; Some 212; Some 213; Some 214; Some 215; Some 216; Some 217; Some 218; None; None; None; None; Some 223; Some 224; Some 225; Some 226; Some 227; Some 228; Some 229; Some 230; Some 231; Some 232; Some 233; Some 234; Some 235; Some 236; Some 237; Some 238; Some 239; Some 240; Some 241; Some 242; Some 243; Some 244; Some 245; Some 246; Some 247; Some 248; Some 249; Some 250; Some 251; None; None; None; None];
   Table 8216 8224 8216 [Some 145; Some 146; None; None; Some 147; Some 148; None; None];
   Table 8211 8212 8211 [Some 150];
   Table 8212 8213 8212 [Some 151];
   Table 8226 8227 8226 [Some 149];
   Table 8230 8231 8230 [Some 133];
   Table 8364 8365 8364 [Some 128]] |}.
