(** Tables of src/ghash/ghash_lut256.cpp, copied by script. *)
From Verif Require Import Base.

(** ghash_lut256.cpp 25-55 *)
Definition REDUCE_TABLE : list Z := [
  0; 450; 900; 582; 1800; 1738; 1164; 1358; 3600; 4050; 3476; 3158; 2328; 2266; 2716; 2910; 7200;
  7650; 8100; 7782; 6952; 6890; 6316; 6510; 4656; 5106; 4532; 4214; 5432; 5370; 5820; 6014;
  14400; 14722; 15300; 14854; 16200; 16010; 15564; 15630; 13904; 14226; 13780; 13334; 12632;
  12442; 13020; 13086; 9312; 9634; 10212; 9766; 9064; 8874; 8428; 8494; 10864; 11186; 10740;
  10294; 11640; 11450; 12028; 12094; 28800; 28994; 29444; 29382; 30600; 30282; 29708; 30158;
  32400; 32594; 32020; 31958; 31128; 30810; 31260; 31710; 27808; 28002; 28452; 28390; 27560;
  27242; 26668; 27118; 25264; 25458; 24884; 24822; 26040; 25722; 26172; 26622; 18624; 18690;
  19268; 19078; 20424; 19978; 19532; 19854; 18128; 18194; 17748; 17558; 16856; 16410; 16988;
  17310; 21728; 21794; 22372; 22182; 21480; 21034; 20588; 20910; 23280; 23346; 22900; 22710;
  24056; 23610; 24188; 24510; 57600; 57538; 57988; 58182; 58888; 59338; 58764; 58446; 61200;
  61138; 60564; 60758; 59416; 59866; 60316; 59998; 64800; 64738; 65188; 65382; 64040; 64490;
  63916; 63598; 62256; 62194; 61620; 61814; 62520; 62970; 63420; 63102; 55616; 55426; 56004;
  56070; 56904; 57226; 56780; 56334; 55120; 54930; 54484; 54550; 53336; 53658; 54236; 53790;
  50528; 50338; 50916; 50982; 49768; 50090; 49644; 49198; 52080; 51890; 51444; 51510; 52344;
  52666; 53244; 52798; 37248; 36930; 37380; 37830; 38536; 38730; 38156; 38094; 40848; 40530;
  39956; 40406; 39064; 39258; 39708; 39646; 36256; 35938; 36388; 36838; 35496; 35690; 35116;
  35054; 33712; 33394; 32820; 33270; 33976; 34170; 34620; 34558; 43456; 43010; 43588; 43910;
  44744; 44810; 44364; 44174; 42960; 42514; 42068; 42390; 41176; 41242; 41820; 41630; 46560;
  46114; 46692; 47014; 45800; 45866; 45420; 45230; 48112; 47666; 47220; 47542; 48376; 48442;
  49020; 48830].

(** ghash_lut256.cpp 58-75 *)
Definition REV_U8 : list Z := [
  0; 128; 64; 192; 32; 160; 96; 224; 16; 144; 80; 208; 48; 176; 112; 240; 8; 136; 72; 200; 40;
  168; 104; 232; 24; 152; 88; 216; 56; 184; 120; 248; 4; 132; 68; 196; 36; 164; 100; 228; 20;
  148; 84; 212; 52; 180; 116; 244; 12; 140; 76; 204; 44; 172; 108; 236; 28; 156; 92; 220; 60;
  188; 124; 252; 2; 130; 66; 194; 34; 162; 98; 226; 18; 146; 82; 210; 50; 178; 114; 242; 10; 138;
  74; 202; 42; 170; 106; 234; 26; 154; 90; 218; 58; 186; 122; 250; 6; 134; 70; 198; 38; 166; 102;
  230; 22; 150; 86; 214; 54; 182; 118; 246; 14; 142; 78; 206; 46; 174; 110; 238; 30; 158; 94;
  222; 62; 190; 126; 254; 1; 129; 65; 193; 33; 161; 97; 225; 17; 145; 81; 209; 49; 177; 113; 241;
  9; 137; 73; 201; 41; 169; 105; 233; 25; 153; 89; 217; 57; 185; 121; 249; 5; 133; 69; 197; 37;
  165; 101; 229; 21; 149; 85; 213; 53; 181; 117; 245; 13; 141; 77; 205; 45; 173; 109; 237; 29;
  157; 93; 221; 61; 189; 125; 253; 3; 131; 67; 195; 35; 163; 99; 227; 19; 147; 83; 211; 51; 179;
  115; 243; 11; 139; 75; 203; 43; 171; 107; 235; 27; 155; 91; 219; 59; 187; 123; 251; 7; 135; 71;
  199; 39; 167; 103; 231; 23; 151; 87; 215; 55; 183; 119; 247; 15; 143; 79; 207; 47; 175; 111;
  239; 31; 159; 95; 223; 63; 191; 127; 255].
