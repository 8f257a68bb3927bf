(** * The 402 enumerations of [src/common/enums.rs].
    Generated by tools/gen_enums.py from the source text; each definition cites
    the lines of the enum declaration and of its [deserialize]. *)
From Verif Require Import Base EnumModel.
Local Open Scope string_scope.

(** enums.rs:20-30; deserialize 32-37 (get_u8). *)
Definition ProtocolVersion_spec : enum_spec := mk_enum_spec "ProtocolVersion" 1
   [
    0; 1; 2; 3; 4; 5; 6; 7
   ] 7 eq_refl eq_refl.

(** enums.rs:41-116; deserialize 118-123 (get_u8). *)
Definition PduType_spec : enum_spec := mk_enum_spec "PduType" 1
   [
    0; 1; 2; 3; 4; 5; 6; 7; 8; 9; 10; 11; 12; 13; 14; 15; 16; 17; 18; 19; 20; 21; 22; 23; 24; 25; 
    26; 27; 28; 29; 30; 31; 32; 33; 34; 35; 36; 37; 38; 39; 40; 41; 42; 43; 44; 45; 46; 47; 48; 49; 
    50; 51; 52; 53; 54; 55; 56; 57; 58; 59; 60; 61; 62; 63; 64; 65; 66; 67; 68; 69; 70; 71; 72
   ] 0 eq_refl eq_refl.

(** enums.rs:127-143; deserialize 145-150 (get_u8). *)
Definition ProtocolFamily_spec : enum_spec := mk_enum_spec "ProtocolFamily" 1
   [
    0; 1; 2; 3; 4; 5; 6; 7; 8; 9; 10; 11; 12; 13
   ] 0 eq_refl eq_refl.

(** enums.rs:154-187; deserialize 189-194 (get_u8). *)
Definition ForceId_spec : enum_spec := mk_enum_spec "ForceId" 1
   [
    0; 1; 2; 3; 4; 5; 6; 7; 8; 9; 10; 11; 12; 13; 14; 15; 16; 17; 18; 19; 20; 21; 22; 23; 24; 25; 
    26; 27; 28; 29; 30
   ] 0 eq_refl eq_refl.

(** enums.rs:216-228; deserialize 230-235 (get_u8). *)
Definition EntityKind_spec : enum_spec := mk_enum_spec "EntityKind" 1
   [
    0; 1; 2; 3; 4; 5; 6; 7; 8; 9
   ] 0 eq_refl eq_refl.

(** enums.rs:239-247; deserialize 249-254 (get_u8). *)
Definition OtherKinds_spec : enum_spec := mk_enum_spec "OtherKinds" 1
   [
    0; 1; 2; 3; 4; 5
   ] 0 eq_refl eq_refl.

(** enums.rs:258-318; deserialize 320-325 (get_u8). *)
Definition LandDomainCategories_spec : enum_spec := mk_enum_spec "LandDomainCategories" 1
   [
    0; 1; 2; 3; 4; 5; 6; 7; 8; 9; 10; 11; 12; 13; 14; 15; 16; 17; 18; 19; 20; 21; 22; 23; 24; 25; 
    26; 27; 28; 29; 30; 31; 32; 33; 34; 35; 36; 37; 38; 39; 40; 41; 50; 80; 81; 82; 83; 84; 85; 86; 
    87; 88; 89; 90; 91; 92; 93
   ] 0 eq_refl eq_refl.

(** enums.rs:329-365; deserialize 367-372 (get_u8). *)
Definition AirDomainCategories_spec : enum_spec := mk_enum_spec "AirDomainCategories" 1
   [
    0; 1; 2; 3; 4; 5; 6; 7; 8; 9; 20; 21; 22; 23; 24; 25; 26; 40; 50; 57; 80; 81; 83; 84; 85; 86; 
    87; 88; 90; 91; 92; 93; 100; 101
   ] 0 eq_refl eq_refl.

(** enums.rs:376-426; deserialize 428-433 (get_u8). *)
Definition SurfaceDomainCategories_spec : enum_spec := mk_enum_spec "SurfaceDomainCategories" 1
   [
    0; 1; 2; 3; 4; 5; 6; 7; 8; 9; 10; 11; 12; 13; 14; 15; 16; 17; 18; 19; 20; 21; 50; 51; 52; 53; 
    54; 55; 56; 57; 58; 59; 60; 61; 62; 63; 64; 65; 80; 81; 82; 83; 84; 85; 86; 87; 100; 101
   ] 0 eq_refl eq_refl.

(** enums.rs:437-459; deserialize 461-466 (get_u8). *)
Definition SubsurfaceDomainCategories_spec : enum_spec := mk_enum_spec "SubsurfaceDomainCategories" 1
   [
    0; 1; 2; 3; 4; 5; 6; 7; 8; 9; 10; 11; 12; 13; 14; 15; 16; 80; 81; 82
   ] 0 eq_refl eq_refl.

(** enums.rs:470-485; deserialize 487-492 (get_u8). *)
Definition SpaceDomainCategories_spec : enum_spec := mk_enum_spec "SpaceDomainCategories" 1
   [
    0; 1; 2; 3; 10; 11; 12; 13; 14; 15; 16; 17; 18
   ] 0 eq_refl eq_refl.

(** enums.rs:496-511; deserialize 513-518 (get_u8). *)
Definition MunitionKind_spec : enum_spec := mk_enum_spec "MunitionKind" 1
   [
    0; 1; 2; 3; 4; 5; 6; 7; 8; 9; 10; 11; 12
   ] 0 eq_refl eq_refl.

(** enums.rs:522-528; deserialize 530-535 (get_u8). *)
Definition MunitionCategory_spec : enum_spec := mk_enum_spec "MunitionCategory" 1
   [
    0; 1; 2; 3
   ] 0 eq_refl eq_refl.

(** enums.rs:540-664; deserialize 666-671 (get_u8). *)
Definition USWeaponSubcategories_spec : enum_spec := mk_enum_spec "USWeaponSubcategories" 1
   [
    1; 2; 3; 4; 5; 6; 7; 8; 9; 10; 11; 12; 13; 14; 15; 16; 17; 18; 19; 20; 21; 22; 23; 24; 25; 26; 
    27; 28; 29; 30; 31; 32; 33; 34; 35; 36; 37; 38; 39; 40; 41; 42; 43; 44; 45; 46; 47; 48; 49; 50; 
    51; 52; 53; 54; 55; 56; 57; 58; 59; 60; 61; 62; 63; 64; 65; 66; 67; 68; 69; 70; 71; 72; 73; 74; 
    75; 76; 77; 78; 79; 80; 81; 82; 83; 84; 85; 86; 87; 88; 89; 90; 91; 92; 93; 94; 95; 96; 97; 98; 
    99; 100; 101; 102; 103; 104; 105; 106; 107; 108; 109; 110; 111; 112; 113; 114; 115; 116; 117; 
    118; 119; 120; 121; 134
   ] 1 eq_refl eq_refl.

(** enums.rs:675-729; deserialize 731-736 (get_u8). *)
Definition RussiaWeaponSubcategories_spec : enum_spec := mk_enum_spec "RussiaWeaponSubcategories" 1
   [
    201; 202; 203; 204; 205; 206; 207; 208; 209; 210; 211; 212; 213; 214; 215; 216; 217; 218; 219; 
    220; 221; 222; 223; 224; 225; 226; 227; 228; 229; 230; 231; 232; 233; 234; 235; 236; 237; 238; 
    239; 240; 241; 242; 243; 244; 245; 246; 248; 249; 250; 251; 252; 253
   ] 201 eq_refl eq_refl.

(** enums.rs:740-754; deserialize 756-761 (get_u8). *)
Definition UKWeaponSubcategories_spec : enum_spec := mk_enum_spec "UKWeaponSubcategories" 1
   [
    1; 2; 3; 4; 5; 6; 7; 8; 9; 10; 11; 12
   ] 1 eq_refl eq_refl.

(** enums.rs:765-775; deserialize 777-782 (get_u8). *)
Definition FrenchWeaponSubcategories_spec : enum_spec := mk_enum_spec "FrenchWeaponSubcategories" 1
   [
    1; 2; 3; 4; 5; 6; 7; 8
   ] 1 eq_refl eq_refl.

(** enums.rs:786-797; deserialize 799-804 (get_u8). *)
Definition LifeFormsSubcategoryGermanWeapons_spec : enum_spec := mk_enum_spec "LifeFormsSubcategoryGermanWeapons" 1
   [
    1; 2; 3; 4; 5; 6; 7; 8; 9
   ] 1 eq_refl eq_refl.

(** enums.rs:808-816; deserialize 818-823 (get_u8). *)
Definition EnvironmentalSubcategory_spec : enum_spec := mk_enum_spec "EnvironmentalSubcategory" 1
   [
    0; 20; 40; 60; 80; 100
   ] 0 eq_refl eq_refl.

(** enums.rs:827-873; deserialize 875-880 (get_u8). *)
Definition RadioCategory_spec : enum_spec := mk_enum_spec "RadioCategory" 1
   [
    0; 1; 2; 3; 4; 5; 6; 7; 8; 9; 10; 11; 12; 13; 14; 15; 16; 17; 18; 19; 20; 21; 22; 23; 24; 25; 
    26; 27; 28; 29; 30; 31; 32; 33; 34; 35; 36; 37; 38; 40; 41; 42; 50; 51
   ] 0 eq_refl eq_refl.

(** enums.rs:884-946; deserialize 948-953 (get_u8). *)
Definition RadioSubcategory_spec : enum_spec := mk_enum_spec "RadioSubcategory" 1
   [
    0; 1; 2; 3; 11; 12; 13; 14; 15; 16; 17; 18; 19; 20; 21; 22; 23; 24; 25; 26; 27; 28; 29; 30; 31; 
    32; 33; 34; 35; 36; 37; 38; 39; 40; 41; 42; 43; 44; 45; 46; 47; 48; 49; 50; 51; 52; 53; 54; 55; 
    56; 57; 58; 59; 60; 61; 62; 63; 64; 65; 66
   ] 0 eq_refl eq_refl.

(** enums.rs:957-971; deserialize 973-978 (get_u8). *)
Definition ExpendableAirCategory_spec : enum_spec := mk_enum_spec "ExpendableAirCategory" 1
   [
    0; 1; 2; 3; 4; 5; 6; 7; 8; 12; 13; 14
   ] 0 eq_refl eq_refl.

(** enums.rs:982-991; deserialize 993-998 (get_u8). *)
Definition ExpendableSurfaceCategory_spec : enum_spec := mk_enum_spec "ExpendableSurfaceCategory" 1
   [
    0; 2; 4; 5; 8; 12; 14
   ] 0 eq_refl eq_refl.

(** enums.rs:1002-1011; deserialize 1013-1018 (get_u8). *)
Definition ExpendableSubsurfaceCategory_spec : enum_spec := mk_enum_spec "ExpendableSubsurfaceCategory" 1
   [
    0; 4; 5; 7; 9; 10; 11
   ] 0 eq_refl eq_refl.

(** enums.rs:1022-1041; deserialize 1043-1048 (get_u8). *)
Definition SensorEmitterCategory_spec : enum_spec := mk_enum_spec "SensorEmitterCategory" 1
   [
    0; 1; 2; 3; 4; 5; 6; 7; 8; 9; 10; 11; 12; 13; 14; 15; 16
   ] 0 eq_refl eq_refl.

(** enums.rs:1052-1336; deserialize 1338-1343 (get_u16). *)
Definition Country_spec : enum_spec := mk_enum_spec "Country" 2
   [
    0; 1; 2; 3; 4; 5; 6; 7; 8; 9; 10; 11; 12; 13; 14; 15; 16; 17; 18; 19; 20; 21; 22; 23; 24; 25; 
    26; 27; 28; 29; 30; 31; 32; 33; 34; 35; 36; 37; 38; 39; 40; 41; 42; 43; 44; 45; 46; 47; 48; 49; 
    50; 51; 52; 53; 54; 55; 56; 57; 58; 59; 60; 61; 62; 63; 64; 65; 66; 67; 68; 69; 70; 71; 72; 73; 
    74; 75; 76; 77; 78; 79; 80; 81; 82; 83; 84; 85; 86; 87; 88; 89; 90; 91; 92; 93; 94; 95; 96; 97; 
    98; 99; 100; 101; 102; 104; 105; 106; 107; 108; 109; 110; 111; 112; 113; 114; 115; 116; 117; 
    118; 119; 120; 121; 122; 123; 124; 125; 126; 127; 128; 129; 130; 131; 132; 133; 134; 135; 136; 
    137; 138; 139; 140; 141; 142; 143; 144; 145; 146; 147; 148; 149; 150; 151; 152; 153; 154; 155; 
    156; 157; 158; 159; 160; 161; 162; 163; 164; 165; 166; 168; 169; 170; 171; 172; 173; 174; 175; 
    176; 177; 178; 179; 180; 181; 182; 183; 184; 185; 186; 187; 188; 189; 190; 191; 192; 193; 194; 
    195; 196; 197; 198; 199; 200; 201; 202; 203; 204; 205; 206; 207; 208; 209; 210; 211; 212; 213; 
    214; 215; 216; 217; 218; 219; 220; 221; 222; 223; 224; 225; 226; 227; 228; 229; 230; 231; 232; 
    233; 234; 235; 236; 237; 240; 241; 242; 243; 244; 245; 246; 247; 248; 249; 250; 251; 252; 253; 
    254; 255; 256; 257; 258; 259; 260; 261; 262; 263; 264; 265; 266; 267; 268; 269; 270; 271; 272; 
    273; 274; 275; 276; 277; 278; 279; 280; 281; 282
   ] 0 eq_refl eq_refl.

(** enums.rs:1400-1412; deserialize 1414-1419 (get_u8). *)
Definition DeadReckoningAlgorithm_spec : enum_spec := mk_enum_spec "DeadReckoningAlgorithm" 1
   [
    0; 1; 2; 3; 4; 5; 6; 7; 8; 9
   ] 0 eq_refl eq_refl.

(** enums.rs:1441-1447; deserialize 1449-1454 (get_u8). *)
Definition EntityMarkingCharacterSet_spec : enum_spec := mk_enum_spec "EntityMarkingCharacterSet" 1
   [
    0; 1; 2; 3
   ] 0 eq_refl eq_refl.

(** enums.rs:1458-1473; deserialize 1475-1480 (get_u32). *)
Definition EntityCapabilities_spec : enum_spec := mk_enum_spec "EntityCapabilities" 4
   [
    0; 1; 2; 3; 4; 5; 6; 7; 8; 9; 10; 11; 12
   ] 0 eq_refl eq_refl.

(** enums.rs:1502-1509; deserialize 1511-1516 (get_u8). *)
Definition VariableParameterRecordType_spec : enum_spec := mk_enum_spec "VariableParameterRecordType" 1
   [
    0; 1; 2; 3; 4
   ] 0 eq_refl eq_refl.

(** enums.rs:1520-1537; deserialize 1539-1544 (get_u32). *)
Definition AttachedParts_spec : enum_spec := mk_enum_spec "AttachedParts" 4
   [
    0; 1; 512; 640; 768; 896; 897; 898; 899; 900; 901; 902; 903; 904; 905
   ] 0 eq_refl eq_refl.

(** enums.rs:1548-1567; deserialize 1569-1574 (get_u8). *)
Definition ArticulatedPartsTypeMetric_spec : enum_spec := mk_enum_spec "ArticulatedPartsTypeMetric" 1
   [
    0; 1; 2; 3; 4; 5; 6; 7; 8; 9; 10; 11; 12; 13; 14; 15; 16
   ] 0 eq_refl eq_refl.

(** enums.rs:1578-1838; deserialize 1840-1845 (get_u32). *)
Definition ArticulatedPartsTypeClass_spec : enum_spec := mk_enum_spec "ArticulatedPartsTypeClass" 4
   [
    0; 1024; 1056; 1088; 1120; 1152; 1184; 1216; 1248; 1280; 1312; 1344; 1376; 1408; 1440; 1472; 
    1504; 1536; 1568; 1600; 1632; 1664; 1696; 1728; 1760; 1792; 1824; 1856; 1888; 1920; 1952; 1984; 
    2048; 2080; 2112; 2144; 2176; 2208; 2240; 2272; 2304; 2336; 3072; 3104; 3136; 3168; 3200; 3232; 
    3264; 3296; 3328; 3360; 3392; 3424; 3456; 3488; 3520; 3552; 3584; 3616; 3648; 3680; 3712; 3744; 
    3776; 3808; 3840; 3872; 4096; 4128; 4160; 4192; 4224; 4256; 4288; 4320; 4352; 4384; 4416; 4448; 
    4480; 4512; 4544; 4576; 4608; 4640; 4672; 4704; 4736; 4768; 4800; 4832; 4864; 4896; 4928; 4960; 
    4992; 5024; 5056; 5088; 5120; 5152; 5184; 5216; 5248; 5280; 5312; 5344; 5376; 5408; 5440; 5472; 
    5504; 5536; 5568; 5600; 5632; 5664; 5696; 5728; 5760; 5792; 5824; 5856; 5888; 5920; 5952; 5984; 
    6016; 6048; 6080; 6112; 6144; 6176; 6208; 6240; 6272; 6304; 6336; 6368; 6400; 6432; 6464; 6496; 
    6528; 6560; 6592; 6624; 6656; 6688; 6720; 6752; 6784; 6816; 6848; 6880; 6912; 6944; 6976; 7008; 
    7040; 7072; 7104; 7136; 7168; 7200; 7232; 7264; 7296; 7328; 7360; 7392; 7424; 7456; 7488; 7520; 
    7552; 7584; 7616; 7648; 7680; 7712; 7744; 7776; 7808; 7840; 7872; 7904; 7936; 7968; 8000; 8032; 
    8064; 8096; 8128; 8160; 8192; 8224; 8256; 8288; 8320; 8352; 8384; 8416; 8448; 8480; 8512; 8544; 
    8576; 8608; 8640; 8672; 8704; 8736; 8768; 8800; 8832; 8864; 8896; 8928; 8960; 8992; 9024; 9056; 
    9088; 9120; 9152; 9184; 9216; 9248; 9280; 9312; 9344; 9376; 9408; 9440; 9472; 9504; 9536; 9568; 
    9600; 9632; 9664; 9696; 9728; 9760; 9792; 9824; 9856; 9888; 9920; 9952; 9984; 10016; 10048; 
    10080; 10112; 10144
   ] 0 eq_refl eq_refl.

(** enums.rs:1849-1948; deserialize 1950-1955 (get_u16). *)
Definition MunitionDescriptorWarhead_spec : enum_spec := mk_enum_spec "MunitionDescriptorWarhead" 2
   [
    0; 10; 20; 30; 31; 32; 33; 1000; 1100; 1200; 1300; 1400; 1500; 1600; 1610; 1615; 1620; 1625; 
    1630; 1635; 1640; 1645; 1650; 1655; 1660; 1665; 1670; 1675; 1680; 1685; 1690; 1695; 2000; 2005; 
    2010; 2015; 3000; 4000; 4001; 4002; 5000; 6000; 7000; 7010; 7011; 8000; 8100; 8110; 8115; 8120; 
    8125; 8130; 8135; 8140; 8145; 8150; 8155; 8160; 8165; 8200; 8210; 8215; 8220; 8300; 8310; 8315; 
    8320; 8325; 8330; 8335; 8340; 8345; 8350; 8355; 8360; 8365; 8370; 8375; 8380; 8385; 8410; 8415; 
    8425; 8430; 8445; 8450; 8455; 8460; 8465; 8470; 8475; 9000; 9100; 9200; 9300; 9400; 9500
   ] 0 eq_refl eq_refl.

(** enums.rs:1959-2068; deserialize 2070-2075 (get_u16). *)
Definition MunitionDescriptorFuse_spec : enum_spec := mk_enum_spec "MunitionDescriptorFuse" 2
   [
    0; 10; 20; 30; 40; 50; 60; 100; 200; 300; 1000; 1100; 1200; 1201; 1202; 1205; 1206; 1210; 1212; 
    1225; 1250; 1251; 1252; 1253; 1254; 1255; 1256; 1257; 1258; 1259; 1260; 1300; 1400; 1500; 1600; 
    1700; 1800; 1900; 1910; 1920; 1930; 1940; 1950; 1960; 1970; 1980; 2000; 2100; 2200; 2300; 2400; 
    2500; 2600; 2700; 2701; 2702; 2705; 2706; 2710; 2712; 2725; 2800; 2900; 2910; 2920; 2930; 3000; 
    3100; 3200; 3300; 3400; 3500; 3600; 3700; 4000; 4100; 5000; 5100; 5200; 6000; 7000; 8000; 8010; 
    8100; 8110; 8120; 8130; 8150; 9000; 9010; 9100; 9110; 9120; 9200; 9210; 9220; 9300; 9310; 9400; 
    9410; 9500; 9510; 9520; 9530; 9600; 9610; 9620
   ] 0 eq_refl eq_refl.

(** enums.rs:2079-2115; deserialize 2117-2122 (get_u8). *)
Definition DetonationResult_spec : enum_spec := mk_enum_spec "DetonationResult" 1
   [
    0; 1; 2; 3; 4; 5; 6; 7; 8; 9; 10; 11; 12; 13; 14; 15; 16; 17; 18; 19; 20; 21; 22; 23; 24; 25; 
    26; 27; 28; 29; 30; 31; 32; 33
   ] 0 eq_refl eq_refl.

(** enums.rs:2144-2151; deserialize 2153-2158 (get_u8). *)
Definition ServiceRequestServiceTypeRequested_spec : enum_spec := mk_enum_spec "ServiceRequestServiceTypeRequested" 1
   [
    0; 1; 2; 3; 4
   ] 0 eq_refl eq_refl.

(** enums.rs:2180-2266; deserialize 2268-2273 (get_u16). *)
Definition RepairCompleteRepair_spec : enum_spec := mk_enum_spec "RepairCompleteRepair" 2
   [
    0; 1; 10; 20; 30; 40; 50; 60; 70; 80; 90; 100; 110; 120; 130; 140; 150; 1000; 1010; 1020; 1030; 
    1040; 1050; 1500; 1520; 1540; 1550; 1560; 2000; 2010; 2020; 2030; 2040; 2050; 2060; 2070; 2090; 
    2100; 2110; 2120; 4000; 4010; 4020; 4030; 4500; 4600; 4610; 4620; 4630; 4640; 4700; 4710; 4720; 
    4800; 4810; 4820; 4830; 4840; 5000; 5010; 5100; 5200; 5250; 5300; 5350; 5500; 6000; 6500; 8000; 
    8010; 8020; 8030; 8040; 8050; 8060; 9000; 9010; 9020; 9030; 9040; 9050; 10000; 10010; 10020
   ] 0 eq_refl eq_refl.

(** enums.rs:2295-2302; deserialize 2304-2309 (get_u8). *)
Definition RepairResponseRepairResult_spec : enum_spec := mk_enum_spec "RepairResponseRepairResult" 1
   [
    0; 1; 2; 3; 4
   ] 0 eq_refl eq_refl.

(** enums.rs:2331-3581; deserialize 3583-3588 (get_u32). *)
Definition VariableRecordTypes_spec : enum_spec := mk_enum_spec "VariableRecordTypes" 4
   [
    1; 1001; 1002; 1003; 1004; 1005; 1006; 1007; 1009; 1051; 1052; 1053; 1054; 1055; 1056; 1057; 
    1058; 1059; 1061; 1111; 1112; 1114; 1115; 1116; 1118; 1119; 1120; 1200; 3000; 3500; 3501; 3502; 
    4000; 4001; 4500; 5000; 5001; 5002; 5003; 5004; 5005; 5006; 5007; 5008; 5009; 5010; 5011; 5012; 
    5013; 5014; 5500; 5501; 10000; 10010; 10020; 10030; 10110; 10115; 10140; 10150; 10157; 10160; 
    10170; 10190; 10250; 10254; 10256; 10258; 10259; 10262; 10263; 10264; 10267; 10268; 10280; 
    10290; 10300; 10306; 10307; 10308; 10310; 10311; 10312; 10313; 10314; 10315; 10316; 10400; 
    10600; 11000; 11100; 11110; 11120; 11130; 11140; 11150; 11160; 11170; 11180; 11200; 11300; 
    11500; 11501; 11502; 11503; 11504; 12000; 12110; 12120; 12130; 12140; 12150; 12160; 12170; 
    12300; 13000; 13100; 13200; 14000; 14200; 14300; 14400; 14500; 14520; 14540; 14600; 14700; 
    14800; 15000; 15100; 15200; 15300; 15400; 15500; 15510; 15600; 15800; 19177; 20000; 21000; 
    21100; 21200; 21300; 23000; 23100; 23105; 24000; 24001; 24002; 24003; 24004; 24005; 24006; 
    24007; 24008; 24009; 24010; 24060; 24100; 24110; 24120; 24130; 24140; 24150; 24160; 24300; 
    25000; 26000; 27000; 28000; 30000; 30010; 30100; 30300; 30400; 30401; 30402; 30403; 30404; 
    30405; 30406; 30407; 30408; 30409; 30410; 30411; 30412; 30413; 30414; 30415; 30416; 30417; 
    30418; 30419; 30420; 30421; 30422; 30423; 30424; 30425; 30426; 30427; 30428; 30429; 30430; 
    30431; 31000; 31010; 31100; 31200; 31210; 31220; 31230; 31300; 31400; 31500; 31510; 31520; 
    31530; 31600; 31700; 31800; 31900; 32000; 32100; 32200; 32300; 32500; 32600; 32700; 33000; 
    33100; 33101; 33200; 33300; 33400; 33500; 33600; 33710; 33720; 33730; 34000; 34100; 34110; 
    35000; 35050; 35100; 35200; 35300; 36000; 36100; 36200; 36300; 36400; 37000; 37100; 37200; 
    37300; 38100; 39000; 40000; 40010; 40015; 40020; 41000; 42000; 42100; 42200; 42300; 43000; 
    43100; 43200; 43300; 43410; 43420; 43430; 43440; 44000; 44100; 44110; 44120; 44130; 44140; 
    44200; 44210; 44220; 44230; 44240; 44300; 44310; 44320; 44330; 44340; 44400; 44410; 44420; 
    44430; 44440; 44500; 44510; 44520; 44530; 44540; 45000; 45005; 45010; 45020; 45030; 45040; 
    45050; 45060; 45070; 45080; 46000; 46010; 50000; 50103; 50106; 50118; 50120; 50124; 50126; 
    50600; 50700; 51000; 51010; 51100; 51110; 51111; 52000; 52001; 52100; 52200; 52300; 52305; 
    52310; 52320; 52330; 52340; 52350; 52360; 52370; 52380; 52400; 52410; 52420; 52430; 52440; 
    52500; 52510; 52511; 52520; 52530; 52600; 52601; 52602; 52610; 52620; 52630; 53000; 53050; 
    53060; 53100; 53200; 53250; 53300; 53350; 53400; 53410; 53420; 53430; 54000; 54100; 55000; 
    55100; 55101; 55105; 55200; 55300; 55401; 55410; 55420; 55425; 55430; 55435; 56000; 56100; 
    56105; 56110; 56111; 56120; 56121; 56130; 56140; 56200; 56205; 56210; 56220; 56221; 56230; 
    56231; 56240; 56310; 56320; 56330; 56340; 56350; 57200; 57300; 57400; 57410; 57411; 57420; 
    57421; 57500; 57610; 57611; 57620; 57621; 58000; 58100; 58105; 58200; 58430; 58435; 59000; 
    59100; 59110; 59115; 59120; 59125; 59130; 59135; 59140; 59145; 59150; 59155; 59160; 60000; 
    61005; 61100; 61101; 61200; 61300; 61400; 61500; 61600; 61700; 62100; 62101; 62200; 62300; 
    62400; 62500; 63101; 63102; 63103; 63104; 63105; 63106; 63107; 63108; 63109; 63110; 63111; 
    63112; 63113; 63114; 63115; 70000; 71000; 71100; 71200; 71300; 72000; 72100; 72600; 72700; 
    73000; 74000; 75000; 75100; 75200; 90000; 90050; 90070; 90100; 90200; 90300; 90400; 90500; 
    90600; 90700; 90800; 90900; 91000; 91100; 91200; 91300; 91400; 91500; 91600; 100001; 100002; 
    100003; 100004; 100005; 100008; 100010; 100011; 100012; 100014; 100047; 100048; 100058; 100061; 
    100063; 100068; 100100; 100160; 100161; 100162; 100163; 100164; 100165; 100166; 100167; 100169; 
    100170; 100171; 100172; 100200; 100205; 100206; 100207; 100208; 100213; 100214; 100218; 100300; 
    100400; 100500; 100510; 100520; 100600; 100610; 100620; 100631; 100632; 100633; 100634; 100640; 
    100650; 100660; 100661; 100662; 100700; 100800; 100900; 101000; 101100; 101200; 101300; 101310; 
    101320; 101321; 101330; 101340; 101350; 101360; 101370; 101400; 101500; 102100; 102200; 200201; 
    200202; 200203; 200204; 200205; 200207; 200210; 200211; 200213; 200214; 200215; 200216; 200217; 
    200301; 200302; 200303; 200304; 200305; 200307; 200310; 200311; 200313; 200314; 200315; 200316; 
    200317; 200400; 200401; 200402; 200403; 200404; 200405; 200406; 200407; 200408; 200409; 200410; 
    200411; 200412; 200413; 200414; 200415; 200416; 200417; 200418; 200419; 200420; 200421; 200422; 
    200423; 200424; 200425; 200426; 200427; 200428; 200429; 200430; 200431; 200432; 200433; 200434; 
    200435; 200436; 200437; 200501; 200502; 200503; 200504; 200505; 200506; 200507; 200508; 200509; 
    200510; 200511; 200512; 200513; 200514; 200515; 200516; 200517; 200518; 200519; 200521; 200522; 
    200523; 200524; 200525; 200600; 200601; 200602; 200603; 200604; 200605; 200606; 200607; 200608; 
    200609; 200610; 200611; 200612; 200613; 240000; 240001; 240002; 240003; 240004; 240005; 240006; 
    240007; 240008; 240009; 240010; 240011; 240012; 240013; 240014; 240015; 240016; 240017; 240018; 
    240019; 240020; 240021; 240022; 240023; 240024; 240025; 240026; 240027; 240028; 240029; 240030; 
    240031; 240032; 240033; 240034; 240035; 240036; 240037; 240038; 240039; 240040; 240041; 240042; 
    240043; 240044; 240045; 240046; 240047; 240048; 240049; 240050; 240051; 240052; 240053; 240054; 
    240055; 240056; 240057; 240058; 240059; 240060; 240061; 240062; 240063; 240064; 240065; 240066; 
    240067; 240068; 240069; 240070; 240071; 240072; 240073; 240074; 240075; 240076; 240077; 240078; 
    240079; 240080; 240081; 240082; 240083; 240084; 240085; 240086; 240087; 240088; 240089; 240090; 
    240091; 240092; 240093; 240094; 240095; 240096; 240097; 240098; 240099; 240100; 240101; 240102; 
    240103; 240104; 240105; 240106; 240107; 240108; 240109; 240110; 240111; 240112; 240113; 240114; 
    240115; 240116; 240117; 240118; 240119; 240120; 240121; 240122; 240123; 240124; 240125; 240126; 
    240127; 240128; 240129; 240130; 240131; 240132; 240133; 240134; 240135; 240136; 240137; 240138; 
    240139; 240140; 240141; 240142; 240143; 240144; 240145; 240146; 240147; 240148; 240149; 240150; 
    240151; 240152; 240153; 270115; 270116; 270117; 270150; 270151; 270152; 270153; 270154; 270155; 
    270156; 270157; 270158; 270159; 270160; 270161; 270162; 270163; 270164; 270165; 270166; 300000; 
    300001; 300002; 300003; 300004; 300005; 300006; 300007; 300008; 300009; 300010; 300011; 300012; 
    300013; 300014; 300016; 300017; 300018; 300019; 300020; 300021; 300022; 300023; 300024; 300025; 
    300026; 300027; 301100; 301130; 301140; 301150; 301151; 301152; 301160; 301170; 301171; 301174; 
    301175; 301176; 301177; 301178; 301179; 301180; 301181; 301182; 301183; 301184; 301185; 301186; 
    301187; 301189; 301190; 301191; 301197; 301198; 301199; 301200; 301201; 301202; 301220; 301221; 
    301222; 301223; 301224; 301225; 301226; 301227; 301228; 301229; 301234; 301237; 301238; 301239; 
    301240; 301241; 301242; 301243; 301244; 301255; 301256; 400008; 400009; 400010; 400011; 400012; 
    400013; 400014; 400015; 400016; 400017; 400018; 400019; 400020; 400021; 400022; 400023; 400024; 
    400025; 400026; 400027; 400028; 400029; 400030; 400031; 400032; 400033; 500001; 500002; 500003; 
    500004; 500005; 500006; 500007; 500008; 500009; 500010; 500011; 500012; 500013; 500014; 500015; 
    500016; 500017; 500018; 500019; 500021; 500022; 500023; 500024; 500025; 500026; 500027; 500028; 
    500029; 500200; 500201; 500202; 500203; 500204; 500205; 551001; 551002; 551003; 551004; 551005; 
    551006; 551007; 552001; 552002; 553001; 553002; 553003; 553004; 553005; 553006; 553007; 553008; 
    553009; 553010; 553011; 553012; 553013; 553014; 553015; 553016; 553017; 553018; 553019; 553020; 
    553021; 553022; 553028; 553029; 554001; 554002; 554003; 554004; 554005; 554006; 554007; 554008; 
    554009; 554010; 554100; 554101; 554102; 554103; 554104; 554105; 554106; 554107; 554108; 554109; 
    554110; 555001; 555002; 555003; 555004; 555005; 555006; 555007; 555008; 556001; 556007; 556008; 
    556016; 556017; 556018; 556019; 556020; 556029; 557001; 557002; 557003; 557004; 557005; 557006; 
    557007; 557008; 557009; 557010; 559001; 559002; 559003; 559004; 559005; 559006; 559007; 559008; 
    559009; 559010; 559011; 559012; 559999; 600001; 600002; 600210; 600212; 600214; 600215; 600216; 
    600218; 600219; 600220; 600300; 600301; 600302; 600303; 600304; 600305; 600306; 600307; 600308; 
    610006; 610007; 610008; 610009; 610010; 610011; 610012; 610013; 610015; 610016; 610017; 610025; 
    610026; 610027; 610029; 610032; 610035; 610036; 610037; 610040; 610042; 610043; 610044; 610045; 
    610046; 610047; 610048; 610049; 610050; 613002; 613003; 613004; 613005; 613006; 613007; 613008; 
    613013; 613016; 613017; 613020; 613021; 613022; 613027; 613028; 613029; 613030; 613031; 615000; 
    615001; 615002; 615003; 615004; 615005; 615006; 615007; 615008; 615009; 615010; 615011; 615012; 
    615013; 615015; 615017; 615018; 615019; 615020; 615021; 615022; 615023; 615024; 615025; 615026; 
    615027; 615028; 615029; 615030; 615031; 615032; 615033; 615034; 615035; 615036; 615037; 615038; 
    700000; 700001; 700002; 700003; 700004; 700005; 1000620; 2000000; 2000010; 2000020; 2000030; 
    2000031; 2000032; 2000033; 2000034; 2000035; 2000036; 2000037; 2000038; 2000039; 2000040; 
    2000041; 2000042; 2000043; 2000044; 2000045; 2000050; 5005001; 5005002; 5005003; 5005006; 
    5005008; 5005009; 5005010; 5005011; 5005012; 5005014; 5005055; 5005060; 5005061; 5005063; 
    5005070; 5005080; 5005081; 5007010; 5007020; 5007030; 5007040; 5007050; 5008010; 5008020; 
    5008030; 5008040; 5008050; 5008060; 5008070; 5008080; 5009010; 5009020; 5507010
   ] 1 eq_refl eq_refl.

(** enums.rs:3610-3621; deserialize 3623-3628 (get_u8). *)
Definition Reason_spec : enum_spec := mk_enum_spec "Reason" 1
   [
    0; 1; 2; 3; 4; 5; 6; 7; 8
   ] 0 eq_refl eq_refl.

(** enums.rs:3697-3704; deserialize 3706-3711 (get_u16). *)
Definition AcknowledgeFlag_spec : enum_spec := mk_enum_spec "AcknowledgeFlag" 2
   [
    1; 2; 3; 4; 5
   ] 1 eq_refl eq_refl.

(** enums.rs:3733-3739; deserialize 3741-3746 (get_u16). *)
Definition AcknowledgeResponseFlag_spec : enum_spec := mk_enum_spec "AcknowledgeResponseFlag" 2
   [
    0; 1; 2; 3
   ] 0 eq_refl eq_refl.

(** enums.rs:3768-3822; deserialize 3824-3829 (get_u32). *)
Definition ActionRequestActionID_spec : enum_spec := mk_enum_spec "ActionRequestActionID" 4
   [
    0; 1; 2; 3; 4; 5; 6; 7; 8; 9; 10; 11; 12; 13; 14; 15; 16; 17; 18; 19; 20; 21; 22; 23; 24; 25; 
    26; 27; 28; 29; 30; 31; 33; 34; 35; 36; 37; 38; 39; 40; 41; 42; 43; 44; 45; 46; 47; 100; 101; 
    4303; 4304; 4305
   ] 0 eq_refl eq_refl.

(** enums.rs:3833-3849; deserialize 3851-3856 (get_u32). *)
Definition ActionResponseRequestStatus_spec : enum_spec := mk_enum_spec "ActionResponseRequestStatus" 4
   [
    0; 1; 2; 3; 4; 5; 6; 7; 8; 9; 10; 100; 101; 201
   ] 0 eq_refl eq_refl.

(** enums.rs:3878-3899; deserialize 3901-3906 (get_u32). *)
Definition EventType_spec : enum_spec := mk_enum_spec "EventType" 4
   [
    0; 2; 3; 4; 5; 6; 7; 8; 9; 10; 11; 12; 13; 14; 15; 16; 17; 18; 19
   ] 0 eq_refl eq_refl.

(** enums.rs:3928-3932; deserialize 3934-3939 (get_u8). *)
Definition RequiredReliabilityService_spec : enum_spec := mk_enum_spec "RequiredReliabilityService" 1
   [
    0; 1
   ] 0 eq_refl eq_refl.

(** enums.rs:3962-6728; deserialize 6730-6735 (get_u16). *)
Definition EmitterName_spec : enum_spec := mk_enum_spec "EmitterName" 2
   [
    2; 3; 4; 5; 6; 7; 9; 10; 11; 12; 13; 14; 15; 16; 17; 18; 19; 20; 21; 22; 25; 40; 42; 45; 46; 
    47; 48; 49; 50; 55; 57; 60; 63; 64; 65; 66; 70; 75; 76; 77; 80; 81; 90; 91; 125; 135; 180; 181; 
    183; 185; 190; 195; 196; 197; 198; 199; 200; 215; 225; 270; 315; 360; 405; 450; 495; 540; 585; 
    630; 675; 720; 765; 810; 855; 900; 945; 990; 1035; 1070; 1073; 1080; 1081; 1082; 1085; 1090; 
    1094; 1095; 1096; 1097; 1098; 1099; 1100; 1101; 1102; 1110; 1111; 1113; 1115; 1117; 1118; 1120; 
    1122; 1123; 1125; 1130; 1150; 1170; 1215; 1216; 1218; 1230; 1240; 1260; 1263; 1264; 1265; 1268; 
    1270; 1280; 1282; 1288; 1305; 1306; 1350; 1395; 1397; 1398; 1400; 1410; 1440; 1441; 1442; 1485; 
    1530; 1575; 1585; 1620; 1621; 1622; 1626; 1627; 1628; 1630; 1632; 1633; 1634; 1635; 1636; 1637; 
    1638; 1639; 1640; 1641; 1642; 1643; 1644; 1645; 1646; 1647; 1648; 1649; 1650; 1651; 1652; 1653; 
    1654; 1655; 1656; 1657; 1658; 1659; 1660; 1661; 1662; 1663; 1664; 1665; 1670; 1672; 1680; 1700; 
    1710; 1755; 1800; 1805; 1807; 1809; 1845; 1870; 1871; 1872; 1880; 1890; 1895; 1935; 1940; 1945; 
    1960; 1970; 1971; 1972; 1974; 1975; 1976; 1980; 2025; 2070; 2115; 2160; 2205; 2220; 2250; 2295; 
    2320; 2340; 2385; 2430; 2475; 2476; 2520; 2565; 2610; 2655; 2700; 2745; 2746; 2747; 2748; 2790; 
    2835; 2880; 2925; 2970; 3015; 3060; 3105; 3106; 3120; 3121; 3122; 3148; 3150; 3152; 3153; 3154; 
    3155; 3156; 3157; 3158; 3159; 3160; 3161; 3162; 3164; 3166; 3170; 3195; 3240; 3285; 3330; 3375; 
    3376; 3420; 3465; 3510; 3512; 3555; 3600; 3645; 3690; 3700; 3735; 3770; 3780; 3785; 3788; 3790; 
    3791; 3794; 3795; 3800; 3810; 3813; 3820; 3825; 3870; 3915; 3916; 3920; 3922; 3958; 3960; 4005; 
    4050; 4095; 4140; 4185; 4190; 4230; 4275; 4320; 4365; 4410; 4413; 4415; 4420; 4425; 4455; 4460; 
    4464; 4465; 4466; 4467; 4468; 4475; 4476; 4480; 4482; 4485; 4486; 4489; 4490; 4491; 4500; 4545; 
    4590; 4635; 4680; 4681; 4725; 4770; 4815; 4816; 4860; 4870; 4900; 4905; 4950; 4952; 4953; 4954; 
    4955; 4995; 5040; 5085; 5130; 5131; 5165; 5175; 5220; 5265; 5266; 5270; 5280; 5285; 5290; 5300; 
    5310; 5320; 5325; 5355; 5400; 5401; 5402; 5405; 5406; 5410; 5415; 5420; 5430; 5445; 5490; 5491; 
    5493; 5494; 5495; 5500; 5502; 5503; 5504; 5505; 5506; 5507; 5508; 5509; 5510; 5511; 5512; 5513; 
    5514; 5515; 5516; 5520; 5521; 5522; 5525; 5526; 5527; 5528; 5529; 5530; 5535; 5537; 5538; 5539; 
    5540; 5541; 5545; 5550; 5551; 5555; 5556; 5560; 5565; 5567; 5570; 5571; 5575; 5576; 5577; 5578; 
    5579; 5580; 5582; 5583; 5584; 5620; 5625; 5670; 5690; 5700; 5705; 5710; 5715; 5760; 5761; 5805; 
    5850; 5895; 5940; 5985; 5995; 6015; 6025; 6030; 6050; 6075; 6076; 6078; 6085; 6120; 6155; 6165; 
    6166; 6190; 6210; 6255; 6300; 6345; 6390; 6435; 6480; 6525; 6570; 6615; 6660; 6705; 6750; 6752; 
    6795; 6796; 6797; 6798; 6799; 6800; 6801; 6802; 6803; 6804; 6840; 6885; 6930; 6945; 6970; 6975; 
    7020; 7025; 7065; 7110; 7119; 7120; 7155; 7175; 7200; 7201; 7210; 7215; 7216; 7225; 7226; 7230; 
    7245; 7250; 7252; 7253; 7260; 7261; 7265; 7266; 7267; 7268; 7269; 7270; 7271; 7272; 7273; 7274; 
    7275; 7276; 7277; 7278; 7279; 7280; 7281; 7295; 7300; 7301; 7302; 7303; 7305; 7310; 7311; 7312; 
    7313; 7314; 7315; 7316; 7317; 7320; 7321; 7322; 7323; 7324; 7325; 7326; 7327; 7328; 7329; 7330; 
    7331; 7333; 7334; 7335; 7340; 7345; 7380; 7425; 7426; 7427; 7470; 7515; 7560; 7605; 7650; 7695; 
    7700; 7740; 7750; 7751; 7752; 7753; 7754; 7755; 7760; 7761; 7762; 7765; 7770; 7780; 7785; 7830; 
    7875; 7920; 7965; 8010; 8055; 8100; 8102; 8103; 8105; 8112; 8113; 8114; 8115; 8118; 8120; 8121; 
    8122; 8123; 8126; 8127; 8128; 8134; 8135; 8140; 8145; 8150; 8160; 8190; 8235; 8280; 8281; 8282; 
    8283; 8284; 8285; 8290; 8325; 8370; 8375; 8378; 8379; 8380; 8381; 8382; 8384; 8390; 8395; 8400; 
    8405; 8410; 8415; 8460; 8470; 8480; 8505; 8550; 8595; 8640; 8685; 8730; 8735; 8736; 8737; 8750; 
    8751; 8755; 8756; 8757; 8758; 8759; 8760; 8761; 8762; 8771; 8772; 8773; 8775; 8776; 8778; 8779; 
    8780; 8782; 8785; 8790; 8791; 8792; 8793; 8795; 8812; 8816; 8818; 8819; 8820; 8824; 8825; 8826; 
    8830; 8831; 8832; 8840; 8845; 8846; 8847; 8848; 8849; 8850; 8851; 8852; 8865; 8866; 8867; 8868; 
    8869; 8870; 8871; 8880; 8910; 8955; 8980; 8985; 8990; 8993; 8995; 9000; 9005; 9045; 9075; 9090; 
    9135; 9180; 9185; 9200; 9205; 9215; 9225; 9270; 9280; 9281; 9285; 9300; 9310; 9315; 9360; 9370; 
    9405; 9406; 9450; 9475; 9485; 9495; 9505; 9510; 9530; 9540; 9585; 9630; 9638; 9639; 9640; 9642; 
    9643; 9645; 9659; 9660; 9661; 9662; 9675; 9720; 9765; 9775; 9780; 9781; 9810; 9855; 9885; 9900; 
    9903; 9905; 9920; 9930; 9933; 9935; 9945; 9990; 10035; 10057; 10080; 10090; 10125; 10170; 
    10215; 10260; 10305; 10308; 10310; 10312; 10315; 10350; 10395; 10440; 10450; 10485; 10500; 
    10510; 10511; 10512; 10513; 10520; 10530; 10540; 10575; 10595; 10620; 10630; 10642; 10650; 
    10665; 10710; 10711; 10740; 10755; 10800; 10845; 10846; 10890; 10891; 10892; 10895; 10935; 
    10940; 10980; 10985; 10987; 10988; 10989; 10990; 10991; 10992; 10993; 10994; 10995; 10996; 
    11000; 11010; 11020; 11025; 11030; 11070; 11115; 11117; 11118; 11119; 11120; 11123; 11125; 
    11130; 11133; 11137; 11155; 11160; 11165; 11205; 11230; 11235; 11240; 11250; 11260; 11265; 
    11270; 11280; 11290; 11295; 11340; 11385; 11430; 11475; 11520; 11565; 11610; 11655; 11660; 
    11665; 11700; 11715; 11725; 11735; 11745; 11748; 11790; 11800; 11810; 11825; 11830; 11835; 
    11840; 11860; 11880; 11902; 11925; 11970; 11975; 12010; 12015; 12016; 12018; 12060; 12090; 
    12105; 12110; 12111; 12150; 12195; 12196; 12197; 12240; 12285; 12292; 12330; 12375; 12420; 
    12430; 12465; 12510; 12555; 12600; 12610; 12615; 12616; 12645; 12655; 12690; 12691; 12694; 
    12735; 12780; 12782; 12785; 12787; 12800; 12805; 12825; 12850; 12870; 12875; 12915; 12916; 
    12960; 13005; 13006; 13007; 13015; 13020; 13050; 13055; 13095; 13140; 13141; 13142; 13143; 
    13185; 13230; 13275; 13280; 13320; 13360; 13365; 13410; 13415; 13420; 13450; 13452; 13455; 
    13456; 13460; 13465; 13477; 13480; 13481; 13485; 13500; 13545; 13546; 13585; 13590; 13635; 
    13680; 13725; 13770; 13815; 13860; 13905; 13915; 13950; 13994; 13995; 14020; 14040; 14041; 
    14085; 14086; 14130; 14131; 14175; 14220; 14265; 14310; 14355; 14400; 14445; 14490; 14535; 
    14545; 14560; 14580; 14583; 14585; 14586; 14587; 14588; 14590; 14600; 14601; 14625; 14640; 
    14660; 14670; 14677; 14710; 14713; 14715; 14725; 14726; 14727; 14728; 14730; 14735; 14736; 
    14737; 14738; 14739; 14740; 14741; 14742; 14743; 14744; 14745; 14746; 14747; 14748; 14749; 
    14750; 14751; 14755; 14760; 14765; 14770; 14772; 14775; 14776; 14777; 14779; 14780; 14785; 
    14790; 14800; 14805; 14806; 14807; 14808; 14809; 14810; 14811; 14815; 14820; 14821; 14822; 
    14830; 14831; 14832; 14833; 14835; 14845; 14850; 14851; 14895; 14896; 14897; 14898; 14900; 
    14901; 14902; 14903; 14905; 14935; 14936; 14940; 14985; 15030; 15075; 15120; 15140; 15155; 
    15156; 15160; 15161; 15163; 15165; 15200; 15210; 15220; 15230; 15240; 15255; 15300; 15301; 
    15302; 15303; 15304; 15305; 15310; 15312; 15313; 15315; 15317; 15318; 15319; 15320; 15345; 
    15390; 15435; 15470; 15475; 15480; 15525; 15570; 15615; 15620; 15650; 15660; 15661; 15705; 
    15750; 15795; 15800; 15840; 15842; 15885; 15930; 15970; 15975; 15980; 15985; 15990; 16000; 
    16020; 16030; 16035; 16065; 16110; 16155; 16160; 16200; 16245; 16290; 16300; 16335; 16380; 
    16390; 16400; 16405; 16410; 16412; 16420; 16421; 16422; 16423; 16424; 16425; 16426; 16470; 
    16515; 16520; 16550; 16552; 16554; 16560; 16561; 16564; 16565; 16580; 16581; 16585; 16587; 
    16590; 16596; 16605; 16606; 16650; 16652; 16654; 16655; 16658; 16660; 16662; 16663; 16670; 
    16690; 16695; 16725; 16730; 16732; 16733; 16734; 16735; 16736; 16737; 16740; 16750; 16785; 
    16787; 16789; 16790; 16800; 16815; 16820; 16825; 16830; 16833; 16835; 16840; 16850; 16858; 
    16870; 16871; 16872; 16875; 16876; 16877; 16879; 16880; 16881; 16884; 16888; 16890; 16895; 
    16900; 16903; 16905; 16908; 16912; 16915; 16920; 16925; 16930; 16935; 16940; 16942; 16945; 
    16946; 16947; 16948; 16949; 16950; 16951; 16960; 16963; 16965; 17010; 17016; 17025; 17027; 
    17029; 17030; 17031; 17032; 17050; 17055; 17070; 17075; 17079; 17080; 17100; 17145; 17190; 
    17220; 17225; 17230; 17235; 17250; 17255; 17280; 17325; 17370; 17415; 17460; 17505; 17550; 
    17572; 17590; 17595; 17640; 17685; 17730; 17732; 17735; 17745; 17775; 17820; 17842; 17865; 
    17910; 17955; 18000; 18045; 18090; 18135; 18150; 18180; 18185; 18189; 18190; 18193; 18194; 
    18195; 18200; 18201; 18225; 18270; 18280; 18315; 18316; 18318; 18320; 18325; 18330; 18331; 
    18332; 18339; 18340; 18348; 18350; 18351; 18352; 18353; 18355; 18357; 18360; 18400; 18405; 
    18406; 18407; 18408; 18409; 18410; 18445; 18449; 18450; 18451; 18452; 18453; 18454; 18455; 
    18456; 18457; 18458; 18459; 18460; 18461; 18462; 18464; 18465; 18466; 18467; 18468; 18469; 
    18470; 18471; 18475; 18495; 18540; 18550; 18551; 18555; 18556; 18557; 18560; 18561; 18565; 
    18570; 18571; 18572; 18575; 18578; 18580; 18582; 18583; 18585; 18586; 18600; 18610; 18611; 
    18615; 18630; 18675; 18700; 18710; 18720; 18765; 18766; 18767; 18768; 18770; 18774; 18775; 
    18776; 18777; 18780; 18781; 18782; 18784; 18785; 18786; 18787; 18789; 18790; 18791; 18792; 
    18795; 18797; 18805; 18810; 18855; 18900; 18930; 18944; 18945; 18946; 18947; 18948; 18950; 
    18951; 18952; 18955; 18960; 18961; 18962; 18990; 19035; 19037; 19039; 19040; 19041; 19042; 
    19045; 19050; 19051; 19052; 19053; 19054; 19060; 19080; 19125; 19127; 19129; 19130; 19131; 
    19132; 19140; 19142; 19143; 19145; 19150; 19170; 19215; 19260; 19305; 19306; 19307; 19309; 
    19310; 19320; 19330; 19340; 19350; 19370; 19395; 19396; 19397; 19398; 19399; 19400; 19440; 
    19485; 19500; 19505; 19520; 19530; 19575; 19620; 19665; 19710; 19755; 19800; 19845; 19890; 
    19920; 19935; 19950; 19955; 19960; 19970; 19971; 19980; 20025; 20029; 20030; 20040; 20060; 
    20070; 20090; 20115; 20160; 20205; 20250; 20295; 20340; 20350; 20360; 20385; 20420; 20430; 
    20475; 20495; 20520; 20530; 20565; 20585; 20589; 20590; 20610; 20655; 20700; 20745; 20790; 
    20835; 20880; 20890; 20895; 20897; 20898; 20915; 20917; 20918; 20919; 20920; 20925; 20927; 
    20929; 20930; 20931; 20933; 20935; 20940; 20942; 20943; 20945; 20950; 20955; 20969; 20970; 
    21015; 21060; 21105; 21110; 21130; 21150; 21195; 21240; 21285; 21330; 21332; 21340; 21359; 
    21360; 21375; 21390; 21419; 21420; 21465; 21490; 21492; 21495; 21500; 21510; 21555; 21600; 
    21610; 21615; 21620; 21623; 21625; 21645; 21646; 21647; 21648; 21649; 21650; 21655; 21660; 
    21661; 21665; 21672; 21675; 21680; 21682; 21685; 21690; 21692; 21693; 21695; 21696; 21697; 
    21698; 21699; 21700; 21701; 21702; 21703; 21704; 21705; 21706; 21707; 21708; 21709; 21710; 
    21711; 21712; 21715; 21716; 21720; 21735; 21780; 21825; 21870; 21871; 21872; 21873; 21874; 
    21875; 21876; 21877; 21878; 21879; 21880; 21881; 21884; 21885; 21886; 21890; 21895; 21915; 
    21917; 21918; 21919; 21920; 21960; 21965; 21970; 21980; 21981; 21982; 21983; 21984; 21985; 
    21986; 21987; 21988; 21989; 21990; 21991; 21992; 21995; 22000; 22005; 22050; 22095; 22110; 
    22115; 22125; 22127; 22130; 22140; 22185; 22230; 22275; 22320; 22335; 22340; 22345; 22365; 
    22410; 22411; 22455; 22460; 22463; 22500; 22505; 22545; 22560; 22590; 22635; 22640; 22680; 
    22690; 22695; 22696; 22697; 22700; 22701; 22705; 22706; 22725; 22730; 22732; 22735; 22736; 
    22737; 22740; 22745; 22750; 22760; 22770; 22800; 22810; 22815; 22830; 22860; 22890; 22900; 
    22905; 22906; 22950; 22955; 22956; 22957; 22959; 22960; 22961; 22962; 22963; 22964; 22965; 
    22970; 22977; 22995; 22998; 23040; 23041; 23042; 23043; 23045; 23050; 23053; 23055; 23085; 
    23095; 23100; 23130; 23175; 23220; 23240; 23265; 23295; 23310; 23355; 23400; 23445; 23450; 
    23490; 23500; 23515; 23525; 23529; 23530; 23535; 23580; 23625; 23670; 23675; 23680; 23685; 
    23690; 23695; 23700; 23701; 23704; 23710; 23715; 23760; 23805; 23850; 23895; 23925; 23940; 
    23985; 23990; 24020; 24030; 24035; 24075; 24095; 24098; 24100; 24110; 24120; 24165; 24210; 
    24255; 24300; 24320; 24345; 24385; 24386; 24390; 24435; 24480; 24525; 24535; 24540; 24569; 
    24570; 24614; 24615; 24616; 24617; 24618; 24619; 24620; 24622; 24630; 24631; 24633; 24635; 
    24640; 24650; 24660; 24705; 24706; 24707; 24709; 24710; 24720; 24750; 24755; 24757; 24758; 
    24760; 24761; 24768; 24769; 24770; 24771; 24772; 24774; 24775; 24776; 24780; 24781; 24795; 
    24800; 24840; 24885; 24890; 24930; 24975; 25020; 25065; 25110; 25150; 25155; 25170; 25171; 
    25180; 25200; 25205; 25245; 25250; 25259; 25260; 25265; 25270; 25273; 25275; 25276; 25277; 
    25278; 25279; 25280; 25281; 25282; 25283; 25285; 25286; 25287; 25288; 25289; 25290; 25291; 
    25292; 25300; 25335; 25380; 25425; 25470; 25515; 25530; 25540; 25545; 25550; 25560; 25605; 
    25630; 25635; 25650; 25694; 25695; 25698; 25735; 25736; 25739; 25740; 25745; 25750; 25760; 
    25762; 25770; 25785; 25830; 25835; 25840; 25845; 25850; 25853; 25855; 25860; 25875; 25885; 
    25890; 25891; 25892; 25895; 25896; 25897; 25898; 25899; 25900; 25901; 25902; 25903; 25904; 
    25906; 25907; 25908; 25909; 25910; 25911; 25912; 25915; 25920; 25940; 25950; 25955; 25958; 
    25965; 25966; 25967; 25968; 25969; 25970; 25971; 25972; 25973; 25974; 25975; 25976; 25977; 
    25978; 25979; 25980; 26008; 26010; 26011; 26015; 26020; 26040; 26041; 26043; 26045; 26053; 
    26055; 26100; 26145; 26190; 26210; 26235; 26236; 26237; 26238; 26280; 26325; 26326; 26327; 
    26328; 26330; 26340; 26350; 26353; 26354; 26355; 26360; 26361; 26362; 26370; 26415; 26460; 
    26505; 26506; 26550; 26595; 26596; 26597; 26600; 26610; 26640; 26650; 26660; 26665; 26670; 
    26672; 26673; 26674; 26675; 26676; 26677; 26678; 26679; 26680; 26681; 26682; 26683; 26684; 
    26685; 26686; 26687; 26730; 26775; 26795; 26797; 26799; 26805; 26810; 26820; 26865; 26900; 
    26910; 26920; 26925; 26926; 26930; 26935; 26945; 26950; 26955; 27000; 27045; 27090; 27095; 
    27100; 27101; 27102; 27109; 27110; 27111; 27113; 27115; 27116; 27125; 27135; 27137; 27139; 
    27140; 27141; 27142; 27143; 27150; 27175; 27180; 27183; 27190; 27225; 27230; 27235; 27239; 
    27240; 27245; 27248; 27251; 27260; 27270; 27315; 27360; 27405; 27430; 27450; 27451; 27495; 
    27540; 27550; 27560; 27570; 27575; 27580; 27582; 27583; 27584; 27585; 27630; 27675; 27680; 
    27720; 27765; 27770; 27771; 27773; 27775; 27780; 27790; 27800; 27802; 27803; 27810; 27855; 
    27870; 27873; 27875; 27900; 27945; 27980; 27990; 28035; 28080; 28125; 28170; 28215; 28260; 
    28280; 28305; 28350; 28395; 28440; 28445; 28480; 28485; 28530; 28575; 28620; 28665; 28710; 
    28755; 28760; 28770; 28800; 28845; 28890; 28935; 28980; 29025; 29030; 29035; 29043; 29045; 
    29050; 29060; 29070; 29115; 29160; 29172; 29175; 29180; 29185; 29190; 29191; 29200; 29205; 
    29210; 29215; 29220; 29250; 29270; 29295; 29297; 29300; 29301; 29305; 29340; 29385; 29400; 
    29430; 29431; 29432; 29433; 29434; 29435; 29440; 29450; 29475; 29520; 29565; 29610; 29655; 
    29700; 29745; 29790; 29835; 29880; 29925; 29970; 30015; 30016; 30060; 30065; 30068; 30069; 
    30070; 30072; 30075; 30080; 30105; 30140; 30150; 30195; 30200; 30240; 30255; 30285; 30330; 
    30375; 30420; 30421; 30465; 30470; 30471; 30475; 30480; 30490; 30510; 30520; 30555; 30580; 
    30600; 30645; 30650; 30660; 30661; 30662; 30665; 30670; 30690; 30691; 30692; 30696; 30700; 
    30701; 30710; 30735; 30780; 30825; 30870; 30915; 30960; 31005; 31050; 31070; 31080; 31095; 
    31096; 31097; 31100; 31140; 31185; 31230; 31275; 31320; 31365; 31410; 31455; 31475; 31500; 
    31545; 31590; 31592; 31593; 31635; 31680; 31681; 31682; 31684; 31685; 31700; 31725; 31730; 
    31740; 31765; 31766; 31770; 31815; 31860; 31870; 31875; 31880; 31890; 31905; 31925; 31935; 
    31950; 31951; 31952; 31953; 31955; 31956; 31957; 31959; 31960; 31970; 31971; 31972; 31995; 
    32010; 32020; 32040; 32085; 32130; 32175; 32220; 32265; 32310; 32330; 32355; 32365; 32373; 
    32375; 32385; 32400; 32445; 32455; 32490; 32535; 32580; 32625; 32670; 32715; 32760; 32805; 
    32850; 32851; 32852; 32895; 32940; 32985; 33025; 33030; 33075; 33120; 33125; 33140; 33165; 
    33166; 33210; 33230; 33231; 33255; 33300; 33345; 33390; 33435; 33480; 33481; 33483; 33484; 
    33485; 33486; 33505; 33510; 33511; 33525; 33570; 33580; 33582; 33584; 33585; 33586; 33590; 
    33595; 33600; 33615; 33660; 33705; 33750; 33795; 33840; 33850; 33860; 33870; 33885; 33930; 
    33933; 33935; 33950; 33975; 34020; 34040; 34065; 34110; 34155; 34200; 34245; 34290; 34335; 
    34380; 34425; 34470; 34480; 34500; 34505; 34515; 34516; 34517; 34560; 34605; 34607; 34610; 
    34620; 34624; 34625; 34626; 34627; 34628; 34629; 34630; 34640; 34644; 34645; 34646; 34647; 
    34648; 34649; 34650; 34655; 34660; 34665; 34670; 34680; 34695; 34700; 34740; 34785; 34786; 
    34795; 34830; 34875; 34920; 34965; 34966; 35010; 35055; 35100; 35145; 35190; 35235; 35280; 
    35325; 35370; 35415; 35460; 35470; 35475; 35477; 35478; 35479; 35480; 35481; 35482; 35483; 
    35484; 35485; 35486; 35487; 35488; 35489; 35490; 35491; 35505; 35550; 35570; 35580; 35583; 
    35585; 35586; 35595; 35640; 35685; 35730; 35775; 35785; 35800; 35810; 35820; 35865; 35910; 
    35955; 36000; 36045; 36046; 36090; 36120; 36135; 36180; 36200; 36201; 36220; 36225; 36226; 
    36230; 36270; 36300; 36315; 36320; 36360; 36365; 36370; 36371; 36380; 36381; 36382; 36383; 
    36384; 36385; 36386; 36387; 36388; 36389; 36390; 36391; 36400; 36405; 36417; 36420; 36425; 
    36430; 36440; 36441; 36442; 36443; 36446; 36447; 36450; 36460; 36495; 36540; 36550; 36563; 
    36585; 36590; 36595; 36600; 36630; 36675; 36720; 36765; 36810; 36821; 36827; 36830; 36835; 
    36836; 36838; 36840; 36843; 36846; 36850; 36853; 36855; 36900; 36905; 36945; 36946; 36947; 
    36948; 36960; 36985; 36990; 36992; 37010; 37011; 37033; 37035; 37038; 37039; 37040; 37041; 
    37043; 37045; 37047; 37048; 37049; 37050; 37052; 37053; 37058; 37059; 37060; 37070; 37073; 
    37075; 37077; 37078; 37079; 37080; 37081; 37082; 37083; 37084; 37086; 37090; 37095; 37100; 
    37105; 37110; 37124; 37125; 37170; 37215; 37260; 37265; 37305; 37350; 37395; 37440; 37485; 
    37530; 37534; 37535; 37540; 37543; 37544; 37575; 37620; 37665; 37670; 37675; 37710; 37755; 
    37800; 37810; 37815; 37825; 37828; 37840; 37845; 37850; 37890; 37935; 37980; 37985; 37990; 
    38025; 38035; 38038; 38045; 38046; 38047; 38048; 38049; 38050; 38051; 38055; 38058; 38060; 
    38070; 38115; 38120; 38140; 38150; 38160; 38205; 38210; 38250; 38260; 38270; 38275; 38276; 
    38280; 38295; 38320; 38340; 38385; 38430; 38475; 38520; 38525; 38565; 38568; 38570; 38572; 
    38610; 38655; 38700; 38715; 38730; 38735; 38745; 38748; 38790; 38835; 38840; 38880; 38925; 
    38930; 38935; 38950; 38955; 38957; 38960; 38965; 38966; 38970; 38990; 38995; 39000; 39014; 
    39015; 39050; 39060; 39061; 39062; 39063; 39065; 39066; 39067; 39070; 39071; 39073; 39074; 
    39075; 39080; 39081; 39085; 39105; 39110; 39112; 39125; 39126; 39127; 39131; 39150; 39200; 
    39201; 39202; 39203; 39204; 39210; 39211; 39212; 45300; 45303; 45304; 45305; 45307
   ] 2 eq_refl eq_refl.

(** enums.rs:6739-6837; deserialize 6839-6844 (get_u8). *)
Definition EmitterSystemFunction_spec : enum_spec := mk_enum_spec "EmitterSystemFunction" 1
   [
    0; 1; 2; 3; 4; 5; 6; 7; 8; 9; 10; 11; 12; 13; 14; 15; 16; 17; 18; 19; 20; 21; 22; 23; 24; 25; 
    26; 27; 28; 29; 30; 31; 32; 33; 34; 35; 36; 37; 38; 39; 40; 41; 42; 43; 44; 45; 46; 47; 48; 49; 
    50; 51; 52; 56; 57; 58; 59; 60; 61; 62; 64; 65; 66; 71; 72; 73; 74; 75; 76; 77; 78; 79; 80; 81; 
    96; 97; 98; 99; 100; 101; 102; 103
   ] 0 eq_refl eq_refl.

(** enums.rs:6848-6852; deserialize 6854-6859 (get_u8). *)
Definition ElectromagneticEmissionStateUpdateIndicator_spec : enum_spec := mk_enum_spec "ElectromagneticEmissionStateUpdateIndicator" 1
   [
    0; 1
   ] 0 eq_refl eq_refl.

(** enums.rs:6863-6889; deserialize 6891-6896 (get_u8). *)
Definition ElectromagneticEmissionBeamFunction_spec : enum_spec := mk_enum_spec "ElectromagneticEmissionBeamFunction" 1
   [
    0; 1; 2; 3; 4; 5; 6; 7; 8; 9; 10; 11; 12; 13; 14; 15; 16; 17; 20; 21; 22; 23; 24; 25
   ] 0 eq_refl eq_refl.

(** enums.rs:6900-6904; deserialize 6906-6911 (get_u8). *)
Definition HighDensityTrackJam_spec : enum_spec := mk_enum_spec "HighDensityTrackJam" 1
   [
    0; 1
   ] 0 eq_refl eq_refl.

(** enums.rs:6915-7020; deserialize 7022-7027 (get_u16). *)
Definition DesignatorSystemName_spec : enum_spec := mk_enum_spec "DesignatorSystemName" 2
   [
    0; 1000; 1100; 1200; 1300; 1400; 1500; 1600; 1700; 1800; 1900; 2000; 2100; 2200; 2300; 2400; 
    2500; 2600; 2650; 2700; 2800; 2900; 3000; 3100; 3200; 3300; 3400; 3500; 3600; 3700; 4400; 4500; 
    4600; 4700; 4800; 4900; 5000; 5100; 5200; 5300; 5400; 5500; 5600; 5700; 5800; 6000; 6100; 6200; 
    6300; 6400; 6500; 6600; 6700; 6800; 6900; 7000; 7100; 7200; 7300; 7400; 7500; 7600; 7700; 7800; 
    7900; 8000; 8100; 8200; 8300; 8400; 8500; 8600; 8700; 8800; 8900; 9000; 9090; 9100; 9140; 9150; 
    9200; 9300; 9400; 9500; 9600; 9700; 9800; 9900; 10000; 10100; 10200; 10300; 10400; 10500; 
    10600; 10700; 10800; 10900; 11000; 11100; 11200; 11300; 11400
   ] 0 eq_refl eq_refl.

(** enums.rs:7050-7053; deserialize 7055-7060 (get_u16). *)
Definition DesignatorCode_spec : enum_spec := mk_enum_spec "DesignatorCode" 2
   [
    0
   ] 0 eq_refl eq_refl.

(** enums.rs:7082-7099; deserialize 7101-7106 (get_u16). *)
Definition IFFSystemType_spec : enum_spec := mk_enum_spec "IFFSystemType" 2
   [
    0; 1; 2; 3; 4; 5; 6; 7; 8; 9; 10; 11; 12; 13; 14
   ] 0 eq_refl eq_refl.

(** enums.rs:7110-7131; deserialize 7133-7138 (get_u16). *)
Definition IFFSystemName_spec : enum_spec := mk_enum_spec "IFFSystemName" 2
   [
    0; 1; 2; 3; 4; 5; 6; 7; 8; 9; 10; 11; 12; 13; 14; 15; 16; 17; 18
   ] 0 eq_refl eq_refl.

(** enums.rs:7142-7150; deserialize 7152-7157 (get_u8). *)
Definition IFFSystemMode_spec : enum_spec := mk_enum_spec "IFFSystemMode" 1
   [
    0; 1; 2; 3; 4; 5
   ] 0 eq_refl eq_refl.

(** enums.rs:7161-7164; deserialize 7166-7171 (get_u8). *)
Definition IFFLayerSpecificInformation_spec : enum_spec := mk_enum_spec "IFFLayerSpecificInformation" 1
   [
    0
   ] 0 eq_refl eq_refl.

(** enums.rs:7175-7182; deserialize 7184-7189 (get_u8). *)
Definition IFFAlternateMode4ChallengeReply_spec : enum_spec := mk_enum_spec "IFFAlternateMode4ChallengeReply" 1
   [
    0; 1; 2; 3; 4
   ] 0 eq_refl eq_refl.

(** enums.rs:7193-7196; deserialize 7198-7203 (get_u8). *)
Definition IFFSystemType1OperationalParameter1_spec : enum_spec := mk_enum_spec "IFFSystemType1OperationalParameter1" 1
   [
    0
   ] 0 eq_refl eq_refl.

(** enums.rs:7207-7210; deserialize 7212-7217 (get_u8). *)
Definition IFFSystemType1OperationalParameter2_spec : enum_spec := mk_enum_spec "IFFSystemType1OperationalParameter2" 1
   [
    0
   ] 0 eq_refl eq_refl.

(** enums.rs:7221-7252; deserialize 7254-7259 (get_u8). *)
Definition SubcategoriesforLandCategory200Mammal_spec : enum_spec := mk_enum_spec "SubcategoriesforLandCategory200Mammal" 1
   [
    1; 2; 10; 11; 20; 21; 30; 31; 40; 41; 50; 60; 61; 70; 80; 81; 82; 90; 91; 92; 93; 94; 95; 100; 
    101; 102; 110; 111; 200
   ] 1 eq_refl eq_refl.

(** enums.rs:7263-7288; deserialize 7290-7295 (get_u8). *)
Definition SubcategoriesforLandCategory201Reptile_spec : enum_spec := mk_enum_spec "SubcategoriesforLandCategory201Reptile" 1
   [
    1; 3; 8; 13; 17; 30; 31; 35; 39; 43; 60; 61; 62; 63; 64; 65; 66; 67; 90; 100; 120; 121; 122
   ] 1 eq_refl eq_refl.

(** enums.rs:7299-7305; deserialize 7307-7312 (get_u8). *)
Definition SubcategoriesforLandCategory202Amphibian_spec : enum_spec := mk_enum_spec "SubcategoriesforLandCategory202Amphibian" 1
   [
    1; 2; 170; 230
   ] 1 eq_refl eq_refl.

(** enums.rs:7316-7325; deserialize 7327-7332 (get_u8). *)
Definition SubcategoriesforLandCategory203Insect_spec : enum_spec := mk_enum_spec "SubcategoriesforLandCategory203Insect" 1
   [
    1; 60; 70; 80; 81; 90; 100
   ] 1 eq_refl eq_refl.

(** enums.rs:7336-7343; deserialize 7345-7350 (get_u8). *)
Definition SubcategoriesforLandCategory204Arachnid_spec : enum_spec := mk_enum_spec "SubcategoriesforLandCategory204Arachnid" 1
   [
    1; 20; 30; 40; 50
   ] 1 eq_refl eq_refl.

(** enums.rs:7354-7358; deserialize 7360-7365 (get_u8). *)
Definition SubcategoriesforLandCategory205Mollusk_spec : enum_spec := mk_enum_spec "SubcategoriesforLandCategory205Mollusk" 1
   [
    1; 50
   ] 1 eq_refl eq_refl.

(** enums.rs:7369-7383; deserialize 7385-7390 (get_u8). *)
Definition SubcategoriesforLandCategory206Marsupial_spec : enum_spec := mk_enum_spec "SubcategoriesforLandCategory206Marsupial" 1
   [
    1; 2; 90; 100; 110; 150; 160; 170; 200; 205; 210; 211
   ] 1 eq_refl eq_refl.

(** enums.rs:7394-7423; deserialize 7425-7430 (get_u8). *)
Definition SubcategoriesforAirCategory200Bird_spec : enum_spec := mk_enum_spec "SubcategoriesforAirCategory200Bird" 1
   [
    1; 2; 3; 4; 5; 6; 7; 8; 9; 10; 11; 12; 13; 20; 21; 22; 30; 31; 32; 40; 41; 50; 55; 60; 65; 70; 
    80
   ] 1 eq_refl eq_refl.

(** enums.rs:7434-7445; deserialize 7447-7452 (get_u8). *)
Definition SubcategoriesforAirCategory201Insect_spec : enum_spec := mk_enum_spec "SubcategoriesforAirCategory201Insect" 1
   [
    1; 2; 20; 30; 40; 50; 60; 70; 80
   ] 1 eq_refl eq_refl.

(** enums.rs:7456-7461; deserialize 7463-7468 (get_u8). *)
Definition SubcategoriesforAirCategory202Mammal_spec : enum_spec := mk_enum_spec "SubcategoriesforAirCategory202Mammal" 1
   [
    1; 10; 20
   ] 1 eq_refl eq_refl.

(** enums.rs:7472-7501; deserialize 7503-7508 (get_u8). *)
Definition SubcategoriesforSubsurfaceCategory200Fish_spec : enum_spec := mk_enum_spec "SubcategoriesforSubsurfaceCategory200Fish" 1
   [
    1; 2; 3; 4; 5; 30; 31; 32; 33; 34; 60; 61; 90; 91; 120; 121; 122; 150; 151; 152; 153; 154; 180; 
    181; 190; 200; 201
   ] 1 eq_refl eq_refl.

(** enums.rs:7512-7573; deserialize 7575-7580 (get_u8). *)
Definition SubcategoriesforSubsurfaceCategory201Mammal_spec : enum_spec := mk_enum_spec "SubcategoriesforSubsurfaceCategory201Mammal" 1
   [
    1; 2; 3; 4; 5; 6; 7; 8; 9; 10; 11; 12; 13; 14; 15; 16; 17; 18; 19; 20; 21; 22; 23; 24; 25; 26; 
    27; 50; 51; 52; 53; 54; 55; 56; 57; 58; 100; 101; 102; 103; 104; 120; 121; 122; 123; 124; 125; 
    130; 131; 132; 140; 141; 142; 150; 151; 160; 161; 162; 200
   ] 1 eq_refl eq_refl.

(** enums.rs:7584-7595; deserialize 7597-7602 (get_u8). *)
Definition SubcategoriesforSubsurfaceCategory202Mollusk_spec : enum_spec := mk_enum_spec "SubcategoriesforSubsurfaceCategory202Mollusk" 1
   [
    1; 10; 20; 30; 40; 50; 60; 70; 80
   ] 1 eq_refl eq_refl.

(** enums.rs:7606-7613; deserialize 7615-7620 (get_u8). *)
Definition SubcategoriesforSubsurfaceCategory203Crustacean_spec : enum_spec := mk_enum_spec "SubcategoriesforSubsurfaceCategory203Crustacean" 1
   [
    1; 2; 10; 20; 30
   ] 1 eq_refl eq_refl.

(** enums.rs:7624-7628; deserialize 7630-7635 (get_u8). *)
Definition SubcategoriesforSubsurfaceCategory204Insect_spec : enum_spec := mk_enum_spec "SubcategoriesforSubsurfaceCategory204Insect" 1
   [
    1; 2
   ] 1 eq_refl eq_refl.

(** enums.rs:7639-7655; deserialize 7657-7662 (get_u8). *)
Definition AnimalLifeformGroupSizeRangeEnumerationforallDomains_spec : enum_spec := mk_enum_spec "AnimalLifeformGroupSizeRangeEnumerationforallDomains" 1
   [
    201; 202; 203; 204; 205; 206; 207; 208; 210; 212; 214; 216; 218; 220
   ] 201 eq_refl eq_refl.

(** enums.rs:7666-7674; deserialize 7676-7681 (get_u8). *)
Definition SpecificDimensionEnumerationsforLandAreaSize_spec : enum_spec := mk_enum_spec "SpecificDimensionEnumerationsforLandAreaSize" 1
   [
    222; 223; 224; 225; 226; 227
   ] 222 eq_refl eq_refl.

(** enums.rs:7685-7693; deserialize 7695-7700 (get_u8). *)
Definition SpecificDimensionEnumerationsforAirAreaSize_spec : enum_spec := mk_enum_spec "SpecificDimensionEnumerationsforAirAreaSize" 1
   [
    222; 223; 224; 225; 226; 227
   ] 222 eq_refl eq_refl.

(** enums.rs:7704-7712; deserialize 7714-7719 (get_u8). *)
Definition AddSpecificDimensionEnumerationsforSubsurfaceAreaSize_spec : enum_spec := mk_enum_spec "AddSpecificDimensionEnumerationsforSubsurfaceAreaSize" 1
   [
    222; 223; 224; 225; 226; 227
   ] 222 eq_refl eq_refl.

(** enums.rs:7723-7731; deserialize 7733-7738 (get_u8). *)
Definition AddVariantsforLandCategory200Mammal_spec : enum_spec := mk_enum_spec "AddVariantsforLandCategory200Mammal" 1
   [
    1; 2; 3; 4; 5; 6
   ] 1 eq_refl eq_refl.

(** enums.rs:7742-7749; deserialize 7751-7756 (get_u8). *)
Definition VariantsforLandCategoriesReptilesAmphibiansInsectsandArachnids_spec : enum_spec := mk_enum_spec "VariantsforLandCategoriesReptilesAmphibiansInsectsandArachnids" 1
   [
    1; 2; 3; 4; 5
   ] 1 eq_refl eq_refl.

(** enums.rs:7760-7766; deserialize 7768-7773 (get_u8). *)
Definition VariantsforAirCategory200Bird_spec : enum_spec := mk_enum_spec "VariantsforAirCategory200Bird" 1
   [
    1; 2; 3; 4
   ] 1 eq_refl eq_refl.

(** enums.rs:7777-7782; deserialize 7784-7789 (get_u8). *)
Definition AddVariantsforAirCategory201Insect_spec : enum_spec := mk_enum_spec "AddVariantsforAirCategory201Insect" 1
   [
    1; 2; 3
   ] 1 eq_refl eq_refl.

(** enums.rs:7793-7803; deserialize 7805-7810 (get_u8). *)
Definition AddVariantsforSubsurfaceCategoriesFishMolluskCrustaceanandInsect_spec : enum_spec := mk_enum_spec "AddVariantsforSubsurfaceCategoriesFishMolluskCrustaceanandInsect" 1
   [
    1; 2; 3; 4; 5; 6; 7; 8
   ] 1 eq_refl eq_refl.

(** enums.rs:7814-7818; deserialize 7820-7825 (get_u8). *)
Definition VariantsforSubsurfaceCategory201Mammal_spec : enum_spec := mk_enum_spec "VariantsforSubsurfaceCategory201Mammal" 1
   [
    1; 2
   ] 1 eq_refl eq_refl.

(** enums.rs:7829-7833; deserialize 7835-7840 (get_u8). *)
Definition UAStateChangeUpdateIndicator_spec : enum_spec := mk_enum_spec "UAStateChangeUpdateIndicator" 1
   [
    0; 1
   ] 0 eq_refl eq_refl.

(** enums.rs:7862-7874; deserialize 7876-7881 (get_u16). *)
Definition UAAcousticSystemName_spec : enum_spec := mk_enum_spec "UAAcousticSystemName" 2
   [
    0; 1; 2; 3; 4; 5; 6; 7; 8; 9
   ] 0 eq_refl eq_refl.

(** enums.rs:7903-7910; deserialize 7912-7917 (get_u8). *)
Definition UAAcousticEmitterSystemFunction_spec : enum_spec := mk_enum_spec "UAAcousticEmitterSystemFunction" 1
   [
    0; 1; 2; 3; 4
   ] 0 eq_refl eq_refl.

(** enums.rs:7939-7942; deserialize 7944-7949 (get_u16). *)
Definition UAActiveEmissionParameterIndex_spec : enum_spec := mk_enum_spec "UAActiveEmissionParameterIndex" 2
   [
    0
   ] 0 eq_refl eq_refl.

(** enums.rs:7953-7961; deserialize 7963-7968 (get_u16). *)
Definition UAScanPattern_spec : enum_spec := mk_enum_spec "UAScanPattern" 2
   [
    0; 1; 2; 3; 4; 5
   ] 0 eq_refl eq_refl.

(** enums.rs:7972-7975; deserialize 7977-7982 (get_u16). *)
Definition UAPassiveParameterIndex_spec : enum_spec := mk_enum_spec "UAPassiveParameterIndex" 2
   [
    0
   ] 0 eq_refl eq_refl.

(** enums.rs:8004-8007; deserialize 8009-8014 (get_u16). *)
Definition UAAdditionalPassiveActivityParameterIndex_spec : enum_spec := mk_enum_spec "UAAdditionalPassiveActivityParameterIndex" 2
   [
    0
   ] 0 eq_refl eq_refl.

(** enums.rs:8018-8029; deserialize 8031-8036 (get_u16). *)
Definition TransmitterMajorModulation_spec : enum_spec := mk_enum_spec "TransmitterMajorModulation" 2
   [
    0; 1; 2; 3; 4; 5; 6; 7; 8
   ] 0 eq_refl eq_refl.

(** enums.rs:8040-8053; deserialize 8055-8060 (get_u16). *)
Definition TransmitterDetailAmplitudeModulation_spec : enum_spec := mk_enum_spec "TransmitterDetailAmplitudeModulation" 2
   [
    0; 1; 2; 3; 4; 5; 6; 7; 8; 9; 10
   ] 0 eq_refl eq_refl.

(** enums.rs:8064-8068; deserialize 8070-8075 (get_u16). *)
Definition TransmitterDetailAmplitudeandAngleModulation_spec : enum_spec := mk_enum_spec "TransmitterDetailAmplitudeandAngleModulation" 2
   [
    0; 1
   ] 0 eq_refl eq_refl.

(** enums.rs:8079-8086; deserialize 8088-8093 (get_u16). *)
Definition TransmitterDetailAngleModulation_spec : enum_spec := mk_enum_spec "TransmitterDetailAngleModulation" 2
   [
    0; 1; 2; 3; 4
   ] 0 eq_refl eq_refl.

(** enums.rs:8097-8101; deserialize 8103-8108 (get_u16). *)
Definition TransmitterDetailCombinationModulation_spec : enum_spec := mk_enum_spec "TransmitterDetailCombinationModulation" 2
   [
    0; 1
   ] 0 eq_refl eq_refl.

(** enums.rs:8112-8118; deserialize 8120-8125 (get_u16). *)
Definition TransmitterDetailPulseModulation_spec : enum_spec := mk_enum_spec "TransmitterDetailPulseModulation" 2
   [
    0; 1; 2; 3
   ] 0 eq_refl eq_refl.

(** enums.rs:8129-8133; deserialize 8135-8140 (get_u16). *)
Definition TransmitterDetailUnmodulatedModulation_spec : enum_spec := mk_enum_spec "TransmitterDetailUnmodulatedModulation" 2
   [
    0; 1
   ] 0 eq_refl eq_refl.

(** enums.rs:8144-8147; deserialize 8149-8154 (get_u16). *)
Definition TransmitterDetailCarrierPhaseShiftModulation_spec : enum_spec := mk_enum_spec "TransmitterDetailCarrierPhaseShiftModulation" 2
   [
    0
   ] 0 eq_refl eq_refl.

(** enums.rs:8158-8174; deserialize 8176-8181 (get_u16). *)
Definition TransmitterModulationTypeSystem_spec : enum_spec := mk_enum_spec "TransmitterModulationTypeSystem" 2
   [
    0; 1; 2; 3; 4; 5; 6; 7; 8; 9; 10; 11; 12; 13
   ] 0 eq_refl eq_refl.

(** enums.rs:8185-8190; deserialize 8192-8197 (get_u8). *)
Definition TransmitterTransmitState_spec : enum_spec := mk_enum_spec "TransmitterTransmitState" 1
   [
    0; 1; 2
   ] 0 eq_refl eq_refl.

(** enums.rs:8219-8236; deserialize 8238-8243 (get_u8). *)
Definition TransmitterInputSource_spec : enum_spec := mk_enum_spec "TransmitterInputSource" 1
   [
    0; 1; 2; 3; 4; 5; 6; 7; 8; 9; 10; 11; 12; 13; 14
   ] 0 eq_refl eq_refl.

(** enums.rs:8265-8282; deserialize 8284-8289 (get_u16). *)
Definition TransmitterCryptoSystem_spec : enum_spec := mk_enum_spec "TransmitterCryptoSystem" 2
   [
    0; 1; 2; 3; 4; 5; 6; 7; 8; 9; 10; 11; 12; 13; 14
   ] 0 eq_refl eq_refl.

(** enums.rs:8311-8319; deserialize 8321-8326 (get_u16). *)
Definition TransmitterAntennaPatternType_spec : enum_spec := mk_enum_spec "TransmitterAntennaPatternType" 2
   [
    0; 1; 2; 4; 5; 6
   ] 0 eq_refl eq_refl.

(** enums.rs:8348-8352; deserialize 8354-8359 (get_u8). *)
Definition TransmitterAntennaPatternReferenceSystem_spec : enum_spec := mk_enum_spec "TransmitterAntennaPatternReferenceSystem" 1
   [
    1; 2
   ] 1 eq_refl eq_refl.

(** enums.rs:8381-8385; deserialize 8387-8392 (get_u8). *)
Definition CCTTSINCGARSStartofMessage_spec : enum_spec := mk_enum_spec "CCTTSINCGARSStartofMessage" 1
   [
    0; 1
   ] 0 eq_refl eq_refl.

(** enums.rs:8396-8400; deserialize 8402-8407 (get_u8). *)
Definition CCTTSINCGARSClearChannel_spec : enum_spec := mk_enum_spec "CCTTSINCGARSClearChannel" 1
   [
    0; 1
   ] 0 eq_refl eq_refl.

(** enums.rs:8411-8418; deserialize 8420-8425 (get_u8). *)
Definition TimeSlotAllocationLevel_spec : enum_spec := mk_enum_spec "TimeSlotAllocationLevel" 1
   [
    0; 1; 2; 3; 4
   ] 0 eq_refl eq_refl.

(** enums.rs:8429-8433; deserialize 8435-8440 (get_u8). *)
Definition JTIDSMIDSModulationParametersTransmittingTerminalPrimaryMode_spec : enum_spec := mk_enum_spec "JTIDSMIDSModulationParametersTransmittingTerminalPrimaryMode" 1
   [
    1; 2
   ] 1 eq_refl eq_refl.

(** enums.rs:8444-8450; deserialize 8452-8457 (get_u8). *)
Definition JTIDSMIDSModulationParametersTransmittingTerminalSecondaryMode_spec : enum_spec := mk_enum_spec "JTIDSMIDSModulationParametersTransmittingTerminalSecondaryMode" 1
   [
    0; 1; 2; 3
   ] 0 eq_refl eq_refl.

(** enums.rs:8461-8468; deserialize 8470-8475 (get_u8). *)
Definition JTIDSMIDSModulationParametersSynchronizationState_spec : enum_spec := mk_enum_spec "JTIDSMIDSModulationParametersSynchronizationState" 1
   [
    0; 1; 2; 3; 4
   ] 0 eq_refl eq_refl.

(** enums.rs:8479-8489; deserialize 8491-8496 (get_u8). *)
Definition MessageTypeIdentifier_spec : enum_spec := mk_enum_spec "MessageTypeIdentifier" 1
   [
    0; 1; 2; 3; 4; 5; 6; 7
   ] 0 eq_refl eq_refl.

(** enums.rs:8500-8537; deserialize 8539-8544 (get_u32). *)
Definition SignalUserProtocolIdentificationNumber_spec : enum_spec := mk_enum_spec "SignalUserProtocolIdentificationNumber" 4
   [
    1; 5; 6; 20; 30; 31; 32; 35; 177; 200; 201; 202; 203; 546; 832; 1000; 1100; 1371; 4570; 5361; 
    6000; 6010; 6020; 6661; 6662; 6663; 6664; 6665; 6666; 7000; 7010; 7020; 7030; 7040; 7050
   ] 1 eq_refl eq_refl.

(** enums.rs:8548-8648; deserialize 8650-8655 (get_u16). *)
Definition SignalTDLType_spec : enum_spec := mk_enum_spec "SignalTDLType" 2
   [
    0; 1; 2; 3; 4; 5; 6; 7; 8; 9; 10; 11; 12; 13; 14; 15; 16; 17; 18; 19; 20; 21; 22; 23; 24; 25; 
    26; 27; 28; 29; 30; 31; 32; 33; 34; 35; 36; 37; 38; 39; 40; 41; 42; 43; 44; 45; 46; 47; 48; 49; 
    50; 51; 52; 53; 54; 55; 56; 57; 58; 59; 60; 61; 62; 63; 64; 65; 66; 67; 68; 69; 70; 99; 100; 
    101; 102; 103; 104; 105; 106; 107; 108; 109; 110; 111; 112; 113; 114; 115; 116; 117; 118; 119; 
    120; 121; 125; 126; 127
   ] 0 eq_refl eq_refl.

(** enums.rs:8677-8682; deserialize 8684-8689 (get_u16). *)
Definition ReceiverReceiverState_spec : enum_spec := mk_enum_spec "ReceiverReceiverState" 2
   [
    0; 1; 2
   ] 0 eq_refl eq_refl.

(** enums.rs:8711-8719; deserialize 8721-8726 (get_u8). *)
Definition IntercomControlControlType_spec : enum_spec := mk_enum_spec "IntercomControlControlType" 1
   [
    0; 1; 2; 3; 4; 5
   ] 0 eq_refl eq_refl.

(** enums.rs:8748-8755; deserialize 8757-8762 (get_u8). *)
Definition IntercomControlCommunicationsType_spec : enum_spec := mk_enum_spec "IntercomControlCommunicationsType" 1
   [
    0; 1; 2; 3; 4
   ] 0 eq_refl eq_refl.

(** enums.rs:8766-8775; deserialize 8777-8782 (get_u8). *)
Definition IntercomControlCommand_spec : enum_spec := mk_enum_spec "IntercomControlCommand" 1
   [
    0; 1; 2; 3; 4; 5; 6
   ] 0 eq_refl eq_refl.

(** enums.rs:8804-8809; deserialize 8811-8816 (get_u8). *)
Definition IntercomControlTransmitLineState_spec : enum_spec := mk_enum_spec "IntercomControlTransmitLineState" 1
   [
    0; 1; 2
   ] 0 eq_refl eq_refl.

(** enums.rs:8838-8844; deserialize 8846-8851 (get_u8). *)
Definition IntercomControlDestinationLineStateCommand_spec : enum_spec := mk_enum_spec "IntercomControlDestinationLineStateCommand" 1
   [
    0; 1; 2; 3
   ] 0 eq_refl eq_refl.

(** enums.rs:8855-8860; deserialize 8862-8867 (get_u16). *)
Definition IntercomControlRecordType_spec : enum_spec := mk_enum_spec "IntercomControlRecordType" 2
   [
    1; 2; 3
   ] 1 eq_refl eq_refl.

(** enums.rs:8871-8876; deserialize 8878-8883 (get_u8). *)
Definition CollisionType_spec : enum_spec := mk_enum_spec "CollisionType" 1
   [
    0; 1; 55
   ] 0 eq_refl eq_refl.

(** enums.rs:8887-8898; deserialize 8900-8905 (get_u8). *)
Definition MinefieldSensorTypes_spec : enum_spec := mk_enum_spec "MinefieldSensorTypes" 1
   [
    0; 1; 2; 3; 4; 5; 6; 7; 8
   ] 0 eq_refl eq_refl.

(** enums.rs:8927-8941; deserialize 8943-8948 (get_u16). *)
Definition MinefieldSensorTypesOptical_spec : enum_spec := mk_enum_spec "MinefieldSensorTypesOptical" 2
   [
    0; 1; 2; 3; 4; 5; 6; 7; 8; 9; 10; 11
   ] 0 eq_refl eq_refl.

(** enums.rs:8952-8964; deserialize 8966-8971 (get_u16). *)
Definition MinefieldSensorTypesFLIR_spec : enum_spec := mk_enum_spec "MinefieldSensorTypesFLIR" 2
   [
    0; 1; 2; 3; 4; 5; 6; 7; 8; 9
   ] 0 eq_refl eq_refl.

(** enums.rs:8975-8983; deserialize 8985-8990 (get_u16). *)
Definition MinefieldSensorTypesRADAR_spec : enum_spec := mk_enum_spec "MinefieldSensorTypesRADAR" 2
   [
    0; 1; 2; 3; 4; 5
   ] 0 eq_refl eq_refl.

(** enums.rs:8994-9000; deserialize 9002-9007 (get_u16). *)
Definition MinefieldSensorTypesMagnetic_spec : enum_spec := mk_enum_spec "MinefieldSensorTypesMagnetic" 2
   [
    0; 1; 2; 3
   ] 0 eq_refl eq_refl.

(** enums.rs:9011-9015; deserialize 9017-9022 (get_u16). *)
Definition MinefieldSensorTypesLaser_spec : enum_spec := mk_enum_spec "MinefieldSensorTypesLaser" 2
   [
    0; 1
   ] 0 eq_refl eq_refl.

(** enums.rs:9026-9029; deserialize 9031-9036 (get_u16). *)
Definition MinefieldSensorTypesSONAR_spec : enum_spec := mk_enum_spec "MinefieldSensorTypesSONAR" 2
   [
    0
   ] 0 eq_refl eq_refl.

(** enums.rs:9040-9045; deserialize 9047-9052 (get_u16). *)
Definition MinefieldSensorTypesPhysical_spec : enum_spec := mk_enum_spec "MinefieldSensorTypesPhysical" 2
   [
    0; 1; 2
   ] 0 eq_refl eq_refl.

(** enums.rs:9056-9059; deserialize 9061-9066 (get_u16). *)
Definition MinefieldSensorTypesMultispectral_spec : enum_spec := mk_enum_spec "MinefieldSensorTypesMultispectral" 2
   [
    0
   ] 0 eq_refl eq_refl.

(** enums.rs:9070-9078; deserialize 9080-9085 (get_u8). *)
Definition AggregateStateAggregateState_spec : enum_spec := mk_enum_spec "AggregateStateAggregateState" 1
   [
    0; 1; 2; 3; 4; 5
   ] 0 eq_refl eq_refl.

(** enums.rs:9107-9115; deserialize 9117-9122 (get_u32). *)
Definition AggregateStateFormation_spec : enum_spec := mk_enum_spec "AggregateStateFormation" 4
   [
    0; 1; 2; 3; 4; 5
   ] 0 eq_refl eq_refl.

(** enums.rs:9144-9152; deserialize 9154-9159 (get_u8). *)
Definition AggregateStateAggregateKind_spec : enum_spec := mk_enum_spec "AggregateStateAggregateKind" 1
   [
    0; 1; 2; 3; 4; 5
   ] 0 eq_refl eq_refl.

(** enums.rs:9163-9188; deserialize 9190-9195 (get_u8). *)
Definition AggregateStateSubcategory_spec : enum_spec := mk_enum_spec "AggregateStateSubcategory" 1
   [
    0; 1; 2; 3; 4; 5; 6; 7; 8; 9; 10; 11; 12; 13; 14; 15; 16; 17; 18; 19; 20; 21; 22
   ] 0 eq_refl eq_refl.

(** enums.rs:9199-9203; deserialize 9205-9210 (get_u8). *)
Definition AggregateStateSpecific_spec : enum_spec := mk_enum_spec "AggregateStateSpecific" 1
   [
    0; 1
   ] 0 eq_refl eq_refl.

(** enums.rs:9214-9227; deserialize 9229-9234 (get_u16). *)
Definition IsPartOfNature_spec : enum_spec := mk_enum_spec "IsPartOfNature" 2
   [
    0; 1; 2; 3; 4; 5; 6; 7; 8; 9; 10
   ] 0 eq_refl eq_refl.

(** enums.rs:9238-9243; deserialize 9245-9250 (get_u16). *)
Definition IsPartOfPosition_spec : enum_spec := mk_enum_spec "IsPartOfPosition" 2
   [
    0; 1; 2
   ] 0 eq_refl eq_refl.

(** enums.rs:9254-9279; deserialize 9281-9286 (get_u16). *)
Definition IsPartOfStationName_spec : enum_spec := mk_enum_spec "IsPartOfStationName" 2
   [
    0; 1; 2; 3; 4; 5; 6; 7; 8; 9; 10; 11; 12; 13; 14; 15; 16; 17; 18; 19; 20; 21; 22
   ] 0 eq_refl eq_refl.

(** enums.rs:9290-9302; deserialize 9304-9309 (get_u8). *)
Definition IsGroupOfGroupedEntityCategory_spec : enum_spec := mk_enum_spec "IsGroupOfGroupedEntityCategory" 1
   [
    0; 1; 2; 3; 4; 5; 6; 7; 8; 9
   ] 0 eq_refl eq_refl.

(** enums.rs:9331-9342; deserialize 9344-9349 (get_u8). *)
Definition IsGroupOfRestStatus_spec : enum_spec := mk_enum_spec "IsGroupOfRestStatus" 1
   [
    0; 1; 2; 3; 4; 5; 6; 7; 8
   ] 0 eq_refl eq_refl.

(** enums.rs:9353-9364; deserialize 9366-9371 (get_u8). *)
Definition TransferControlTransferType_spec : enum_spec := mk_enum_spec "TransferControlTransferType" 1
   [
    0; 1; 2; 4; 5; 7; 8; 9; 10
   ] 0 eq_refl eq_refl.

(** enums.rs:9393-9404; deserialize 9406-9411 (get_u8). *)
Definition ObjectKind_spec : enum_spec := mk_enum_spec "ObjectKind" 1
   [
    0; 1; 2; 3; 4; 5; 6; 7; 8
   ] 0 eq_refl eq_refl.

(** enums.rs:9477-9483; deserialize 9485-9490 (get_u16). *)
Definition GriddedDataCoordinateSystem_spec : enum_spec := mk_enum_spec "GriddedDataCoordinateSystem" 2
   [
    0; 1; 2; 3
   ] 0 eq_refl eq_refl.

(** enums.rs:9512-9516; deserialize 9518-9523 (get_u8). *)
Definition GriddedDataConstantGrid_spec : enum_spec := mk_enum_spec "GriddedDataConstantGrid" 1
   [
    0; 1
   ] 0 eq_refl eq_refl.

(** enums.rs:9545-9548; deserialize 9550-9555 (get_u8). *)
Definition GriddedDataSampleType_spec : enum_spec := mk_enum_spec "GriddedDataSampleType" 1
   [
    0
   ] 0 eq_refl eq_refl.

(** enums.rs:9577-9582; deserialize 9584-9589 (get_u8). *)
Definition GriddedDataDataRepresentation_spec : enum_spec := mk_enum_spec "GriddedDataDataRepresentation" 1
   [
    0; 1; 2
   ] 0 eq_refl eq_refl.

(** enums.rs:9611-9614; deserialize 9616-9621 (get_u8). *)
Definition EnvironmentalProcessModelType_spec : enum_spec := mk_enum_spec "EnvironmentalProcessModelType" 1
   [
    0
   ] 0 eq_refl eq_refl.

(** enums.rs:9625-9646; deserialize 9648-9653 (get_u32). *)
Definition EnvironmentalProcessRecordType_spec : enum_spec := mk_enum_spec "EnvironmentalProcessRecordType" 4
   [
    256; 259; 65536; 327680; 655360; 786432; 851968; 1048576; 3145728; 5242880; 83886080; 
    167772160; 201326592; 218103808; 268435456; 805306368; 1342177280; 1610612736; 1879048192
   ] 256 eq_refl eq_refl.

(** enums.rs:9657-9663; deserialize 9665-9670 (get_u8). *)
Definition SignalEncodingClass_spec : enum_spec := mk_enum_spec "SignalEncodingClass" 1
   [
    0; 1; 2; 3
   ] 0 eq_refl eq_refl.

(** enums.rs:9674-9689; deserialize 9691-9696 (get_u8). *)
Definition SignalEncodingType_spec : enum_spec := mk_enum_spec "SignalEncodingType" 1
   [
    1; 2; 3; 4; 5; 6; 8; 9; 10; 11; 12; 100
   ] 1 eq_refl eq_refl.

(** enums.rs:9700-9712; deserialize 9714-9719 (get_u8). *)
Definition RepairGroups_spec : enum_spec := mk_enum_spec "RepairGroups" 1
   [
    0; 1; 2; 3; 4; 5; 6; 7; 8; 9
   ] 0 eq_refl eq_refl.

(** enums.rs:9741-9745; deserialize 9747-9752 (get_u8). *)
Definition EnvironmentRecordTypeGroups_spec : enum_spec := mk_enum_spec "EnvironmentRecordTypeGroups" 1
   [
    0; 1
   ] 0 eq_refl eq_refl.

(** enums.rs:9756-9763; deserialize 9765-9770 (get_u8). *)
Definition PlatformAirCivilianUltralightNonrigidWingAircraftSubcategories_spec : enum_spec := mk_enum_spec "PlatformAirCivilianUltralightNonrigidWingAircraftSubcategories" 1
   [
    1; 2; 3; 4; 5
   ] 1 eq_refl eq_refl.

(** enums.rs:9774-9778; deserialize 9780-9785 (get_u8). *)
Definition PlatformAirCivilianUltralightRigidWingAircraftSubcategories_spec : enum_spec := mk_enum_spec "PlatformAirCivilianUltralightRigidWingAircraftSubcategories" 1
   [
    1; 2
   ] 1 eq_refl eq_refl.

(** enums.rs:9789-9793; deserialize 9795-9800 (get_u8). *)
Definition PlatformAirCivilianGliderSubcategories_spec : enum_spec := mk_enum_spec "PlatformAirCivilianGliderSubcategories" 1
   [
    1; 2
   ] 1 eq_refl eq_refl.

(** enums.rs:9804-9814; deserialize 9816-9821 (get_u8). *)
Definition PlatformAirCivilianFixedWingAircraftSubcategories_spec : enum_spec := mk_enum_spec "PlatformAirCivilianFixedWingAircraftSubcategories" 1
   [
    11; 12; 21; 22; 24; 32; 33; 34
   ] 11 eq_refl eq_refl.

(** enums.rs:9825-9834; deserialize 9836-9841 (get_u8). *)
Definition PlatformAirCivilianHelicopterSubcategories_spec : enum_spec := mk_enum_spec "PlatformAirCivilianHelicopterSubcategories" 1
   [
    11; 12; 13; 14; 21; 22; 23
   ] 11 eq_refl eq_refl.

(** enums.rs:9845-9852; deserialize 9854-9859 (get_u8). *)
Definition PlatformAirCivilianLighterthanAirBalloonSubcategories_spec : enum_spec := mk_enum_spec "PlatformAirCivilianLighterthanAirBalloonSubcategories" 1
   [
    1; 2; 3; 4; 5
   ] 1 eq_refl eq_refl.

(** enums.rs:9863-9869; deserialize 9871-9876 (get_u8). *)
Definition PlatformAirCivilianLighterthanAirAirshipSubcategories_spec : enum_spec := mk_enum_spec "PlatformAirCivilianLighterthanAirAirshipSubcategories" 1
   [
    1; 2; 3; 4
   ] 1 eq_refl eq_refl.

(** enums.rs:9880-9886; deserialize 9888-9893 (get_u8). *)
Definition APAParameterIndexAPAStatus_spec : enum_spec := mk_enum_spec "APAParameterIndexAPAStatus" 1
   [
    0; 1; 2; 3
   ] 0 eq_refl eq_refl.

(** enums.rs:9897-9902; deserialize 9904-9909 (get_u8). *)
Definition SeparationVPReasonforSeparation_spec : enum_spec := mk_enum_spec "SeparationVPReasonforSeparation" 1
   [
    0; 1; 2
   ] 0 eq_refl eq_refl.

(** enums.rs:9913-9919; deserialize 9921-9926 (get_u8). *)
Definition SeparationVPPreEntityIndicator_spec : enum_spec := mk_enum_spec "SeparationVPPreEntityIndicator" 1
   [
    0; 1; 2; 3
   ] 0 eq_refl eq_refl.

(** enums.rs:9930-9939; deserialize 9941-9946 (get_u16). *)
Definition IOActionIOWarfareType_spec : enum_spec := mk_enum_spec "IOActionIOWarfareType" 2
   [
    0; 1; 2; 3; 4; 5; 6
   ] 0 eq_refl eq_refl.

(** enums.rs:9968-9971; deserialize 9973-9978 (get_u16). *)
Definition IOActionIOSimulationSource_spec : enum_spec := mk_enum_spec "IOActionIOSimulationSource" 2
   [
    0
   ] 0 eq_refl eq_refl.

(** enums.rs:10000-10007; deserialize 10009-10014 (get_u16). *)
Definition IOActionIOActionType_spec : enum_spec := mk_enum_spec "IOActionIOActionType" 2
   [
    0; 1; 2; 3; 4
   ] 0 eq_refl eq_refl.

(** enums.rs:10036-10045; deserialize 10047-10052 (get_u16). *)
Definition IOActionIOActionPhase_spec : enum_spec := mk_enum_spec "IOActionIOActionPhase" 2
   [
    0; 1; 2; 3; 4; 5; 6
   ] 0 eq_refl eq_refl.

(** enums.rs:10074-10080; deserialize 10082-10087 (get_u8). *)
Definition IOReportIOReportType_spec : enum_spec := mk_enum_spec "IOReportIOReportType" 1
   [
    0; 1; 2; 3
   ] 0 eq_refl eq_refl.

(** enums.rs:10109-10119; deserialize 10121-10126 (get_u8). *)
Definition IOEffectsRecordIOStatus_spec : enum_spec := mk_enum_spec "IOEffectsRecordIOStatus" 1
   [
    0; 1; 2; 3; 4; 5; 6; 7
   ] 0 eq_refl eq_refl.

(** enums.rs:10130-10136; deserialize 10138-10143 (get_u8). *)
Definition IOEffectsRecordIOLinkType_spec : enum_spec := mk_enum_spec "IOEffectsRecordIOLinkType" 1
   [
    0; 1; 2; 3
   ] 0 eq_refl eq_refl.

(** enums.rs:10147-10154; deserialize 10156-10161 (get_u8). *)
Definition IOEffectsRecordIOEffect_spec : enum_spec := mk_enum_spec "IOEffectsRecordIOEffect" 1
   [
    0; 1; 2; 3; 255
   ] 0 eq_refl eq_refl.

(** enums.rs:10165-10168; deserialize 10170-10175 (get_u8). *)
Definition IOEffectsRecordIOProcess_spec : enum_spec := mk_enum_spec "IOEffectsRecordIOProcess" 1
   [
    0
   ] 0 eq_refl eq_refl.

(** enums.rs:10179-10185; deserialize 10187-10192 (get_u8). *)
Definition IOCommsNodeRecordCommsNodeType_spec : enum_spec := mk_enum_spec "IOCommsNodeRecordCommsNodeType" 1
   [
    0; 1; 2; 3
   ] 0 eq_refl eq_refl.

(** enums.rs:10196-10199; deserialize 10201-10206 (get_u8). *)
Definition DISAttributeActionCode_spec : enum_spec := mk_enum_spec "DISAttributeActionCode" 1
   [
    0
   ] 0 eq_refl eq_refl.

(** enums.rs:10228-10233; deserialize 10235-10240 (get_u8). *)
Definition DRParametersType_spec : enum_spec := mk_enum_spec "DRParametersType" 1
   [
    0; 1; 2
   ] 0 eq_refl eq_refl.

(** enums.rs:10244-10248; deserialize 10250-10255 (get_u8). *)
Definition HighFidelityHAVEQUICKTODTransmitIndicator_spec : enum_spec := mk_enum_spec "HighFidelityHAVEQUICKTODTransmitIndicator" 1
   [
    0; 1
   ] 0 eq_refl eq_refl.

(** enums.rs:10259-10264; deserialize 10266-10271 (get_u8). *)
Definition NETIDRecordMode_spec : enum_spec := mk_enum_spec "NETIDRecordMode" 1
   [
    1; 2; 3
   ] 1 eq_refl eq_refl.

(** enums.rs:10275-10281; deserialize 10283-10288 (get_u8). *)
Definition NETIDRecordFrequencyTable_spec : enum_spec := mk_enum_spec "NETIDRecordFrequencyTable" 1
   [
    0; 1; 2; 3
   ] 0 eq_refl eq_refl.

(** enums.rs:10292-10297; deserialize 10299-10304 (get_u8). *)
Definition EEAttributeStateIndicator_spec : enum_spec := mk_enum_spec "EEAttributeStateIndicator" 1
   [
    0; 1; 2
   ] 0 eq_refl eq_refl.

(** enums.rs:10327-10331; deserialize 10333-10338 (get_u8). *)
Definition TransferredEntityIndicator_spec : enum_spec := mk_enum_spec "TransferredEntityIndicator" 1
   [
    0; 1
   ] 0 eq_refl eq_refl.

(** enums.rs:10343-10349; deserialize 10351-10356 (get_u8). *)
Definition LVCIndicator_spec : enum_spec := mk_enum_spec "LVCIndicator" 1
   [
    0; 1; 2; 3
   ] 0 eq_refl eq_refl.

(** enums.rs:10361-10365; deserialize 10367-10372 (get_u8). *)
Definition CoupledExtensionIndicator_spec : enum_spec := mk_enum_spec "CoupledExtensionIndicator" 1
   [
    0; 1
   ] 0 eq_refl eq_refl.

(** enums.rs:10377-10381; deserialize 10383-10388 (get_u8). *)
Definition FireTypeIndicator_spec : enum_spec := mk_enum_spec "FireTypeIndicator" 1
   [
    0; 1
   ] 0 eq_refl eq_refl.

(** enums.rs:10393-10398; deserialize 10416-10421 (get_u8). *)
Definition DetonationTypeIndicator_spec : enum_spec := mk_enum_spec "DetonationTypeIndicator" 1
   [
    0; 1; 2
   ] 0 eq_refl eq_refl.

(** enums.rs:10426-10431; deserialize 10449-10454 (get_u8). *)
Definition RadioAttachedIndicator_spec : enum_spec := mk_enum_spec "RadioAttachedIndicator" 1
   [
    0; 1; 2
   ] 0 eq_refl eq_refl.

(** enums.rs:10459-10464; deserialize 10482-10487 (get_u8). *)
Definition IntercomAttachedIndicator_spec : enum_spec := mk_enum_spec "IntercomAttachedIndicator" 1
   [
    0; 1; 2
   ] 0 eq_refl eq_refl.

(** enums.rs:10492-10496; deserialize 10498-10503 (get_u8). *)
Definition PduStatusIFFSimulationMode_spec : enum_spec := mk_enum_spec "PduStatusIFFSimulationMode" 1
   [
    0; 1
   ] 0 eq_refl eq_refl.

(** enums.rs:10507-10516; deserialize 10518-10523 (get_u8). *)
Definition ExplosiveMaterialGroups_spec : enum_spec := mk_enum_spec "ExplosiveMaterialGroups" 1
   [
    0; 1; 2; 3; 4; 5; 6
   ] 0 eq_refl eq_refl.

(** enums.rs:10527-10574; deserialize 10576-10581 (get_u16). *)
Definition ExplosiveMaterialCategories_spec : enum_spec := mk_enum_spec "ExplosiveMaterialCategories" 2
   [
    0; 10; 11; 12; 13; 14; 15; 16; 17; 18; 19; 20; 21; 151; 152; 153; 154; 155; 156; 157; 158; 159; 
    160; 161; 162; 164; 166; 301; 302; 451; 452; 453; 454; 455; 456; 457; 601; 602; 603; 604; 605; 
    801; 802; 803; 804
   ] 0 eq_refl eq_refl.

(** enums.rs:10585-10590; deserialize 10592-10597 (get_u8). *)
Definition DEPrecisionAimpointBeamSpotType_spec : enum_spec := mk_enum_spec "DEPrecisionAimpointBeamSpotType" 1
   [
    0; 1; 2
   ] 0 eq_refl eq_refl.

(** enums.rs:10601-10607; deserialize 10609-10614 (get_u8). *)
Definition DEFirePulseShape_spec : enum_spec := mk_enum_spec "DEFirePulseShape" 1
   [
    0; 1; 2; 3
   ] 0 eq_refl eq_refl.

(** enums.rs:10636-10648; deserialize 10650-10655 (get_u8). *)
Definition ComponentIdentification_spec : enum_spec := mk_enum_spec "ComponentIdentification" 1
   [
    0; 1; 2; 3; 4; 5; 6; 7; 8; 9
   ] 0 eq_refl eq_refl.

(** enums.rs:10677-10684; deserialize 10686-10691 (get_u8). *)
Definition ComponentDamageStatus_spec : enum_spec := mk_enum_spec "ComponentDamageStatus" 1
   [
    0; 1; 2; 3; 4
   ] 0 eq_refl eq_refl.

(** enums.rs:10713-10719; deserialize 10721-10726 (get_u8). *)
Definition ComponentVisualSmokeColor_spec : enum_spec := mk_enum_spec "ComponentVisualSmokeColor" 1
   [
    0; 1; 2; 3
   ] 0 eq_refl eq_refl.

(** enums.rs:10748-10752; deserialize 10754-10759 (get_u8). *)
Definition BeamStatusBeamState_spec : enum_spec := mk_enum_spec "BeamStatusBeamState" 1
   [
    0; 1
   ] 0 eq_refl eq_refl.

(** enums.rs:10763-10772; deserialize 10774-10779 (get_u8). *)
Definition EntityAssociationAssociationStatus_spec : enum_spec := mk_enum_spec "EntityAssociationAssociationStatus" 1
   [
    0; 1; 2; 3; 4; 5; 6
   ] 0 eq_refl eq_refl.

(** enums.rs:10783-10787; deserialize 10789-10794 (get_u8). *)
Definition EntityVPRecordChangeIndicator_spec : enum_spec := mk_enum_spec "EntityVPRecordChangeIndicator" 1
   [
    0; 1
   ] 0 eq_refl eq_refl.

(** enums.rs:10798-10807; deserialize 10809-10814 (get_u8). *)
Definition EntityAssociationGroupMemberType_spec : enum_spec := mk_enum_spec "EntityAssociationGroupMemberType" 1
   [
    0; 1; 2; 3; 4; 5; 6
   ] 0 eq_refl eq_refl.

(** enums.rs:10818-10825; deserialize 10827-10832 (get_u8). *)
Definition PhysicalAssociationTypeGroups_spec : enum_spec := mk_enum_spec "PhysicalAssociationTypeGroups" 1
   [
    0; 1; 2; 3; 4
   ] 0 eq_refl eq_refl.

(** enums.rs:10836-10866; deserialize 10868-10873 (get_u8). *)
Definition EntityAssociationPhysicalAssociationType_spec : enum_spec := mk_enum_spec "EntityAssociationPhysicalAssociationType" 1
   [
    0; 1; 2; 3; 4; 5; 6; 7; 8; 9; 10; 11; 12; 13; 14; 15; 30; 31; 32; 61; 62; 63; 64; 65; 90; 91; 
    92; 93
   ] 0 eq_refl eq_refl.

(** enums.rs:10877-10892; deserialize 10894-10899 (get_u8). *)
Definition EntityAssociationPhysicalConnectionType_spec : enum_spec := mk_enum_spec "EntityAssociationPhysicalConnectionType" 1
   [
    0; 1; 2; 3; 4; 5; 6; 7; 8; 9; 10; 11; 12
   ] 0 eq_refl eq_refl.

(** enums.rs:10903-10906; deserialize 10908-10913 (get_u8). *)
Definition SensorRecordSensorTypeOtherActiveSensors_spec : enum_spec := mk_enum_spec "SensorRecordSensorTypeOtherActiveSensors" 1
   [
    0
   ] 0 eq_refl eq_refl.

(** enums.rs:10918-10989; deserialize 10991-10996 (get_u16). *)
Definition SensorRecordSensorTypePassiveSensors_spec : enum_spec := mk_enum_spec "SensorRecordSensorTypePassiveSensors" 2
   [
    60000; 60001; 60002; 60003; 60004; 60005; 60006; 60007; 60008; 60009; 60010; 60011; 60012; 
    60013; 60014; 60015; 60016; 60017; 60018; 60019; 60020; 60021; 60022; 60023; 60024; 60025; 
    60026; 60027; 60028; 60029; 60030; 60031; 60032; 60033; 60034; 60035; 60036; 60037; 60038; 
    60039; 60040; 60041; 60042; 60043; 60044; 60045; 60046; 60047; 60048; 60049; 60050; 60051; 
    60052; 60053; 60054; 60055; 60056; 60057; 60058; 60059; 60060; 60061; 60062; 60063; 60064; 
    60065; 60066; 60067; 60068
   ] 60000 eq_refl eq_refl.

(** enums.rs:11000-11005; deserialize 11007-11012 (get_u8). *)
Definition MunitionExpendableStatus_spec : enum_spec := mk_enum_spec "MunitionExpendableStatus" 1
   [
    0; 1; 2
   ] 0 eq_refl eq_refl.

(** enums.rs:11016-11021; deserialize 11023-11028 (get_u8). *)
Definition FuelMeasurementUnits_spec : enum_spec := mk_enum_spec "FuelMeasurementUnits" 1
   [
    0; 1; 2
   ] 0 eq_refl eq_refl.

(** enums.rs:11032-11035; deserialize 11037-11042 (get_u8). *)
Definition FuelLocation_spec : enum_spec := mk_enum_spec "FuelLocation" 1
   [
    0
   ] 0 eq_refl eq_refl.

(** enums.rs:11046-11063; deserialize 11065-11070 (get_u8). *)
Definition EntityAssociationAssociationType_spec : enum_spec := mk_enum_spec "EntityAssociationAssociationType" 1
   [
    0; 1; 2; 3; 4; 5; 6; 7; 8; 9; 10; 11; 12; 13; 14
   ] 0 eq_refl eq_refl.

(** enums.rs:11074-11078; deserialize 11080-11085 (get_u8). *)
Definition SensorOnOffStatus_spec : enum_spec := mk_enum_spec "SensorOnOffStatus" 1
   [
    0; 1
   ] 0 eq_refl eq_refl.

(** enums.rs:11089-11098; deserialize 11100-11105 (get_u8). *)
Definition OwnershipStatus_spec : enum_spec := mk_enum_spec "OwnershipStatus" 1
   [
    0; 1; 2; 3; 4; 5; 6
   ] 0 eq_refl eq_refl.

(** enums.rs:11109-11112; deserialize 11114-11119 (get_u8). *)
Definition RecordREventType_spec : enum_spec := mk_enum_spec "RecordREventType" 1
   [
    0
   ] 0 eq_refl eq_refl.

(** enums.rs:11123-11127; deserialize 11129-11134 (get_u16). *)
Definition RecordQueryREventType_spec : enum_spec := mk_enum_spec "RecordQueryREventType" 2
   [
    0; 1
   ] 0 eq_refl eq_refl.

(** enums.rs:11156-11165; deserialize 11167-11172 (get_u8). *)
Definition UAPropulsionPlantConfigurationConfiguration_spec : enum_spec := mk_enum_spec "UAPropulsionPlantConfigurationConfiguration" 1
   [
    0; 1; 2; 3; 4; 6; 7
   ] 0 eq_refl eq_refl.

(** enums.rs:11176-11180; deserialize 11182-11187 (get_u16). *)
Definition MinefieldStateProtocolMode_spec : enum_spec := mk_enum_spec "MinefieldStateProtocolMode" 2
   [
    0; 1
   ] 0 eq_refl eq_refl.

(** enums.rs:11209-11213; deserialize 11215-11220 (get_u8). *)
Definition TransponderInterrogatorIndicator_spec : enum_spec := mk_enum_spec "TransponderInterrogatorIndicator" 1
   [
    0; 1
   ] 0 eq_refl eq_refl.

(** enums.rs:11224-11228; deserialize 11230-11235 (get_u8). *)
Definition IFFSimulationMode_spec : enum_spec := mk_enum_spec "IFFSimulationMode" 1
   [
    0; 1
   ] 0 eq_refl eq_refl.

(** enums.rs:11239-11243; deserialize 11245-11250 (get_u8). *)
Definition IFFApplicableModes_spec : enum_spec := mk_enum_spec "IFFApplicableModes" 1
   [
    0; 1
   ] 0 eq_refl eq_refl.

(** enums.rs:11254-11258; deserialize 11260-11265 (get_u8). *)
Definition ModeCAltitudeIndicator_spec : enum_spec := mk_enum_spec "ModeCAltitudeIndicator" 1
   [
    0; 1
   ] 0 eq_refl eq_refl.

(** enums.rs:11269-11273; deserialize 11275-11280 (get_u8). *)
Definition TCASACASBasicAdvancedIndicator_spec : enum_spec := mk_enum_spec "TCASACASBasicAdvancedIndicator" 1
   [
    0; 1
   ] 0 eq_refl eq_refl.

(** enums.rs:11284-11288; deserialize 11290-11295 (get_u8). *)
Definition TCASACASIndicator_spec : enum_spec := mk_enum_spec "TCASACASIndicator" 1
   [
    0; 1
   ] 0 eq_refl eq_refl.

(** enums.rs:11299-11304; deserialize 11306-11311 (get_u8). *)
Definition TCASACASSoftwareVersion_spec : enum_spec := mk_enum_spec "TCASACASSoftwareVersion" 1
   [
    0; 1; 2
   ] 0 eq_refl eq_refl.

(** enums.rs:11315-11320; deserialize 11322-11327 (get_u8). *)
Definition TCASACASType_spec : enum_spec := mk_enum_spec "TCASACASType" 1
   [
    0; 1; 2
   ] 0 eq_refl eq_refl.

(** enums.rs:11331-11335; deserialize 11337-11342 (get_u8). *)
Definition TCASIIIType_spec : enum_spec := mk_enum_spec "TCASIIIType" 1
   [
    0; 1
   ] 0 eq_refl eq_refl.

(** enums.rs:11346-11355; deserialize 11357-11362 (get_u8). *)
Definition Mode5IFFMission_spec : enum_spec := mk_enum_spec "Mode5IFFMission" 1
   [
    0; 1; 2; 3; 4; 5; 6
   ] 0 eq_refl eq_refl.

(** enums.rs:11366-11374; deserialize 11376-11381 (get_u8). *)
Definition ModeSInterrogatorStatusTransmitState_spec : enum_spec := mk_enum_spec "ModeSInterrogatorStatusTransmitState" 1
   [
    0; 1; 2; 3; 4; 5
   ] 0 eq_refl eq_refl.

(** enums.rs:11385-11389; deserialize 11391-11396 (get_u8). *)
Definition ModeSInterrogatorIdentifierICType_spec : enum_spec := mk_enum_spec "ModeSInterrogatorIdentifierICType" 1
   [
    0; 1
   ] 0 eq_refl eq_refl.

(** enums.rs:11400-11404; deserialize 11406-11411 (get_u8). *)
Definition ISLSAntennaType_spec : enum_spec := mk_enum_spec "ISLSAntennaType" 1
   [
    0; 1
   ] 0 eq_refl eq_refl.

(** enums.rs:11415-11421; deserialize 11423-11428 (get_u8). *)
Definition Mode5Reply_spec : enum_spec := mk_enum_spec "Mode5Reply" 1
   [
    0; 1; 2; 3
   ] 0 eq_refl eq_refl.

(** enums.rs:11432-11438; deserialize 11440-11445 (get_u8). *)
Definition AntennaSelection_spec : enum_spec := mk_enum_spec "AntennaSelection" 1
   [
    0; 1; 2; 3
   ] 0 eq_refl eq_refl.

(** enums.rs:11449-11454; deserialize 11456-11461 (get_u8). *)
Definition Mode5SquitterType_spec : enum_spec := mk_enum_spec "Mode5SquitterType" 1
   [
    0; 1; 2
   ] 0 eq_refl eq_refl.

(** enums.rs:11465-11469; deserialize 11471-11476 (get_u8). *)
Definition Level2SquitterStatus_spec : enum_spec := mk_enum_spec "Level2SquitterStatus" 1
   [
    0; 1
   ] 0 eq_refl eq_refl.

(** enums.rs:11480-11486; deserialize 11488-11493 (get_u8). *)
Definition ModeSSquitterType_spec : enum_spec := mk_enum_spec "ModeSSquitterType" 1
   [
    0; 1; 2; 3
   ] 0 eq_refl eq_refl.

(** enums.rs:11497-11501; deserialize 11503-11508 (get_u8). *)
Definition ModeSSquitterRecordSource_spec : enum_spec := mk_enum_spec "ModeSSquitterRecordSource" 1
   [
    0; 1
   ] 0 eq_refl eq_refl.

(** enums.rs:11512-11517; deserialize 11519-11524 (get_u8). *)
Definition AircraftPresentDomain_spec : enum_spec := mk_enum_spec "AircraftPresentDomain" 1
   [
    0; 1; 2
   ] 0 eq_refl eq_refl.

(** enums.rs:11528-11533; deserialize 11535-11540 (get_u8). *)
Definition AircraftIdentificationType_spec : enum_spec := mk_enum_spec "AircraftIdentificationType" 1
   [
    0; 1; 2
   ] 0 eq_refl eq_refl.

(** enums.rs:11544-11552; deserialize 11554-11559 (get_u8). *)
Definition CapabilityReport_spec : enum_spec := mk_enum_spec "CapabilityReport" 1
   [
    0; 4; 5; 6; 7; 255
   ] 0 eq_refl eq_refl.

(** enums.rs:11563-11569; deserialize 11571-11576 (get_u8). *)
Definition NavigationSource_spec : enum_spec := mk_enum_spec "NavigationSource" 1
   [
    0; 1; 2; 3
   ] 0 eq_refl eq_refl.

(** enums.rs:11580-11584; deserialize 11586-11591 (get_u8). *)
Definition IFFDataRecordAvailable_spec : enum_spec := mk_enum_spec "IFFDataRecordAvailable" 1
   [
    0; 1
   ] 0 eq_refl eq_refl.

(** enums.rs:11595-11599; deserialize 11601-11606 (get_u8). *)
Definition Mode5SAltitudeResolution_spec : enum_spec := mk_enum_spec "Mode5SAltitudeResolution" 1
   [
    0; 1
   ] 0 eq_refl eq_refl.

(** enums.rs:11610-11614; deserialize 11616-11621 (get_u8). *)
Definition DeltaMode5SAltitudePositiveNegativeIndicator_spec : enum_spec := mk_enum_spec "DeltaMode5SAltitudePositiveNegativeIndicator" 1
   [
    0; 1
   ] 0 eq_refl eq_refl.

(** enums.rs:11625-11641; deserialize 11643-11648 (get_u8). *)
Definition FormatType_spec : enum_spec := mk_enum_spec "FormatType" 1
   [
    0; 4; 5; 6; 7; 8; 9; 10; 11; 12; 13; 14; 15; 16
   ] 0 eq_refl eq_refl.

(** enums.rs:11652-11656; deserialize 11658-11663 (get_u8). *)
Definition AircraftAddressSource_spec : enum_spec := mk_enum_spec "AircraftAddressSource" 1
   [
    0; 1
   ] 0 eq_refl eq_refl.

(** enums.rs:11667-11673; deserialize 11675-11680 (get_u8). *)
Definition SurveillanceStatus_spec : enum_spec := mk_enum_spec "SurveillanceStatus" 1
   [
    0; 1; 2; 3
   ] 0 eq_refl eq_refl.

(** enums.rs:11684-11689; deserialize 11691-11696 (get_u8). *)
Definition TurnRateSource_spec : enum_spec := mk_enum_spec "TurnRateSource" 1
   [
    0; 1; 2
   ] 0 eq_refl eq_refl.

(** enums.rs:11700-11705; deserialize 11707-11712 (get_u8). *)
Definition TimeTypeSource_spec : enum_spec := mk_enum_spec "TimeTypeSource" 1
   [
    0; 1; 2
   ] 0 eq_refl eq_refl.

(** enums.rs:11716-11719; deserialize 11721-11726 (get_u8). *)
Definition AircraftTypeWake_spec : enum_spec := mk_enum_spec "AircraftTypeWake" 1
   [
    0
   ] 0 eq_refl eq_refl.

(** enums.rs:11730-11735; deserialize 11737-11742 (get_u8). *)
Definition DataCategory_spec : enum_spec := mk_enum_spec "DataCategory" 1
   [
    0; 1; 2
   ] 0 eq_refl eq_refl.

(** enums.rs:11746-11761; deserialize 11763-11768 (get_u8). *)
Definition TILinkType_spec : enum_spec := mk_enum_spec "TILinkType" 1
   [
    0; 1; 2; 3; 4; 5; 6; 7; 8; 9; 10; 11; 12
   ] 0 eq_refl eq_refl.

(** enums.rs:11772-11777; deserialize 11779-11784 (get_u8). *)
Definition AntennaStatus_spec : enum_spec := mk_enum_spec "AntennaStatus" 1
   [
    0; 1; 2
   ] 0 eq_refl eq_refl.

(** enums.rs:11788-11794; deserialize 11796-11801 (get_u8). *)
Definition TransmissionIndicator_spec : enum_spec := mk_enum_spec "TransmissionIndicator" 1
   [
    0; 1; 2; 3
   ] 0 eq_refl eq_refl.

(** enums.rs:11805-11811; deserialize 11813-11818 (get_u8). *)
Definition ReplyAmplification_spec : enum_spec := mk_enum_spec "ReplyAmplification" 1
   [
    0; 1; 2; 3
   ] 0 eq_refl eq_refl.

(** enums.rs:11822-11826; deserialize 11828-11833 (get_u8). *)
Definition DEFireFlagsStateUpdateFlag_spec : enum_spec := mk_enum_spec "DEFireFlagsStateUpdateFlag" 1
   [
    0; 1
   ] 0 eq_refl eq_refl.

(** enums.rs:11837-11843; deserialize 11845-11850 (get_u8). *)
Definition ComponentVisualDamageStatusSmoke_spec : enum_spec := mk_enum_spec "ComponentVisualDamageStatusSmoke" 1
   [
    0; 1; 2; 3
   ] 0 eq_refl eq_refl.

(** enums.rs:11854-11860; deserialize 11862-11867 (get_u8). *)
Definition ComponentVisualDamageStatusSurfaceDamage_spec : enum_spec := mk_enum_spec "ComponentVisualDamageStatusSurfaceDamage" 1
   [
    0; 1; 2; 3
   ] 0 eq_refl eq_refl.

(** enums.rs:11871-11875; deserialize 11877-11882 (get_u8). *)
Definition GridAxisDescriptorAxisType_spec : enum_spec := mk_enum_spec "GridAxisDescriptorAxisType" 1
   [
    0; 1
   ] 0 eq_refl eq_refl.

(** enums.rs:11904-11908; deserialize 11910-11915 (get_u8). *)
Definition AppearancePaintScheme_spec : enum_spec := mk_enum_spec "AppearancePaintScheme" 1
   [
    0; 1
   ] 0 eq_refl eq_refl.

(** enums.rs:11919-11925; deserialize 11927-11932 (get_u8). *)
Definition AppearanceDamage_spec : enum_spec := mk_enum_spec "AppearanceDamage" 1
   [
    0; 1; 2; 3
   ] 0 eq_refl eq_refl.

(** enums.rs:11936-11940; deserialize 11942-11947 (get_u8). *)
Definition Mode5MessageFormatsStatus_spec : enum_spec := mk_enum_spec "Mode5MessageFormatsStatus" 1
   [
    0; 1
   ] 0 eq_refl eq_refl.

(** enums.rs:11951-11957; deserialize 11959-11964 (get_u8). *)
Definition AppearanceTrailingEffects_spec : enum_spec := mk_enum_spec "AppearanceTrailingEffects" 1
   [
    0; 1; 2; 3
   ] 0 eq_refl eq_refl.

(** enums.rs:11968-11976; deserialize 11978-11983 (get_u8). *)
Definition AppearanceHatch_spec : enum_spec := mk_enum_spec "AppearanceHatch" 1
   [
    0; 1; 2; 3; 4; 5
   ] 0 eq_refl eq_refl.

(** enums.rs:11987-11991; deserialize 11993-11998 (get_u8). *)
Definition AppearanceLauncherOperational_spec : enum_spec := mk_enum_spec "AppearanceLauncherOperational" 1
   [
    0; 1
   ] 0 eq_refl eq_refl.

(** enums.rs:12002-12008; deserialize 12010-12015 (get_u8). *)
Definition AppearanceCamouflageType_spec : enum_spec := mk_enum_spec "AppearanceCamouflageType" 1
   [
    0; 1; 2; 3
   ] 0 eq_refl eq_refl.

(** enums.rs:12019-12023; deserialize 12025-12030 (get_u8). *)
Definition AppearanceConcealedPosition_spec : enum_spec := mk_enum_spec "AppearanceConcealedPosition" 1
   [
    0; 1
   ] 0 eq_refl eq_refl.

(** enums.rs:12034-12038; deserialize 12040-12045 (get_u8). *)
Definition AppearanceEntityorObjectState_spec : enum_spec := mk_enum_spec "AppearanceEntityorObjectState" 1
   [
    0; 1
   ] 0 eq_refl eq_refl.

(** enums.rs:12049-12058; deserialize 12060-12065 (get_u8). *)
Definition AppearanceCanopy_spec : enum_spec := mk_enum_spec "AppearanceCanopy" 1
   [
    0; 1; 2; 3; 4; 5; 6
   ] 0 eq_refl eq_refl.

(** enums.rs:12069-12074; deserialize 12076-12081 (get_u8). *)
Definition AppearanceSubsurfaceHatch_spec : enum_spec := mk_enum_spec "AppearanceSubsurfaceHatch" 1
   [
    0; 1; 4
   ] 0 eq_refl eq_refl.

(** enums.rs:12086-12090; deserialize 12092-12097 (get_u8). *)
Definition ActiveInterrogationIndicator_spec : enum_spec := mk_enum_spec "ActiveInterrogationIndicator" 1
   [
    0; 1
   ] 0 eq_refl eq_refl.

(** enums.rs:12101-12107; deserialize 12109-12114 (get_u8). *)
Definition AppearanceLifeformHealth_spec : enum_spec := mk_enum_spec "AppearanceLifeformHealth" 1
   [
    0; 1; 2; 3
   ] 0 eq_refl eq_refl.

(** enums.rs:12118-12136; deserialize 12138-12143 (get_u8). *)
Definition AppearanceLifeFormComplianceStatus_spec : enum_spec := mk_enum_spec "AppearanceLifeFormComplianceStatus" 1
   [
    0; 1; 2; 3; 4; 5; 6; 7; 8; 9; 10; 11; 12; 13; 14; 15
   ] 0 eq_refl eq_refl.

(** enums.rs:12147-12165; deserialize 12167-12172 (get_u8). *)
Definition AppearanceLifeFormPosture_spec : enum_spec := mk_enum_spec "AppearanceLifeFormPosture" 1
   [
    0; 1; 2; 3; 4; 5; 6; 7; 8; 9; 10; 11; 12; 13; 14; 15
   ] 0 eq_refl eq_refl.

(** enums.rs:12176-12182; deserialize 12184-12189 (get_u8). *)
Definition AppearanceLifeFormWeaponImplement_spec : enum_spec := mk_enum_spec "AppearanceLifeFormWeaponImplement" 1
   [
    0; 1; 2; 3
   ] 0 eq_refl eq_refl.

(** enums.rs:12193-12197; deserialize 12199-12204 (get_u8). *)
Definition AppearanceConcealedMovement_spec : enum_spec := mk_enum_spec "AppearanceConcealedMovement" 1
   [
    0; 1
   ] 0 eq_refl eq_refl.

(** enums.rs:12208-12215; deserialize 12217-12222 (get_u8). *)
Definition AppearanceEnvironmentalDensity_spec : enum_spec := mk_enum_spec "AppearanceEnvironmentalDensity" 1
   [
    0; 1; 2; 3; 4
   ] 0 eq_refl eq_refl.

(** enums.rs:12226-12230; deserialize 12232-12237 (get_u8). *)
Definition Mode5PlatformType_spec : enum_spec := mk_enum_spec "Mode5PlatformType" 1
   [
    0; 1
   ] 0 eq_refl eq_refl.

(** enums.rs:12241-12245; deserialize 12247-12252 (get_u8). *)
Definition AppearanceAntiCollisionDayNight_spec : enum_spec := mk_enum_spec "AppearanceAntiCollisionDayNight" 1
   [
    0; 1
   ] 0 eq_refl eq_refl.

(** enums.rs:12256-12260; deserialize 12262-12267 (get_u8). *)
Definition AppearanceNavigationPositionBrightness_spec : enum_spec := mk_enum_spec "AppearanceNavigationPositionBrightness" 1
   [
    0; 1
   ] 0 eq_refl eq_refl.

(** enums.rs:12271-12277; deserialize 12279-12284 (get_u8). *)
Definition AppearanceSupplyDeployed_spec : enum_spec := mk_enum_spec "AppearanceSupplyDeployed" 1
   [
    0; 1; 2; 3
   ] 0 eq_refl eq_refl.

(** enums.rs:12288-12292; deserialize 12294-12299 (get_u8). *)
Definition AppearanceNVGMode_spec : enum_spec := mk_enum_spec "AppearanceNVGMode" 1
   [
    0; 1
   ] 0 eq_refl eq_refl.

(** enums.rs:12303-12309; deserialize 12311-12316 (get_u8). *)
Definition Parachute_spec : enum_spec := mk_enum_spec "Parachute" 1
   [
    0; 1; 2; 3
   ] 0 eq_refl eq_refl.

(** enums.rs:12320-12326; deserialize 12328-12333 (get_u8). *)
Definition FlareSmokeColor_spec : enum_spec := mk_enum_spec "FlareSmokeColor" 1
   [
    0; 1; 2; 3
   ] 0 eq_refl eq_refl.

(** enums.rs:12337-12342; deserialize 12344-12349 (get_u8). *)
Definition FlareSmokeStatus_spec : enum_spec := mk_enum_spec "FlareSmokeStatus" 1
   [
    0; 1; 2
   ] 0 eq_refl eq_refl.

(** enums.rs:12353-12358; deserialize 12360-12365 (get_u8). *)
Definition SpotChaffStatus_spec : enum_spec := mk_enum_spec "SpotChaffStatus" 1
   [
    0; 1; 2
   ] 0 eq_refl eq_refl.

(** enums.rs:12369-12374; deserialize 12376-12381 (get_u8). *)
Definition AppearanceObjectGeneralDamage_spec : enum_spec := mk_enum_spec "AppearanceObjectGeneralDamage" 1
   [
    0; 1; 2
   ] 0 eq_refl eq_refl.

(** enums.rs:12385-12389; deserialize 12391-12396 (get_u8). *)
Definition AppearanceObjectGeneralPredistributed_spec : enum_spec := mk_enum_spec "AppearanceObjectGeneralPredistributed" 1
   [
    0; 1
   ] 0 eq_refl eq_refl.

(** enums.rs:12400-12405; deserialize 12407-12412 (get_u8). *)
Definition AppearanceObjectSpecificBreachState_spec : enum_spec := mk_enum_spec "AppearanceObjectSpecificBreachState" 1
   [
    0; 1; 2
   ] 0 eq_refl eq_refl.

(** enums.rs:12416-12422; deserialize 12424-12429 (get_u8). *)
Definition AppearanceObjectSpecificChemicalType_spec : enum_spec := mk_enum_spec "AppearanceObjectSpecificChemicalType" 1
   [
    0; 1; 2; 3
   ] 0 eq_refl eq_refl.

(** enums.rs:12433-12439; deserialize 12441-12446 (get_u8). *)
Definition AppearanceLinearObjectTankDitchBreach_spec : enum_spec := mk_enum_spec "AppearanceLinearObjectTankDitchBreach" 1
   [
    0; 1; 2; 3
   ] 0 eq_refl eq_refl.

(** enums.rs:12450-12455; deserialize 12457-12462 (get_u8). *)
Definition AppearanceLinearObjectLaneMarkerVisible_spec : enum_spec := mk_enum_spec "AppearanceLinearObjectLaneMarkerVisible" 1
   [
    0; 1; 2
   ] 0 eq_refl eq_refl.

(** enums.rs:12466-12472; deserialize 12474-12479 (get_u8). *)
Definition AppearanceObjectGeneralIEDPresent_spec : enum_spec := mk_enum_spec "AppearanceObjectGeneralIEDPresent" 1
   [
    0; 1; 2; 3
   ] 0 eq_refl eq_refl.

(** enums.rs:12483-12487; deserialize 12489-12494 (get_u8). *)
Definition Mode5LevelSelection_spec : enum_spec := mk_enum_spec "Mode5LevelSelection" 1
   [
    0; 1
   ] 0 eq_refl eq_refl.

(** enums.rs:12498-12511; deserialize 12513-12518 (get_u8). *)
Definition SupplyFuelType_spec : enum_spec := mk_enum_spec "SupplyFuelType" 1
   [
    0; 1; 2; 3; 4; 5; 6; 7; 8; 9; 10
   ] 0 eq_refl eq_refl.

(** enums.rs:12522-12530; deserialize 12532-12537 (get_u8). *)
Definition SensorTypeSource_spec : enum_spec := mk_enum_spec "SensorTypeSource" 1
   [
    0; 1; 2; 3; 4; 5
   ] 0 eq_refl eq_refl.

(** enums.rs:12541-12545; deserialize 12547-12552 (get_u8). *)
Definition AttachedPartDetachedIndicator_spec : enum_spec := mk_enum_spec "AttachedPartDetachedIndicator" 1
   [
    0; 1
   ] 0 eq_refl eq_refl.

(** enums.rs:12556-12560; deserialize 12562-12567 (get_u8). *)
Definition IntercomControlCommunicationsClass_spec : enum_spec := mk_enum_spec "IntercomControlCommunicationsClass" 1
   [
    0; 1
   ] 0 eq_refl eq_refl.

(** enums.rs:12571-12574; deserialize 12576-12581 (get_u8). *)
Definition DISLiveEntitySubprotocolNumber_spec : enum_spec := mk_enum_spec "DISLiveEntitySubprotocolNumber" 1
   [
    0
   ] 0 eq_refl eq_refl.

(** enums.rs:12585-12590; deserialize 12592-12597 (get_u8). *)
Definition MinefieldAppearanceMinefieldType_spec : enum_spec := mk_enum_spec "MinefieldAppearanceMinefieldType" 1
   [
    0; 1; 2
   ] 0 eq_refl eq_refl.

(** enums.rs:12601-12605; deserialize 12607-12612 (get_u8). *)
Definition MinefieldAppearanceActiveStatus_spec : enum_spec := mk_enum_spec "MinefieldAppearanceActiveStatus" 1
   [
    0; 1
   ] 0 eq_refl eq_refl.

(** enums.rs:12616-12620; deserialize 12622-12627 (get_u8). *)
Definition MinefieldAppearanceLane_spec : enum_spec := mk_enum_spec "MinefieldAppearanceLane" 1
   [
    0; 1
   ] 0 eq_refl eq_refl.

(** enums.rs:12631-12635; deserialize 12637-12642 (get_u8). *)
Definition MinefieldAppearanceState_spec : enum_spec := mk_enum_spec "MinefieldAppearanceState" 1
   [
    0; 1
   ] 0 eq_refl eq_refl.

(** enums.rs:12646-12655; deserialize 12657-12662 (get_u8). *)
Definition MinefieldFusingFuseType_spec : enum_spec := mk_enum_spec "MinefieldFusingFuseType" 1
   [
    0; 1; 2; 3; 4; 5; 6
   ] 0 eq_refl eq_refl.

(** enums.rs:12666-12670; deserialize 12672-12677 (get_u8). *)
Definition Mode5LocationErrors_spec : enum_spec := mk_enum_spec "Mode5LocationErrors" 1
   [
    0; 1
   ] 0 eq_refl eq_refl.

(** enums.rs:12681-12687; deserialize 12689-12694 (get_u8). *)
Definition MinefieldPaintSchemeAlgae_spec : enum_spec := mk_enum_spec "MinefieldPaintSchemeAlgae" 1
   [
    0; 1; 2; 3
   ] 0 eq_refl eq_refl.

(** enums.rs:12698-12719; deserialize 12721-12726 (get_u8). *)
Definition MinefieldPaintSchemePaintScheme_spec : enum_spec := mk_enum_spec "MinefieldPaintSchemePaintScheme" 1
   [
    0; 1; 2; 3; 4; 5; 6; 7; 8; 9; 10; 11; 12; 13; 14; 15; 16; 17; 18
   ] 0 eq_refl eq_refl.

(** enums.rs:12730-12736; deserialize 12738-12743 (get_u8). *)
Definition CoverShroudStatus_spec : enum_spec := mk_enum_spec "CoverShroudStatus" 1
   [
    0; 1; 2; 3
   ] 0 eq_refl eq_refl.

(** enums.rs:12747-12757; deserialize 12759-12764 (get_u8). *)
Definition PlatformLandMotorcycleSubcategories_spec : enum_spec := mk_enum_spec "PlatformLandMotorcycleSubcategories" 1
   [
    0; 1; 2; 3; 4; 5; 6; 7
   ] 0 eq_refl eq_refl.

(** enums.rs:12770-12816; deserialize 12818-12823 (get_u8). *)
Definition PlatformLandCarSubcategories_spec : enum_spec := mk_enum_spec "PlatformLandCarSubcategories" 1
   [
    0; 10; 11; 12; 13; 14; 15; 20; 21; 22; 23; 30; 31; 32; 40; 41; 42; 43; 44; 45; 50; 51; 52; 53; 
    54; 60; 62; 63; 64; 70; 80; 84; 85; 90; 100; 101; 102; 103; 104; 110; 112; 113; 114; 115
   ] 0 eq_refl eq_refl.

(** enums.rs:12827-12848; deserialize 12850-12855 (get_u8). *)
Definition PlatformLandBusSubcategories_spec : enum_spec := mk_enum_spec "PlatformLandBusSubcategories" 1
   [
    0; 1; 2; 3; 4; 5; 6; 7; 8; 9; 10; 11; 12; 13; 14; 15; 16; 17; 18
   ] 0 eq_refl eq_refl.

(** enums.rs:12859-12893; deserialize 12895-12900 (get_u8). *)
Definition PlatformLandSingleUnitCargoTruckSubcategories_spec : enum_spec := mk_enum_spec "PlatformLandSingleUnitCargoTruckSubcategories" 1
   [
    0; 1; 2; 3; 4; 5; 6; 7; 10; 11; 12; 13; 14; 15; 20; 30; 70; 71; 72; 73; 74; 100; 101; 102; 103; 
    104; 105; 106; 107; 108; 109; 110
   ] 0 eq_refl eq_refl.

(** enums.rs:12904-12951; deserialize 12953-12958 (get_u8). *)
Definition PlatformLandSingleUnitUtilityEmergencyTruckSubcategories_spec : enum_spec := mk_enum_spec "PlatformLandSingleUnitUtilityEmergencyTruckSubcategories" 1
   [
    0; 1; 2; 3; 4; 10; 11; 12; 13; 14; 20; 21; 22; 23; 30; 40; 41; 42; 43; 44; 45; 46; 47; 48; 49; 
    60; 70; 71; 80; 81; 82; 83; 84; 85; 90; 91; 100; 101; 102; 120; 121; 122; 123; 124; 150
   ] 0 eq_refl eq_refl.

(** enums.rs:12962-12967; deserialize 12969-12974 (get_u8). *)
Definition PlatformLandMultipleUnitCargoTruckSubcategories_spec : enum_spec := mk_enum_spec "PlatformLandMultipleUnitCargoTruckSubcategories" 1
   [
    0; 1; 2
   ] 0 eq_refl eq_refl.

(** enums.rs:12978-12982; deserialize 12984-12989 (get_u8). *)
Definition PlatformLandMultipleUnitUtilityEmergencyTruckSubcategories_spec : enum_spec := mk_enum_spec "PlatformLandMultipleUnitUtilityEmergencyTruckSubcategories" 1
   [
    0; 1
   ] 0 eq_refl eq_refl.

(** enums.rs:12993-13051; deserialize 13053-13058 (get_u8). *)
Definition PlatformLandConstructionSpecialtyVehicleSubcategories_spec : enum_spec := mk_enum_spec "PlatformLandConstructionSpecialtyVehicleSubcategories" 1
   [
    0; 1; 2; 3; 4; 5; 6; 7; 8; 9; 10; 11; 12; 13; 14; 15; 16; 17; 18; 19; 20; 21; 22; 23; 24; 25; 
    26; 27; 28; 29; 30; 31; 32; 33; 34; 35; 36; 37; 38; 39; 40; 41; 42; 43; 44; 45; 46; 47; 48; 49; 
    50; 51; 52; 53; 54; 55
   ] 0 eq_refl eq_refl.

(** enums.rs:13062-13073; deserialize 13075-13080 (get_u8). *)
Definition PlatformLandFarmSpecialtyVehicleSubcategories_spec : enum_spec := mk_enum_spec "PlatformLandFarmSpecialtyVehicleSubcategories" 1
   [
    0; 1; 2; 3; 4; 5; 6; 7; 8
   ] 0 eq_refl eq_refl.

(** enums.rs:13084-13114; deserialize 13116-13121 (get_u8). *)
Definition PlatformLandTrailerSubcategories_spec : enum_spec := mk_enum_spec "PlatformLandTrailerSubcategories" 1
   [
    0; 1; 2; 3; 4; 5; 6; 7; 8; 9; 10; 11; 12; 13; 14; 15; 16; 17; 18; 19; 20; 21; 22; 23; 24; 25; 
    26; 27
   ] 0 eq_refl eq_refl.

(** enums.rs:13125-13142; deserialize 13144-13149 (get_u8). *)
Definition PlatformLandRecreationalSubcategories_spec : enum_spec := mk_enum_spec "PlatformLandRecreationalSubcategories" 1
   [
    0; 1; 2; 3; 4; 5; 6; 7; 8; 9; 10; 11; 12; 13; 14
   ] 0 eq_refl eq_refl.

(** enums.rs:13153-13180; deserialize 13182-13187 (get_u8). *)
Definition PlatformLandNonmotorizedSubcategories_spec : enum_spec := mk_enum_spec "PlatformLandNonmotorizedSubcategories" 1
   [
    0; 1; 2; 3; 4; 5; 6; 7; 8; 9; 10; 11; 12; 13; 14; 15; 16; 17; 18; 19; 20; 21; 22; 23; 24
   ] 0 eq_refl eq_refl.

(** enums.rs:13191-13201; deserialize 13203-13208 (get_u8). *)
Definition PlatformLandTrainsSubcategories_spec : enum_spec := mk_enum_spec "PlatformLandTrainsSubcategories" 1
   [
    0; 1; 2; 3; 4; 5; 6; 7
   ] 0 eq_refl eq_refl.

(** enums.rs:13212-13220; deserialize 13222-13227 (get_u8). *)
Definition PlatformLandUtilityEmergencyCarSubcategories_spec : enum_spec := mk_enum_spec "PlatformLandUtilityEmergencyCarSubcategories" 1
   [
    0; 1; 2; 3; 4; 5
   ] 0 eq_refl eq_refl.

(** enums.rs:13231-13238; deserialize 13240-13245 (get_u8). *)
Definition PlatformSurfacePassengerVesselSubcategories_spec : enum_spec := mk_enum_spec "PlatformSurfacePassengerVesselSubcategories" 1
   [
    1; 2; 3; 4; 5
   ] 1 eq_refl eq_refl.

(** enums.rs:13249-13258; deserialize 13260-13265 (get_u8). *)
Definition PlatformSurfaceDryCargoShipSubcategories_spec : enum_spec := mk_enum_spec "PlatformSurfaceDryCargoShipSubcategories" 1
   [
    1; 2; 3; 4; 5; 6; 7
   ] 1 eq_refl eq_refl.

(** enums.rs:13269-13280; deserialize 13282-13287 (get_u8). *)
Definition PlatformSurfaceTankerSubcategories_spec : enum_spec := mk_enum_spec "PlatformSurfaceTankerSubcategories" 1
   [
    1; 2; 3; 4; 5; 6; 7; 8; 9
   ] 1 eq_refl eq_refl.

(** enums.rs:13291-13302; deserialize 13304-13309 (get_u8). *)
Definition PlatformSurfaceSupportVesselSubcategories_spec : enum_spec := mk_enum_spec "PlatformSurfaceSupportVesselSubcategories" 1
   [
    1; 2; 3; 4; 5; 6; 7; 8; 9
   ] 1 eq_refl eq_refl.

(** enums.rs:13313-13319; deserialize 13321-13326 (get_u8). *)
Definition PlatformSurfacePrivateMotorboatSubcategories_spec : enum_spec := mk_enum_spec "PlatformSurfacePrivateMotorboatSubcategories" 1
   [
    1; 2; 3; 4
   ] 1 eq_refl eq_refl.

(** enums.rs:13330-13336; deserialize 13338-13343 (get_u8). *)
Definition PlatformSurfacePrivateSailboatSubcategories_spec : enum_spec := mk_enum_spec "PlatformSurfacePrivateSailboatSubcategories" 1
   [
    1; 2; 3; 4
   ] 1 eq_refl eq_refl.

(** enums.rs:13347-13354; deserialize 13356-13361 (get_u8). *)
Definition PlatformSurfaceFishingVesselSubcategories_spec : enum_spec := mk_enum_spec "PlatformSurfaceFishingVesselSubcategories" 1
   [
    1; 2; 3; 4; 5
   ] 1 eq_refl eq_refl.

(** enums.rs:13365-13377; deserialize 13379-13384 (get_u8). *)
Definition PlatformSurfaceOtherVesselsSubcategories_spec : enum_spec := mk_enum_spec "PlatformSurfaceOtherVesselsSubcategories" 1
   [
    1; 2; 3; 4; 5; 6; 7; 8; 9; 10
   ] 1 eq_refl eq_refl.

(** enums.rs:13388-13392; deserialize 13394-13399 (get_u8). *)
Definition CryptoKeyIDCryptoMode_spec : enum_spec := mk_enum_spec "CryptoKeyIDCryptoMode" 1
   [
    0; 1
   ] 0 eq_refl eq_refl.

(** enums.rs:13405-13563; deserialize 13565-13570 (get_u8). *)
Definition Color_spec : enum_spec := mk_enum_spec "Color" 1
   [
    0; 1; 2; 3; 4; 5; 6; 7; 8; 9; 10; 11; 12; 13; 14; 15; 20; 21; 22; 23; 24; 25; 26; 27; 28; 29; 
    30; 31; 32; 33; 34; 35; 36; 37; 38; 39; 40; 41; 42; 43; 44; 45; 46; 47; 48; 49; 50; 51; 52; 53; 
    54; 55; 56; 57; 58; 59; 60; 61; 62; 63; 64; 65; 66; 67; 68; 69; 70; 71; 72; 73; 74; 75; 76; 77; 
    78; 79; 80; 81; 82; 83; 84; 85; 86; 87; 88; 89; 90; 91; 92; 93; 94; 95; 96; 97; 98; 99; 100; 
    101; 102; 103; 104; 105; 106; 107; 108; 109; 110; 111; 112; 113; 114; 115; 116; 117; 118; 119; 
    120; 121; 122; 123; 124; 125; 126; 127; 128; 129; 130; 131; 132; 133; 134; 135; 136; 137; 138; 
    139; 140; 141; 142; 143; 144; 145; 146; 147; 148; 149; 150; 151; 152; 153; 154; 155; 156; 157; 
    158; 159
   ] 0 eq_refl eq_refl.

(** enums.rs:13574-13577; deserialize 13579-13584 (get_u8). *)
Definition BuildingPaintScheme_spec : enum_spec := mk_enum_spec "BuildingPaintScheme" 1
   [
    0
   ] 0 eq_refl eq_refl.

(** enums.rs:13588-13594; deserialize 13596-13601 (get_u8). *)
Definition Season_spec : enum_spec := mk_enum_spec "Season" 1
   [
    0; 1; 2; 3
   ] 0 eq_refl eq_refl.

(** enums.rs:13605-13611; deserialize 13613-13618 (get_u8). *)
Definition Material_spec : enum_spec := mk_enum_spec "Material" 1
   [
    0; 1; 2; 3
   ] 0 eq_refl eq_refl.

(** enums.rs:13622-13627; deserialize 13629-13634 (get_u8). *)
Definition Link11_11BFidelityLevel_spec : enum_spec := mk_enum_spec "Link11_11BFidelityLevel" 1
   [
    0; 1; 2
   ] 0 eq_refl eq_refl.

(** enums.rs:13638-13643; deserialize 13645-13650 (get_u8). *)
Definition Link11TerminalMode_spec : enum_spec := mk_enum_spec "Link11TerminalMode" 1
   [
    0; 1; 2
   ] 0 eq_refl eq_refl.

(** enums.rs:13655-13665; deserialize 13667-13672 (get_u8). *)
Definition Link11DataTerminalSetIndicator_spec : enum_spec := mk_enum_spec "Link11DataTerminalSetIndicator" 1
   [
    0; 1; 2; 3; 4; 5; 6; 7
   ] 0 eq_refl eq_refl.

(** enums.rs:13676-13684; deserialize 13686-13691 (get_u16). *)
Definition Link11ModeofOperation_spec : enum_spec := mk_enum_spec "Link11ModeofOperation" 2
   [
    0; 1; 2; 3; 4; 5
   ] 0 eq_refl eq_refl.

(** enums.rs:13695-13699; deserialize 13701-13706 (get_u8). *)
Definition LifeFormsSubcategoryIranianWeapons_spec : enum_spec := mk_enum_spec "LifeFormsSubcategoryIranianWeapons" 1
   [
    1; 2
   ] 1 eq_refl eq_refl.

(** enums.rs:13710-13739; deserialize 13741-13746 (get_u8). *)
Definition LifeFormLandCategories_spec : enum_spec := mk_enum_spec "LifeFormLandCategories" 1
   [
    10; 11; 12; 13; 14; 15; 16; 30; 50; 70; 90; 100; 101; 102; 110; 120; 130; 131; 132; 133; 200; 
    201; 202; 203; 204; 205; 206
   ] 10 eq_refl eq_refl.

(** enums.rs:13750-13781; deserialize 13783-13788 (get_u8). *)
Definition LifeFormHumanSubcategoryEquipmentClass_spec : enum_spec := mk_enum_spec "LifeFormHumanSubcategoryEquipmentClass" 1
   [
    0; 1; 5; 10; 15; 17; 20; 25; 30; 35; 40; 45; 50; 55; 60; 65; 70; 75; 80; 85; 90; 95; 150; 151; 
    152; 153; 160; 171; 172
   ] 0 eq_refl eq_refl.

(** enums.rs:13793-13857; deserialize 13859-13864 (get_u8). *)
Definition LifeFormHumanSpecificAssaultRifles_spec : enum_spec := mk_enum_spec "LifeFormHumanSpecificAssaultRifles" 1
   [
    0; 1; 10; 11; 12; 13; 30; 31; 32; 33; 34; 35; 36; 37; 38; 39; 40; 41; 42; 43; 44; 45; 46; 47; 
    48; 49; 50; 51; 52; 53; 54; 55; 56; 57; 58; 59; 60; 61; 62; 63; 64; 65; 66; 67; 68; 69; 70; 
    100; 110; 111; 112; 113; 114; 115; 116; 117; 118; 119; 120; 121; 122; 240
   ] 0 eq_refl eq_refl.

(** enums.rs:13868-13880; deserialize 13882-13887 (get_u8). *)
Definition LifeFormHumanSpecificHighPowerRifles_spec : enum_spec := mk_enum_spec "LifeFormHumanSpecificHighPowerRifles" 1
   [
    0; 10; 11; 12; 13; 14; 15; 16; 50; 51
   ] 0 eq_refl eq_refl.

(** enums.rs:13891-13914; deserialize 13916-13921 (get_u8). *)
Definition LifeFormCategoriesUS_spec : enum_spec := mk_enum_spec "LifeFormCategoriesUS" 1
   [
    11; 12; 13; 14; 15; 31; 32; 33; 34; 35; 36; 51; 52; 53; 54; 55; 56; 71; 72; 73; 124
   ] 11 eq_refl eq_refl.

(** enums.rs:13925-13965; deserialize 13967-13972 (get_u8). *)
Definition LifeFormExtraPersonalData_spec : enum_spec := mk_enum_spec "LifeFormExtraPersonalData" 1
   [
    0; 1; 2; 3; 4; 5; 6; 7; 8; 9; 10; 20; 30; 40; 50; 60; 70; 80; 90; 100; 101; 102; 103; 104; 105; 
    106; 107; 108; 109; 110; 120; 130; 140; 150; 160; 170; 180; 190
   ] 0 eq_refl eq_refl.

(** enums.rs:13976-13981; deserialize 13983-13988 (get_u8). *)
Definition LifeFormAirCategories_spec : enum_spec := mk_enum_spec "LifeFormAirCategories" 1
   [
    200; 201; 202
   ] 200 eq_refl eq_refl.

(** enums.rs:13992-13999; deserialize 14001-14006 (get_u8). *)
Definition LifeFormSubsurfaceCategories_spec : enum_spec := mk_enum_spec "LifeFormSubsurfaceCategories" 1
   [
    200; 201; 202; 203; 204
   ] 200 eq_refl eq_refl.

(** enums.rs:14013-14046; deserialize 14048-14053 (get_u8). *)
Definition LifeFormHumanSpecificSniper_spec : enum_spec := mk_enum_spec "LifeFormHumanSpecificSniper" 1
   [
    0; 1; 30; 31; 32; 33; 34; 35; 36; 37; 38; 39; 40; 41; 42; 43; 44; 45; 46; 47; 100; 105; 110; 
    170; 171; 172; 173; 174; 175; 176; 200
   ] 0 eq_refl eq_refl.

(** enums.rs:14057-14072; deserialize 14074-14079 (get_u8). *)
Definition LifeFormHumanSpecificSubMachineGun_spec : enum_spec := mk_enum_spec "LifeFormHumanSpecificSubMachineGun" 1
   [
    0; 10; 20; 60; 61; 62; 63; 64; 65; 66; 67; 68; 69
   ] 0 eq_refl eq_refl.

(** enums.rs:14085-14093; deserialize 14095-14100 (get_u8). *)
Definition AustralianCategoryOverlay_spec : enum_spec := mk_enum_spec "AustralianCategoryOverlay" 1
   [
    11; 13; 14; 30; 51; 52
   ] 11 eq_refl eq_refl.

(** enums.rs:14104-14119; deserialize 14121-14126 (get_u8). *)
Definition LifeFormCategoriesAfghanistan_spec : enum_spec := mk_enum_spec "LifeFormCategoriesAfghanistan" 1
   [
    11; 13; 51; 52; 53; 54; 55; 70; 101; 120; 121; 130; 133
   ] 11 eq_refl eq_refl.

(** enums.rs:14130-14138; deserialize 14140-14145 (get_u8). *)
Definition LifeFormHumanSpecificEquipmentClass_spec : enum_spec := mk_enum_spec "LifeFormHumanSpecificEquipmentClass" 1
   [
    1; 2; 3; 4; 5; 6
   ] 1 eq_refl eq_refl.

(** enums.rs:14169-14172; deserialize 14174-14179 (get_u8). *)
Definition PlatformSubsurfaceCivilianSemiSubmersiblesSubcategories_spec : enum_spec := mk_enum_spec "PlatformSubsurfaceCivilianSemiSubmersiblesSubcategories" 1
   [
    1
   ] 1 eq_refl eq_refl.

(** enums.rs:14183-14187; deserialize 14189-14194 (get_u8). *)
Definition LeafCoverage_spec : enum_spec := mk_enum_spec "LeafCoverage" 1
   [
    0; 1
   ] 0 eq_refl eq_refl.

(** enums.rs:14198-14203; deserialize 14205-14210 (get_u8). *)
Definition LifeFormHumanSpecificAntiMaterielRifles_spec : enum_spec := mk_enum_spec "LifeFormHumanSpecificAntiMaterielRifles" 1
   [
    0; 10; 11
   ] 0 eq_refl eq_refl.

(** enums.rs:14215-14356; deserialize 14358-14363 (get_u8). *)
Definition LifeFormHumanSpecificShotGuns_spec : enum_spec := mk_enum_spec "LifeFormHumanSpecificShotGuns" 1
   [
    0; 20; 21; 22; 23; 24; 25; 26; 27; 28; 29; 30; 31; 32; 33; 34; 35; 36; 37; 38; 39; 40; 41; 42; 
    43; 44; 45; 46; 47; 48; 49; 50; 51; 52; 53; 54; 55; 56; 57; 58; 59; 60; 61; 62; 63; 64; 65; 70; 
    71; 72; 73; 74; 75; 76; 77; 80; 81; 82; 83; 84; 85; 86; 87; 88; 89; 90; 91; 92; 93; 94; 95; 96; 
    97; 98; 99; 110; 111; 112; 113; 115; 116; 117; 118; 120; 121; 122; 123; 124; 125; 127; 130; 
    131; 132; 133; 134; 150; 151; 152; 153; 154; 155; 156; 157; 158; 159; 160; 161; 162; 163; 164; 
    165; 166; 167; 168; 169; 170; 171; 172; 173; 174; 175; 176; 180; 181; 182; 200; 201; 202; 203; 
    204; 205; 206; 207; 208; 209; 210; 211; 212; 220
   ] 0 eq_refl eq_refl.

(** enums.rs:14367-14374; deserialize 14376-14381 (get_u8). *)
Definition LifeFormHumanSpecificMortars_spec : enum_spec := mk_enum_spec "LifeFormHumanSpecificMortars" 1
   [
    0; 30; 50; 51; 52
   ] 0 eq_refl eq_refl.

(** enums.rs:14385-14403; deserialize 14405-14410 (get_u8). *)
Definition LifeFormHumanSpecificHandGuns_spec : enum_spec := mk_enum_spec "LifeFormHumanSpecificHandGuns" 1
   [
    0; 1; 30; 31; 32; 33; 34; 35; 36; 37; 38; 39; 40; 41; 50; 60
   ] 0 eq_refl eq_refl.

(** enums.rs:14414-14421; deserialize 14423-14428 (get_u8). *)
Definition LifeFormHumanSpecificWeaponNonspecific_spec : enum_spec := mk_enum_spec "LifeFormHumanSpecificWeaponNonspecific" 1
   [
    0; 10; 50; 100; 150
   ] 0 eq_refl eq_refl.

(** enums.rs:14432-14475; deserialize 14477-14482 (get_u8). *)
Definition LifeFormHumanSpecificGrenadeLaunchers_spec : enum_spec := mk_enum_spec "LifeFormHumanSpecificGrenadeLaunchers" 1
   [
    0; 1; 2; 3; 4; 5; 6; 10; 11; 12; 20; 21; 22; 23; 24; 25; 30; 31; 32; 35; 36; 37; 38; 39; 40; 
    41; 42; 43; 44; 50; 60; 61; 62; 65; 66; 70; 80; 90; 95; 100; 105
   ] 0 eq_refl eq_refl.

(** enums.rs:14487-14576; deserialize 14578-14583 (get_u8). *)
Definition LifeFormHumanSpecificMachineGuns_spec : enum_spec := mk_enum_spec "LifeFormHumanSpecificMachineGuns" 1
   [
    0; 10; 11; 20; 21; 22; 25; 26; 27; 28; 29; 30; 31; 32; 33; 34; 35; 36; 37; 38; 39; 40; 41; 43; 
    44; 46; 47; 48; 49; 50; 51; 52; 53; 55; 58; 59; 60; 61; 62; 63; 65; 70; 71; 72; 73; 74; 75; 76; 
    77; 80; 81; 85; 86; 88; 89; 100; 101; 102; 105; 108; 110; 112; 120; 121; 122; 125; 126; 127; 
    128; 135; 140; 141; 142; 143; 144; 145; 150; 151; 152; 153; 154; 155; 156; 157; 164; 165; 166
   ] 0 eq_refl eq_refl.

(** enums.rs:14587-14609; deserialize 14611-14616 (get_u8). *)
Definition LifeFormHumanSpecificGrenadeLaunchingMachineGun_spec : enum_spec := mk_enum_spec "LifeFormHumanSpecificGrenadeLaunchingMachineGun" 1
   [
    0; 20; 25; 26; 27; 28; 29; 30; 31; 40; 41; 42; 43; 44; 50; 55; 60; 65; 70; 80
   ] 0 eq_refl eq_refl.

(** enums.rs:14620-14691; deserialize 14693-14698 (get_u8). *)
Definition LifeFormHumanSpecificAntiTankRockets_spec : enum_spec := mk_enum_spec "LifeFormHumanSpecificAntiTankRockets" 1
   [
    0; 10; 11; 12; 20; 21; 22; 23; 24; 25; 26; 27; 28; 29; 30; 31; 35; 40; 41; 42; 43; 44; 45; 46; 
    47; 48; 49; 50; 51; 52; 53; 54; 60; 61; 62; 65; 70; 71; 72; 73; 75; 80; 81; 85; 86; 90; 93; 95; 
    100; 101; 102; 103; 104; 105; 106; 110; 111; 112; 120; 125; 128; 130; 131; 135; 136; 137; 138; 
    140; 145
   ] 0 eq_refl eq_refl.

(** enums.rs:14703-14779; deserialize 14781-14786 (get_u8). *)
Definition LifeFormHumanSpecificAntiTankMissiles_spec : enum_spec := mk_enum_spec "LifeFormHumanSpecificAntiTankMissiles" 1
   [
    0; 30; 31; 32; 33; 58; 59; 60; 63; 64; 68; 69; 75; 80; 81; 82; 85; 86; 87; 95; 98; 100; 101; 
    102; 103; 104; 105; 107; 110; 111; 112; 113; 114; 120; 125; 126; 130; 140; 141; 142; 143; 144; 
    145; 146; 147; 148; 149; 150; 151; 152; 153; 154; 155; 156; 157; 170; 171; 172; 173; 174; 175; 
    176; 177; 178; 179; 180; 181; 182; 183; 184; 185; 186; 187; 200
   ] 0 eq_refl eq_refl.

(** enums.rs:14790-14816; deserialize 14818-14823 (get_u8). *)
Definition LifeFormHumanSpecificManPortableAirDefenseSystem_spec : enum_spec := mk_enum_spec "LifeFormHumanSpecificManPortableAirDefenseSystem" 1
   [
    0; 1; 2; 10; 11; 12; 15; 20; 21; 22; 23; 24; 25; 26; 30; 31; 32; 33; 34; 45; 46; 50; 55; 60
   ] 0 eq_refl eq_refl.

(** enums.rs:14827-14858; deserialize 14860-14865 (get_u8). *)
Definition LifeFormHumanSpecificRecoillessRifles_spec : enum_spec := mk_enum_spec "LifeFormHumanSpecificRecoillessRifles" 1
   [
    0; 15; 20; 21; 22; 23; 24; 25; 26; 30; 31; 32; 33; 35; 40; 45; 46; 50; 55; 60; 65; 70; 75; 80; 
    90; 91; 95; 96; 97
   ] 0 eq_refl eq_refl.

(** enums.rs:14869-14878; deserialize 14880-14885 (get_u8). *)
Definition LifeFormHumanSpecificFlameRockets_spec : enum_spec := mk_enum_spec "LifeFormHumanSpecificFlameRockets" 1
   [
    0; 20; 30; 40; 50; 51; 52
   ] 0 eq_refl eq_refl.

(** enums.rs:14889-14906; deserialize 14908-14913 (get_u8). *)
Definition LifeFormHumanSpecificFlameThrowers_spec : enum_spec := mk_enum_spec "LifeFormHumanSpecificFlameThrowers" 1
   [
    0; 10; 11; 20; 21; 22; 30; 35; 36; 37; 38; 45; 46; 50; 51
   ] 0 eq_refl eq_refl.

(** enums.rs:14917-14922; deserialize 14924-14929 (get_u8). *)
Definition LifeFormHumanSpecificDroneGuns_spec : enum_spec := mk_enum_spec "LifeFormHumanSpecificDroneGuns" 1
   [
    0; 15; 16
   ] 0 eq_refl eq_refl.

(** enums.rs:14933-14936; deserialize 14938-14943 (get_u8). *)
Definition LifeFormHumanSpecificLogisticsEQClass_spec : enum_spec := mk_enum_spec "LifeFormHumanSpecificLogisticsEQClass" 1
   [
    1
   ] 1 eq_refl eq_refl.

(** enums.rs:14947-14950; deserialize 14952-14957 (get_u8). *)
Definition LifeFormHumanSpecificPersonalElectronicsClass_spec : enum_spec := mk_enum_spec "LifeFormHumanSpecificPersonalElectronicsClass" 1
   [
    1
   ] 1 eq_refl eq_refl.

(** enums.rs:14961-14965; deserialize 14967-14972 (get_u8). *)
Definition LifeFormHumanSpecificLasersClass_spec : enum_spec := mk_enum_spec "LifeFormHumanSpecificLasersClass" 1
   [
    1; 2
   ] 1 eq_refl eq_refl.

(** enums.rs:14976-14980; deserialize 14982-14987 (get_u16). *)
Definition TransmitterDetailSATCOMModulation_spec : enum_spec := mk_enum_spec "TransmitterDetailSATCOMModulation" 2
   [
    0; 1
   ] 0 eq_refl eq_refl.

(** enums.rs:14991-15006; deserialize 15008-15013 (get_u8). *)
Definition SupplyDomain_spec : enum_spec := mk_enum_spec "SupplyDomain" 1
   [
    0; 1; 2; 3; 4; 5; 6; 7; 8; 9; 10; 11; 12
   ] 0 eq_refl eq_refl.

(** enums.rs:15017-15025; deserialize 15027-15032 (get_u8). *)
Definition Class1SupplyCategorySubsistence_spec : enum_spec := mk_enum_spec "Class1SupplyCategorySubsistence" 1
   [
    1; 2; 3; 4; 5; 6
   ] 1 eq_refl eq_refl.

(** enums.rs:15036-15046; deserialize 15048-15053 (get_u8). *)
Definition Class2SupplyCategoryClothingIndividualEquipmentToolsAdminSupplies_spec : enum_spec := mk_enum_spec "Class2SupplyCategoryClothingIndividualEquipmentToolsAdminSupplies" 1
   [
    1; 2; 3; 4; 5; 6; 7; 8
   ] 1 eq_refl eq_refl.

(** enums.rs:15057-15063; deserialize 15065-15070 (get_u8). *)
Definition Class3SupplyCategoryPetroleumOilsLubricants_spec : enum_spec := mk_enum_spec "Class3SupplyCategoryPetroleumOilsLubricants" 1
   [
    1; 2; 3; 4
   ] 1 eq_refl eq_refl.

(** enums.rs:15074-15079; deserialize 15081-15086 (get_u8). *)
Definition Class4SupplyCategoryConstructionMaterials_spec : enum_spec := mk_enum_spec "Class4SupplyCategoryConstructionMaterials" 1
   [
    1; 2; 3
   ] 1 eq_refl eq_refl.

(** enums.rs:15090-15093; deserialize 15095-15100 (get_u8). *)
Definition Class6SupplyCategoryPersonnelDemandItems_spec : enum_spec := mk_enum_spec "Class6SupplyCategoryPersonnelDemandItems" 1
   [
    1
   ] 1 eq_refl eq_refl.

(** enums.rs:15104-15131; deserialize 15133-15138 (get_u8). *)
Definition Class7SupplyCategoryMajorItems_spec : enum_spec := mk_enum_spec "Class7SupplyCategoryMajorItems" 1
   [
    1; 2; 3; 4; 5; 6; 7; 8; 9; 10; 11; 20; 21; 22; 23; 24; 25; 26; 27; 28; 29; 30; 31; 32; 33
   ] 1 eq_refl eq_refl.

(** enums.rs:15142-15147; deserialize 15149-15154 (get_u8). *)
Definition Class8SupplyCategoryMedicalMaterial_spec : enum_spec := mk_enum_spec "Class8SupplyCategoryMedicalMaterial" 1
   [
    1; 2; 3
   ] 1 eq_refl eq_refl.

(** enums.rs:15158-15170; deserialize 15172-15177 (get_u8). *)
Definition Class9SupplyCategoryRepairPartsandComponents_spec : enum_spec := mk_enum_spec "Class9SupplyCategoryRepairPartsandComponents" 1
   [
    1; 2; 3; 4; 5; 6; 7; 8; 9; 10
   ] 1 eq_refl eq_refl.

(** enums.rs:15181-15184; deserialize 15186-15191 (get_u8). *)
Definition Class10SupplyCategoryMaterialToSupportNonMilitaryPrograms_spec : enum_spec := mk_enum_spec "Class10SupplyCategoryMaterialToSupportNonMilitaryPrograms" 1
   [
    1
   ] 1 eq_refl eq_refl.

(** enums.rs:15195-15202; deserialize 15204-15209 (get_u8). *)
Definition Class11SupplyCategorySupplies_spec : enum_spec := mk_enum_spec "Class11SupplyCategorySupplies" 1
   [
    1; 2; 3; 4; 5
   ] 1 eq_refl eq_refl.

(** enums.rs:15213-15227; deserialize 15229-15234 (get_u8). *)
Definition Class12SupplyCategorySlingLoads_spec : enum_spec := mk_enum_spec "Class12SupplyCategorySlingLoads" 1
   [
    1; 2; 3; 4; 5; 6; 7; 8; 9; 10; 11; 12
   ] 1 eq_refl eq_refl.

(** enums.rs:15238-15244; deserialize 15246-15251 (get_u8). *)
Definition LifeSavingEquipment_spec : enum_spec := mk_enum_spec "LifeSavingEquipment" 1
   [
    1; 2; 3; 4
   ] 1 eq_refl eq_refl.

(** enums.rs:15255-15264; deserialize 15266-15271 (get_u16). *)
Definition IslandSubcategory_spec : enum_spec := mk_enum_spec "IslandSubcategory" 2
   [
    0; 1; 2; 3; 4; 5; 6
   ] 0 eq_refl eq_refl.

(** enums.rs:15275-15282; deserialize 15284-15289 (get_u8). *)
Definition Link11MessageSubType_spec : enum_spec := mk_enum_spec "Link11MessageSubType" 1
   [
    0; 1; 2; 3; 4
   ] 0 eq_refl eq_refl.

(** enums.rs:15293-15302; deserialize 15304-15309 (get_u8). *)
Definition Link11MessageTypeIdentifier_spec : enum_spec := mk_enum_spec "Link11MessageTypeIdentifier" 1
   [
    0; 1; 2; 3; 4; 5; 6
   ] 0 eq_refl eq_refl.

(** enums.rs:15313-15320; deserialize 15322-15327 (get_u8). *)
Definition Link11DataSignallingRate_spec : enum_spec := mk_enum_spec "Link11DataSignallingRate" 1
   [
    0; 1; 2; 3; 4
   ] 0 eq_refl eq_refl.

(** enums.rs:15331-15336; deserialize 15338-15343 (get_u8). *)
Definition Link11SignalIntegrationInterval_spec : enum_spec := mk_enum_spec "Link11SignalIntegrationInterval" 1
   [
    0; 1; 2
   ] 0 eq_refl eq_refl.

(** enums.rs:15347-15352; deserialize 15354-15359 (get_u8). *)
Definition Link11SignalWaveform_spec : enum_spec := mk_enum_spec "Link11SignalWaveform" 1
   [
    0; 1; 2
   ] 0 eq_refl eq_refl.

(** enums.rs:15363-15367; deserialize 15369-15374 (get_u8). *)
Definition Link11_11BEncryptionFlag_spec : enum_spec := mk_enum_spec "Link11_11BEncryptionFlag" 1
   [
    0; 1
   ] 0 eq_refl eq_refl.

(** enums.rs:15378-15382; deserialize 15384-15389 (get_u8). *)
Definition SISOSTD002Version_spec : enum_spec := mk_enum_spec "SISOSTD002Version" 1
   [
    0; 1
   ] 0 eq_refl eq_refl.

(** enums.rs:15393-15400; deserialize 15402-15407 (get_u8). *)
Definition Link11BLinkState_spec : enum_spec := mk_enum_spec "Link11BLinkState" 1
   [
    0; 1; 2; 3; 4
   ] 0 eq_refl eq_refl.

(** enums.rs:15411-15417; deserialize 15419-15424 (get_u16). *)
Definition Link11BModeofOperation_spec : enum_spec := mk_enum_spec "Link11BModeofOperation" 2
   [
    0; 1; 2; 3
   ] 0 eq_refl eq_refl.

(** enums.rs:15428-15433; deserialize 15435-15440 (get_u8). *)
Definition Link11BMessageSubType_spec : enum_spec := mk_enum_spec "Link11BMessageSubType" 1
   [
    0; 1; 2
   ] 0 eq_refl eq_refl.

(** enums.rs:15444-15450; deserialize 15452-15457 (get_u8). *)
Definition Link11BDataSignalingRate_spec : enum_spec := mk_enum_spec "Link11BDataSignalingRate" 1
   [
    0; 3; 4; 5
   ] 0 eq_refl eq_refl.

(** enums.rs:15462-15466; deserialize 15468-15473 (get_u8). *)
Definition Link11BModulationStandard_spec : enum_spec := mk_enum_spec "Link11BModulationStandard" 1
   [
    0; 1
   ] 0 eq_refl eq_refl.

(** enums.rs:15477-15484; deserialize 15486-15491 (get_u16). *)
Definition CIGIExtensionPacketID_spec : enum_spec := mk_enum_spec "CIGIExtensionPacketID" 2
   [
    4096; 4097; 4098; 4099; 5000
   ] 4096 eq_refl eq_refl.

(** enums.rs:15495-15508; deserialize 15510-15515 (get_u8). *)
Definition Link16Version_spec : enum_spec := mk_enum_spec "Link16Version" 1
   [
    0; 1; 2; 3; 4; 5; 103; 104; 105; 106; 108
   ] 0 eq_refl eq_refl.

(** enums.rs:15519-15523; deserialize 15525-15530 (get_u8). *)
Definition AircraftIDSource_spec : enum_spec := mk_enum_spec "AircraftIDSource" 1
   [
    0; 1
   ] 0 eq_refl eq_refl.

(** enums.rs:15534-15540; deserialize 15542-15547 (get_u8). *)
Definition ClothingIRSignature_spec : enum_spec := mk_enum_spec "ClothingIRSignature" 1
   [
    0; 1; 2; 3
   ] 0 eq_refl eq_refl.

(** enums.rs:15551-15561; deserialize 15563-15568 (get_u8). *)
Definition DamageArea_spec : enum_spec := mk_enum_spec "DamageArea" 1
   [
    0; 1; 2; 3; 4; 5; 6; 7
   ] 0 eq_refl eq_refl.

(** All of them. *)
Definition all_enums : list enum_spec := [
  ProtocolVersion_spec;
  PduType_spec;
  ProtocolFamily_spec;
  ForceId_spec;
  EntityKind_spec;
  OtherKinds_spec;
  LandDomainCategories_spec;
  AirDomainCategories_spec;
  SurfaceDomainCategories_spec;
  SubsurfaceDomainCategories_spec;
  SpaceDomainCategories_spec;
  MunitionKind_spec;
  MunitionCategory_spec;
  USWeaponSubcategories_spec;
  RussiaWeaponSubcategories_spec;
  UKWeaponSubcategories_spec;
  FrenchWeaponSubcategories_spec;
  LifeFormsSubcategoryGermanWeapons_spec;
  EnvironmentalSubcategory_spec;
  RadioCategory_spec;
  RadioSubcategory_spec;
  ExpendableAirCategory_spec;
  ExpendableSurfaceCategory_spec;
  ExpendableSubsurfaceCategory_spec;
  SensorEmitterCategory_spec;
  Country_spec;
  DeadReckoningAlgorithm_spec;
  EntityMarkingCharacterSet_spec;
  EntityCapabilities_spec;
  VariableParameterRecordType_spec;
  AttachedParts_spec;
  ArticulatedPartsTypeMetric_spec;
  ArticulatedPartsTypeClass_spec;
  MunitionDescriptorWarhead_spec;
  MunitionDescriptorFuse_spec;
  DetonationResult_spec;
  ServiceRequestServiceTypeRequested_spec;
  RepairCompleteRepair_spec;
  RepairResponseRepairResult_spec;
  VariableRecordTypes_spec;
  Reason_spec;
  AcknowledgeFlag_spec;
  AcknowledgeResponseFlag_spec;
  ActionRequestActionID_spec;
  ActionResponseRequestStatus_spec;
  EventType_spec;
  RequiredReliabilityService_spec;
  EmitterName_spec;
  EmitterSystemFunction_spec;
  ElectromagneticEmissionStateUpdateIndicator_spec;
  ElectromagneticEmissionBeamFunction_spec;
  HighDensityTrackJam_spec;
  DesignatorSystemName_spec;
  DesignatorCode_spec;
  IFFSystemType_spec;
  IFFSystemName_spec;
  IFFSystemMode_spec;
  IFFLayerSpecificInformation_spec;
  IFFAlternateMode4ChallengeReply_spec;
  IFFSystemType1OperationalParameter1_spec;
  IFFSystemType1OperationalParameter2_spec;
  SubcategoriesforLandCategory200Mammal_spec;
  SubcategoriesforLandCategory201Reptile_spec;
  SubcategoriesforLandCategory202Amphibian_spec;
  SubcategoriesforLandCategory203Insect_spec;
  SubcategoriesforLandCategory204Arachnid_spec;
  SubcategoriesforLandCategory205Mollusk_spec;
  SubcategoriesforLandCategory206Marsupial_spec;
  SubcategoriesforAirCategory200Bird_spec;
  SubcategoriesforAirCategory201Insect_spec;
  SubcategoriesforAirCategory202Mammal_spec;
  SubcategoriesforSubsurfaceCategory200Fish_spec;
  SubcategoriesforSubsurfaceCategory201Mammal_spec;
  SubcategoriesforSubsurfaceCategory202Mollusk_spec;
  SubcategoriesforSubsurfaceCategory203Crustacean_spec;
  SubcategoriesforSubsurfaceCategory204Insect_spec;
  AnimalLifeformGroupSizeRangeEnumerationforallDomains_spec;
  SpecificDimensionEnumerationsforLandAreaSize_spec;
  SpecificDimensionEnumerationsforAirAreaSize_spec;
  AddSpecificDimensionEnumerationsforSubsurfaceAreaSize_spec;
  AddVariantsforLandCategory200Mammal_spec;
  VariantsforLandCategoriesReptilesAmphibiansInsectsandArachnids_spec;
  VariantsforAirCategory200Bird_spec;
  AddVariantsforAirCategory201Insect_spec;
  AddVariantsforSubsurfaceCategoriesFishMolluskCrustaceanandInsect_spec;
  VariantsforSubsurfaceCategory201Mammal_spec;
  UAStateChangeUpdateIndicator_spec;
  UAAcousticSystemName_spec;
  UAAcousticEmitterSystemFunction_spec;
  UAActiveEmissionParameterIndex_spec;
  UAScanPattern_spec;
  UAPassiveParameterIndex_spec;
  UAAdditionalPassiveActivityParameterIndex_spec;
  TransmitterMajorModulation_spec;
  TransmitterDetailAmplitudeModulation_spec;
  TransmitterDetailAmplitudeandAngleModulation_spec;
  TransmitterDetailAngleModulation_spec;
  TransmitterDetailCombinationModulation_spec;
  TransmitterDetailPulseModulation_spec;
  TransmitterDetailUnmodulatedModulation_spec;
  TransmitterDetailCarrierPhaseShiftModulation_spec;
  TransmitterModulationTypeSystem_spec;
  TransmitterTransmitState_spec;
  TransmitterInputSource_spec;
  TransmitterCryptoSystem_spec;
  TransmitterAntennaPatternType_spec;
  TransmitterAntennaPatternReferenceSystem_spec;
  CCTTSINCGARSStartofMessage_spec;
  CCTTSINCGARSClearChannel_spec;
  TimeSlotAllocationLevel_spec;
  JTIDSMIDSModulationParametersTransmittingTerminalPrimaryMode_spec;
  JTIDSMIDSModulationParametersTransmittingTerminalSecondaryMode_spec;
  JTIDSMIDSModulationParametersSynchronizationState_spec;
  MessageTypeIdentifier_spec;
  SignalUserProtocolIdentificationNumber_spec;
  SignalTDLType_spec;
  ReceiverReceiverState_spec;
  IntercomControlControlType_spec;
  IntercomControlCommunicationsType_spec;
  IntercomControlCommand_spec;
  IntercomControlTransmitLineState_spec;
  IntercomControlDestinationLineStateCommand_spec;
  IntercomControlRecordType_spec;
  CollisionType_spec;
  MinefieldSensorTypes_spec;
  MinefieldSensorTypesOptical_spec;
  MinefieldSensorTypesFLIR_spec;
  MinefieldSensorTypesRADAR_spec;
  MinefieldSensorTypesMagnetic_spec;
  MinefieldSensorTypesLaser_spec;
  MinefieldSensorTypesSONAR_spec;
  MinefieldSensorTypesPhysical_spec;
  MinefieldSensorTypesMultispectral_spec;
  AggregateStateAggregateState_spec;
  AggregateStateFormation_spec;
  AggregateStateAggregateKind_spec;
  AggregateStateSubcategory_spec;
  AggregateStateSpecific_spec;
  IsPartOfNature_spec;
  IsPartOfPosition_spec;
  IsPartOfStationName_spec;
  IsGroupOfGroupedEntityCategory_spec;
  IsGroupOfRestStatus_spec;
  TransferControlTransferType_spec;
  ObjectKind_spec;
  GriddedDataCoordinateSystem_spec;
  GriddedDataConstantGrid_spec;
  GriddedDataSampleType_spec;
  GriddedDataDataRepresentation_spec;
  EnvironmentalProcessModelType_spec;
  EnvironmentalProcessRecordType_spec;
  SignalEncodingClass_spec;
  SignalEncodingType_spec;
  RepairGroups_spec;
  EnvironmentRecordTypeGroups_spec;
  PlatformAirCivilianUltralightNonrigidWingAircraftSubcategories_spec;
  PlatformAirCivilianUltralightRigidWingAircraftSubcategories_spec;
  PlatformAirCivilianGliderSubcategories_spec;
  PlatformAirCivilianFixedWingAircraftSubcategories_spec;
  PlatformAirCivilianHelicopterSubcategories_spec;
  PlatformAirCivilianLighterthanAirBalloonSubcategories_spec;
  PlatformAirCivilianLighterthanAirAirshipSubcategories_spec;
  APAParameterIndexAPAStatus_spec;
  SeparationVPReasonforSeparation_spec;
  SeparationVPPreEntityIndicator_spec;
  IOActionIOWarfareType_spec;
  IOActionIOSimulationSource_spec;
  IOActionIOActionType_spec;
  IOActionIOActionPhase_spec;
  IOReportIOReportType_spec;
  IOEffectsRecordIOStatus_spec;
  IOEffectsRecordIOLinkType_spec;
  IOEffectsRecordIOEffect_spec;
  IOEffectsRecordIOProcess_spec;
  IOCommsNodeRecordCommsNodeType_spec;
  DISAttributeActionCode_spec;
  DRParametersType_spec;
  HighFidelityHAVEQUICKTODTransmitIndicator_spec;
  NETIDRecordMode_spec;
  NETIDRecordFrequencyTable_spec;
  EEAttributeStateIndicator_spec;
  TransferredEntityIndicator_spec;
  LVCIndicator_spec;
  CoupledExtensionIndicator_spec;
  FireTypeIndicator_spec;
  DetonationTypeIndicator_spec;
  RadioAttachedIndicator_spec;
  IntercomAttachedIndicator_spec;
  PduStatusIFFSimulationMode_spec;
  ExplosiveMaterialGroups_spec;
  ExplosiveMaterialCategories_spec;
  DEPrecisionAimpointBeamSpotType_spec;
  DEFirePulseShape_spec;
  ComponentIdentification_spec;
  ComponentDamageStatus_spec;
  ComponentVisualSmokeColor_spec;
  BeamStatusBeamState_spec;
  EntityAssociationAssociationStatus_spec;
  EntityVPRecordChangeIndicator_spec;
  EntityAssociationGroupMemberType_spec;
  PhysicalAssociationTypeGroups_spec;
  EntityAssociationPhysicalAssociationType_spec;
  EntityAssociationPhysicalConnectionType_spec;
  SensorRecordSensorTypeOtherActiveSensors_spec;
  SensorRecordSensorTypePassiveSensors_spec;
  MunitionExpendableStatus_spec;
  FuelMeasurementUnits_spec;
  FuelLocation_spec;
  EntityAssociationAssociationType_spec;
  SensorOnOffStatus_spec;
  OwnershipStatus_spec;
  RecordREventType_spec;
  RecordQueryREventType_spec;
  UAPropulsionPlantConfigurationConfiguration_spec;
  MinefieldStateProtocolMode_spec;
  TransponderInterrogatorIndicator_spec;
  IFFSimulationMode_spec;
  IFFApplicableModes_spec;
  ModeCAltitudeIndicator_spec;
  TCASACASBasicAdvancedIndicator_spec;
  TCASACASIndicator_spec;
  TCASACASSoftwareVersion_spec;
  TCASACASType_spec;
  TCASIIIType_spec;
  Mode5IFFMission_spec;
  ModeSInterrogatorStatusTransmitState_spec;
  ModeSInterrogatorIdentifierICType_spec;
  ISLSAntennaType_spec;
  Mode5Reply_spec;
  AntennaSelection_spec;
  Mode5SquitterType_spec;
  Level2SquitterStatus_spec;
  ModeSSquitterType_spec;
  ModeSSquitterRecordSource_spec;
  AircraftPresentDomain_spec;
  AircraftIdentificationType_spec;
  CapabilityReport_spec;
  NavigationSource_spec;
  IFFDataRecordAvailable_spec;
  Mode5SAltitudeResolution_spec;
  DeltaMode5SAltitudePositiveNegativeIndicator_spec;
  FormatType_spec;
  AircraftAddressSource_spec;
  SurveillanceStatus_spec;
  TurnRateSource_spec;
  TimeTypeSource_spec;
  AircraftTypeWake_spec;
  DataCategory_spec;
  TILinkType_spec;
  AntennaStatus_spec;
  TransmissionIndicator_spec;
  ReplyAmplification_spec;
  DEFireFlagsStateUpdateFlag_spec;
  ComponentVisualDamageStatusSmoke_spec;
  ComponentVisualDamageStatusSurfaceDamage_spec;
  GridAxisDescriptorAxisType_spec;
  AppearancePaintScheme_spec;
  AppearanceDamage_spec;
  Mode5MessageFormatsStatus_spec;
  AppearanceTrailingEffects_spec;
  AppearanceHatch_spec;
  AppearanceLauncherOperational_spec;
  AppearanceCamouflageType_spec;
  AppearanceConcealedPosition_spec;
  AppearanceEntityorObjectState_spec;
  AppearanceCanopy_spec;
  AppearanceSubsurfaceHatch_spec;
  ActiveInterrogationIndicator_spec;
  AppearanceLifeformHealth_spec;
  AppearanceLifeFormComplianceStatus_spec;
  AppearanceLifeFormPosture_spec;
  AppearanceLifeFormWeaponImplement_spec;
  AppearanceConcealedMovement_spec;
  AppearanceEnvironmentalDensity_spec;
  Mode5PlatformType_spec;
  AppearanceAntiCollisionDayNight_spec;
  AppearanceNavigationPositionBrightness_spec;
  AppearanceSupplyDeployed_spec;
  AppearanceNVGMode_spec;
  Parachute_spec;
  FlareSmokeColor_spec;
  FlareSmokeStatus_spec;
  SpotChaffStatus_spec;
  AppearanceObjectGeneralDamage_spec;
  AppearanceObjectGeneralPredistributed_spec;
  AppearanceObjectSpecificBreachState_spec;
  AppearanceObjectSpecificChemicalType_spec;
  AppearanceLinearObjectTankDitchBreach_spec;
  AppearanceLinearObjectLaneMarkerVisible_spec;
  AppearanceObjectGeneralIEDPresent_spec;
  Mode5LevelSelection_spec;
  SupplyFuelType_spec;
  SensorTypeSource_spec;
  AttachedPartDetachedIndicator_spec;
  IntercomControlCommunicationsClass_spec;
  DISLiveEntitySubprotocolNumber_spec;
  MinefieldAppearanceMinefieldType_spec;
  MinefieldAppearanceActiveStatus_spec;
  MinefieldAppearanceLane_spec;
  MinefieldAppearanceState_spec;
  MinefieldFusingFuseType_spec;
  Mode5LocationErrors_spec;
  MinefieldPaintSchemeAlgae_spec;
  MinefieldPaintSchemePaintScheme_spec;
  CoverShroudStatus_spec;
  PlatformLandMotorcycleSubcategories_spec;
  PlatformLandCarSubcategories_spec;
  PlatformLandBusSubcategories_spec;
  PlatformLandSingleUnitCargoTruckSubcategories_spec;
  PlatformLandSingleUnitUtilityEmergencyTruckSubcategories_spec;
  PlatformLandMultipleUnitCargoTruckSubcategories_spec;
  PlatformLandMultipleUnitUtilityEmergencyTruckSubcategories_spec;
  PlatformLandConstructionSpecialtyVehicleSubcategories_spec;
  PlatformLandFarmSpecialtyVehicleSubcategories_spec;
  PlatformLandTrailerSubcategories_spec;
  PlatformLandRecreationalSubcategories_spec;
  PlatformLandNonmotorizedSubcategories_spec;
  PlatformLandTrainsSubcategories_spec;
  PlatformLandUtilityEmergencyCarSubcategories_spec;
  PlatformSurfacePassengerVesselSubcategories_spec;
  PlatformSurfaceDryCargoShipSubcategories_spec;
  PlatformSurfaceTankerSubcategories_spec;
  PlatformSurfaceSupportVesselSubcategories_spec;
  PlatformSurfacePrivateMotorboatSubcategories_spec;
  PlatformSurfacePrivateSailboatSubcategories_spec;
  PlatformSurfaceFishingVesselSubcategories_spec;
  PlatformSurfaceOtherVesselsSubcategories_spec;
  CryptoKeyIDCryptoMode_spec;
  Color_spec;
  BuildingPaintScheme_spec;
  Season_spec;
  Material_spec;
  Link11_11BFidelityLevel_spec;
  Link11TerminalMode_spec;
  Link11DataTerminalSetIndicator_spec;
  Link11ModeofOperation_spec;
  LifeFormsSubcategoryIranianWeapons_spec;
  LifeFormLandCategories_spec;
  LifeFormHumanSubcategoryEquipmentClass_spec;
  LifeFormHumanSpecificAssaultRifles_spec;
  LifeFormHumanSpecificHighPowerRifles_spec;
  LifeFormCategoriesUS_spec;
  LifeFormExtraPersonalData_spec;
  LifeFormAirCategories_spec;
  LifeFormSubsurfaceCategories_spec;
  LifeFormHumanSpecificSniper_spec;
  LifeFormHumanSpecificSubMachineGun_spec;
  AustralianCategoryOverlay_spec;
  LifeFormCategoriesAfghanistan_spec;
  LifeFormHumanSpecificEquipmentClass_spec;
  PlatformSubsurfaceCivilianSemiSubmersiblesSubcategories_spec;
  LeafCoverage_spec;
  LifeFormHumanSpecificAntiMaterielRifles_spec;
  LifeFormHumanSpecificShotGuns_spec;
  LifeFormHumanSpecificMortars_spec;
  LifeFormHumanSpecificHandGuns_spec;
  LifeFormHumanSpecificWeaponNonspecific_spec;
  LifeFormHumanSpecificGrenadeLaunchers_spec;
  LifeFormHumanSpecificMachineGuns_spec;
  LifeFormHumanSpecificGrenadeLaunchingMachineGun_spec;
  LifeFormHumanSpecificAntiTankRockets_spec;
  LifeFormHumanSpecificAntiTankMissiles_spec;
  LifeFormHumanSpecificManPortableAirDefenseSystem_spec;
  LifeFormHumanSpecificRecoillessRifles_spec;
  LifeFormHumanSpecificFlameRockets_spec;
  LifeFormHumanSpecificFlameThrowers_spec;
  LifeFormHumanSpecificDroneGuns_spec;
  LifeFormHumanSpecificLogisticsEQClass_spec;
  LifeFormHumanSpecificPersonalElectronicsClass_spec;
  LifeFormHumanSpecificLasersClass_spec;
  TransmitterDetailSATCOMModulation_spec;
  SupplyDomain_spec;
  Class1SupplyCategorySubsistence_spec;
  Class2SupplyCategoryClothingIndividualEquipmentToolsAdminSupplies_spec;
  Class3SupplyCategoryPetroleumOilsLubricants_spec;
  Class4SupplyCategoryConstructionMaterials_spec;
  Class6SupplyCategoryPersonnelDemandItems_spec;
  Class7SupplyCategoryMajorItems_spec;
  Class8SupplyCategoryMedicalMaterial_spec;
  Class9SupplyCategoryRepairPartsandComponents_spec;
  Class10SupplyCategoryMaterialToSupportNonMilitaryPrograms_spec;
  Class11SupplyCategorySupplies_spec;
  Class12SupplyCategorySlingLoads_spec;
  LifeSavingEquipment_spec;
  IslandSubcategory_spec;
  Link11MessageSubType_spec;
  Link11MessageTypeIdentifier_spec;
  Link11DataSignallingRate_spec;
  Link11SignalIntegrationInterval_spec;
  Link11SignalWaveform_spec;
  Link11_11BEncryptionFlag_spec;
  SISOSTD002Version_spec;
  Link11BLinkState_spec;
  Link11BModeofOperation_spec;
  Link11BMessageSubType_spec;
  Link11BDataSignalingRate_spec;
  Link11BModulationStandard_spec;
  CIGIExtensionPacketID_spec;
  Link16Version_spec;
  AircraftIDSource_spec;
  ClothingIRSignature_spec;
  DamageArea_spec
].

(** ** Field codecs: [FieldSerialize]/[FieldDeserialize]/[FieldLen] impls *)

(** enums.rs:196-212. *)
Definition ForceId : Type := enum ForceId_spec.
Definition ForceId_serialize_field (v : ForceId) : bytes := put_u8 (as_u8 (code v)).
Definition ForceId_field_len (v : ForceId) : N := 1.

(** enums.rs:1421-1437. *)
Definition DeadReckoningAlgorithm : Type := enum DeadReckoningAlgorithm_spec.
Definition DeadReckoningAlgorithm_serialize_field (v : DeadReckoningAlgorithm) : bytes := put_u8 (as_u8 (code v)).
Definition DeadReckoningAlgorithm_field_len (v : DeadReckoningAlgorithm) : N := 1.

(** enums.rs:1482-1498. *)
Definition EntityCapabilities : Type := enum EntityCapabilities_spec.
Definition EntityCapabilities_serialize_field (v : EntityCapabilities) : bytes := put_u32 (as_u32 (code v)).
Definition EntityCapabilities_field_len (v : EntityCapabilities) : N := 4.

(** enums.rs:2124-2140. *)
Definition DetonationResult : Type := enum DetonationResult_spec.
Definition DetonationResult_serialize_field (v : DetonationResult) : bytes := put_u8 (as_u8 (code v)).
Definition DetonationResult_field_len (v : DetonationResult) : N := 1.

(** enums.rs:2160-2176. *)
Definition ServiceRequestServiceTypeRequested : Type := enum ServiceRequestServiceTypeRequested_spec.
Definition ServiceRequestServiceTypeRequested_serialize_field (v : ServiceRequestServiceTypeRequested) : bytes := put_u8 (as_u8 (code v)).
Definition ServiceRequestServiceTypeRequested_field_len (v : ServiceRequestServiceTypeRequested) : N := 1.

(** enums.rs:2275-2291. *)
Definition RepairCompleteRepair : Type := enum RepairCompleteRepair_spec.
Definition RepairCompleteRepair_serialize_field (v : RepairCompleteRepair) : bytes := put_u16 (as_u16 (code v)).
Definition RepairCompleteRepair_field_len (v : RepairCompleteRepair) : N := 2.

(** enums.rs:2311-2327. *)
Definition RepairResponseRepairResult : Type := enum RepairResponseRepairResult_spec.
Definition RepairResponseRepairResult_serialize_field (v : RepairResponseRepairResult) : bytes := put_u8 (as_u8 (code v)).
Definition RepairResponseRepairResult_field_len (v : RepairResponseRepairResult) : N := 1.

(** enums.rs:3590-3606. *)
Definition VariableRecordTypes : Type := enum VariableRecordTypes_spec.
Definition VariableRecordTypes_serialize_field (v : VariableRecordTypes) : bytes := put_u32 (as_u32 (code v)).
Definition VariableRecordTypes_field_len (v : VariableRecordTypes) : N := 4.

(** enums.rs:3630-3646. *)
Definition Reason : Type := enum Reason_spec.
Definition Reason_serialize_field (v : Reason) : bytes := put_u8 (as_u8 (code v)).
Definition Reason_field_len (v : Reason) : N := 1.

(** enums.rs:3713-3729. *)
Definition AcknowledgeFlag : Type := enum AcknowledgeFlag_spec.
Definition AcknowledgeFlag_serialize_field (v : AcknowledgeFlag) : bytes := put_u16 (as_u16 (code v)).
Definition AcknowledgeFlag_field_len (v : AcknowledgeFlag) : N := 2.

(** enums.rs:3748-3764. *)
Definition AcknowledgeResponseFlag : Type := enum AcknowledgeResponseFlag_spec.
Definition AcknowledgeResponseFlag_serialize_field (v : AcknowledgeResponseFlag) : bytes := put_u16 (as_u16 (code v)).
Definition AcknowledgeResponseFlag_field_len (v : AcknowledgeResponseFlag) : N := 2.

(** enums.rs:3858-3874. *)
Definition ActionResponseRequestStatus : Type := enum ActionResponseRequestStatus_spec.
Definition ActionResponseRequestStatus_serialize_field (v : ActionResponseRequestStatus) : bytes := put_u32 (as_u32 (code v)).
Definition ActionResponseRequestStatus_field_len (v : ActionResponseRequestStatus) : N := 4.

(** enums.rs:3908-3924. *)
Definition EventType : Type := enum EventType_spec.
Definition EventType_serialize_field (v : EventType) : bytes := put_u32 (as_u32 (code v)).
Definition EventType_field_len (v : EventType) : N := 4.

(** enums.rs:3941-3957. *)
Definition RequiredReliabilityService : Type := enum RequiredReliabilityService_spec.
Definition RequiredReliabilityService_serialize_field (v : RequiredReliabilityService) : bytes := put_u8 (as_u8 (code v)).
Definition RequiredReliabilityService_field_len (v : RequiredReliabilityService) : N := 1.

(** enums.rs:7029-7045. *)
Definition DesignatorSystemName : Type := enum DesignatorSystemName_spec.
Definition DesignatorSystemName_serialize_field (v : DesignatorSystemName) : bytes := put_u16 (as_u16 (code v)).
Definition DesignatorSystemName_field_len (v : DesignatorSystemName) : N := 2.

(** enums.rs:7062-7078. *)
Definition DesignatorCode : Type := enum DesignatorCode_spec.
Definition DesignatorCode_serialize_field (v : DesignatorCode) : bytes := put_u16 (as_u16 (code v)).
Definition DesignatorCode_field_len (v : DesignatorCode) : N := 2.

(** enums.rs:7842-7858. *)
Definition UAStateChangeUpdateIndicator : Type := enum UAStateChangeUpdateIndicator_spec.
Definition UAStateChangeUpdateIndicator_serialize_field (v : UAStateChangeUpdateIndicator) : bytes := put_u8 (as_u8 (code v)).
Definition UAStateChangeUpdateIndicator_field_len (v : UAStateChangeUpdateIndicator) : N := 1.

(** enums.rs:7883-7899. *)
Definition UAAcousticSystemName : Type := enum UAAcousticSystemName_spec.
Definition UAAcousticSystemName_serialize_field (v : UAAcousticSystemName) : bytes := put_u16 (as_u16 (code v)).
Definition UAAcousticSystemName_field_len (v : UAAcousticSystemName) : N := 2.

(** enums.rs:7919-7935. *)
Definition UAAcousticEmitterSystemFunction : Type := enum UAAcousticEmitterSystemFunction_spec.
Definition UAAcousticEmitterSystemFunction_serialize_field (v : UAAcousticEmitterSystemFunction) : bytes := put_u8 (as_u8 (code v)).
Definition UAAcousticEmitterSystemFunction_field_len (v : UAAcousticEmitterSystemFunction) : N := 1.

(** enums.rs:7984-8000. *)
Definition UAPassiveParameterIndex : Type := enum UAPassiveParameterIndex_spec.
Definition UAPassiveParameterIndex_serialize_field (v : UAPassiveParameterIndex) : bytes := put_u16 (as_u16 (code v)).
Definition UAPassiveParameterIndex_field_len (v : UAPassiveParameterIndex) : N := 2.

(** enums.rs:8199-8215. *)
Definition TransmitterTransmitState : Type := enum TransmitterTransmitState_spec.
Definition TransmitterTransmitState_serialize_field (v : TransmitterTransmitState) : bytes := put_u8 (as_u8 (code v)).
Definition TransmitterTransmitState_field_len (v : TransmitterTransmitState) : N := 1.

(** enums.rs:8245-8261. *)
Definition TransmitterInputSource : Type := enum TransmitterInputSource_spec.
Definition TransmitterInputSource_serialize_field (v : TransmitterInputSource) : bytes := put_u8 (as_u8 (code v)).
Definition TransmitterInputSource_field_len (v : TransmitterInputSource) : N := 1.

(** enums.rs:8291-8307. *)
Definition TransmitterCryptoSystem : Type := enum TransmitterCryptoSystem_spec.
Definition TransmitterCryptoSystem_serialize_field (v : TransmitterCryptoSystem) : bytes := put_u16 (as_u16 (code v)).
Definition TransmitterCryptoSystem_field_len (v : TransmitterCryptoSystem) : N := 2.

(** enums.rs:8328-8344. *)
Definition TransmitterAntennaPatternType : Type := enum TransmitterAntennaPatternType_spec.
Definition TransmitterAntennaPatternType_serialize_field (v : TransmitterAntennaPatternType) : bytes := put_u16 (as_u16 (code v)).
Definition TransmitterAntennaPatternType_field_len (v : TransmitterAntennaPatternType) : N := 2.

(** enums.rs:8361-8377. *)
Definition TransmitterAntennaPatternReferenceSystem : Type := enum TransmitterAntennaPatternReferenceSystem_spec.
Definition TransmitterAntennaPatternReferenceSystem_serialize_field (v : TransmitterAntennaPatternReferenceSystem) : bytes := put_u8 (as_u8 (code v)).
Definition TransmitterAntennaPatternReferenceSystem_field_len (v : TransmitterAntennaPatternReferenceSystem) : N := 1.

(** enums.rs:8657-8673. *)
Definition SignalTDLType : Type := enum SignalTDLType_spec.
Definition SignalTDLType_serialize_field (v : SignalTDLType) : bytes := put_u16 (as_u16 (code v)).
Definition SignalTDLType_field_len (v : SignalTDLType) : N := 2.

(** enums.rs:8691-8707. *)
Definition ReceiverReceiverState : Type := enum ReceiverReceiverState_spec.
Definition ReceiverReceiverState_serialize_field (v : ReceiverReceiverState) : bytes := put_u16 (as_u16 (code v)).
Definition ReceiverReceiverState_field_len (v : ReceiverReceiverState) : N := 2.

(** enums.rs:8728-8744. *)
Definition IntercomControlControlType : Type := enum IntercomControlControlType_spec.
Definition IntercomControlControlType_serialize_field (v : IntercomControlControlType) : bytes := put_u8 (as_u8 (code v)).
Definition IntercomControlControlType_field_len (v : IntercomControlControlType) : N := 1.

(** enums.rs:8784-8800. *)
Definition IntercomControlCommand : Type := enum IntercomControlCommand_spec.
Definition IntercomControlCommand_serialize_field (v : IntercomControlCommand) : bytes := put_u8 (as_u8 (code v)).
Definition IntercomControlCommand_field_len (v : IntercomControlCommand) : N := 1.

(** enums.rs:8818-8834. *)
Definition IntercomControlTransmitLineState : Type := enum IntercomControlTransmitLineState_spec.
Definition IntercomControlTransmitLineState_serialize_field (v : IntercomControlTransmitLineState) : bytes := put_u8 (as_u8 (code v)).
Definition IntercomControlTransmitLineState_field_len (v : IntercomControlTransmitLineState) : N := 1.

(** enums.rs:8907-8923. *)
Definition MinefieldSensorTypes : Type := enum MinefieldSensorTypes_spec.
Definition MinefieldSensorTypes_serialize_field (v : MinefieldSensorTypes) : bytes := put_u8 (as_u8 (code v)).
Definition MinefieldSensorTypes_field_len (v : MinefieldSensorTypes) : N := 1.

(** enums.rs:9087-9103. *)
Definition AggregateStateAggregateState : Type := enum AggregateStateAggregateState_spec.
Definition AggregateStateAggregateState_serialize_field (v : AggregateStateAggregateState) : bytes := put_u8 (as_u8 (code v)).
Definition AggregateStateAggregateState_field_len (v : AggregateStateAggregateState) : N := 1.

(** enums.rs:9124-9140. *)
Definition AggregateStateFormation : Type := enum AggregateStateFormation_spec.
Definition AggregateStateFormation_serialize_field (v : AggregateStateFormation) : bytes := put_u32 (as_u32 (code v)).
Definition AggregateStateFormation_field_len (v : AggregateStateFormation) : N := 4.

(** enums.rs:9311-9327. *)
Definition IsGroupOfGroupedEntityCategory : Type := enum IsGroupOfGroupedEntityCategory_spec.
Definition IsGroupOfGroupedEntityCategory_serialize_field (v : IsGroupOfGroupedEntityCategory) : bytes := put_u8 (as_u8 (code v)).
Definition IsGroupOfGroupedEntityCategory_field_len (v : IsGroupOfGroupedEntityCategory) : N := 1.

(** enums.rs:9373-9389. *)
Definition TransferControlTransferType : Type := enum TransferControlTransferType_spec.
Definition TransferControlTransferType_serialize_field (v : TransferControlTransferType) : bytes := put_u8 (as_u8 (code v)).
Definition TransferControlTransferType_field_len (v : TransferControlTransferType) : N := 1.

(** enums.rs:9492-9508. *)
Definition GriddedDataCoordinateSystem : Type := enum GriddedDataCoordinateSystem_spec.
Definition GriddedDataCoordinateSystem_serialize_field (v : GriddedDataCoordinateSystem) : bytes := put_u16 (as_u16 (code v)).
Definition GriddedDataCoordinateSystem_field_len (v : GriddedDataCoordinateSystem) : N := 2.

(** enums.rs:9525-9541. *)
Definition GriddedDataConstantGrid : Type := enum GriddedDataConstantGrid_spec.
Definition GriddedDataConstantGrid_serialize_field (v : GriddedDataConstantGrid) : bytes := put_u8 (as_u8 (code v)).
Definition GriddedDataConstantGrid_field_len (v : GriddedDataConstantGrid) : N := 1.

(** enums.rs:9557-9573. *)
Definition GriddedDataSampleType : Type := enum GriddedDataSampleType_spec.
Definition GriddedDataSampleType_serialize_field (v : GriddedDataSampleType) : bytes := put_u8 (as_u8 (code v)).
Definition GriddedDataSampleType_field_len (v : GriddedDataSampleType) : N := 1.

(** enums.rs:9591-9607. *)
Definition GriddedDataDataRepresentation : Type := enum GriddedDataDataRepresentation_spec.
Definition GriddedDataDataRepresentation_serialize_field (v : GriddedDataDataRepresentation) : bytes := put_u8 (as_u8 (code v)).
Definition GriddedDataDataRepresentation_field_len (v : GriddedDataDataRepresentation) : N := 1.

(** enums.rs:9721-9737. *)
Definition RepairGroups : Type := enum RepairGroups_spec.
Definition RepairGroups_serialize_field (v : RepairGroups) : bytes := put_u8 (as_u8 (code v)).
Definition RepairGroups_field_len (v : RepairGroups) : N := 1.

(** enums.rs:9948-9964. *)
Definition IOActionIOWarfareType : Type := enum IOActionIOWarfareType_spec.
Definition IOActionIOWarfareType_serialize_field (v : IOActionIOWarfareType) : bytes := put_u16 (as_u16 (code v)).
Definition IOActionIOWarfareType_field_len (v : IOActionIOWarfareType) : N := 2.

(** enums.rs:9980-9996. *)
Definition IOActionIOSimulationSource : Type := enum IOActionIOSimulationSource_spec.
Definition IOActionIOSimulationSource_serialize_field (v : IOActionIOSimulationSource) : bytes := put_u16 (as_u16 (code v)).
Definition IOActionIOSimulationSource_field_len (v : IOActionIOSimulationSource) : N := 2.

(** enums.rs:10016-10032. *)
Definition IOActionIOActionType : Type := enum IOActionIOActionType_spec.
Definition IOActionIOActionType_serialize_field (v : IOActionIOActionType) : bytes := put_u16 (as_u16 (code v)).
Definition IOActionIOActionType_field_len (v : IOActionIOActionType) : N := 2.

(** enums.rs:10054-10070. *)
Definition IOActionIOActionPhase : Type := enum IOActionIOActionPhase_spec.
Definition IOActionIOActionPhase_serialize_field (v : IOActionIOActionPhase) : bytes := put_u16 (as_u16 (code v)).
Definition IOActionIOActionPhase_field_len (v : IOActionIOActionPhase) : N := 2.

(** enums.rs:10089-10105. *)
Definition IOReportIOReportType : Type := enum IOReportIOReportType_spec.
Definition IOReportIOReportType_serialize_field (v : IOReportIOReportType) : bytes := put_u8 (as_u8 (code v)).
Definition IOReportIOReportType_field_len (v : IOReportIOReportType) : N := 1.

(** enums.rs:10208-10224. *)
Definition DISAttributeActionCode : Type := enum DISAttributeActionCode_spec.
Definition DISAttributeActionCode_serialize_field (v : DISAttributeActionCode) : bytes := put_u8 (as_u8 (code v)).
Definition DISAttributeActionCode_field_len (v : DISAttributeActionCode) : N := 1.

(** enums.rs:10306-10322. *)
Definition EEAttributeStateIndicator : Type := enum EEAttributeStateIndicator_spec.
Definition EEAttributeStateIndicator_serialize_field (v : EEAttributeStateIndicator) : bytes := put_u8 (as_u8 (code v)).
Definition EEAttributeStateIndicator_field_len (v : EEAttributeStateIndicator) : N := 1.

(** enums.rs:10616-10632. *)
Definition DEFirePulseShape : Type := enum DEFirePulseShape_spec.
Definition DEFirePulseShape_serialize_field (v : DEFirePulseShape) : bytes := put_u8 (as_u8 (code v)).
Definition DEFirePulseShape_field_len (v : DEFirePulseShape) : N := 1.

(** enums.rs:10657-10673. *)
Definition ComponentIdentification : Type := enum ComponentIdentification_spec.
Definition ComponentIdentification_serialize_field (v : ComponentIdentification) : bytes := put_u8 (as_u8 (code v)).
Definition ComponentIdentification_field_len (v : ComponentIdentification) : N := 1.

(** enums.rs:10693-10709. *)
Definition ComponentDamageStatus : Type := enum ComponentDamageStatus_spec.
Definition ComponentDamageStatus_serialize_field (v : ComponentDamageStatus) : bytes := put_u8 (as_u8 (code v)).
Definition ComponentDamageStatus_field_len (v : ComponentDamageStatus) : N := 1.

(** enums.rs:10728-10744. *)
Definition ComponentVisualSmokeColor : Type := enum ComponentVisualSmokeColor_spec.
Definition ComponentVisualSmokeColor_serialize_field (v : ComponentVisualSmokeColor) : bytes := put_u8 (as_u8 (code v)).
Definition ComponentVisualSmokeColor_field_len (v : ComponentVisualSmokeColor) : N := 1.

(** enums.rs:11136-11152. *)
Definition RecordQueryREventType : Type := enum RecordQueryREventType_spec.
Definition RecordQueryREventType_serialize_field (v : RecordQueryREventType) : bytes := put_u16 (as_u16 (code v)).
Definition RecordQueryREventType_field_len (v : RecordQueryREventType) : N := 2.

(** enums.rs:11189-11205. *)
Definition MinefieldStateProtocolMode : Type := enum MinefieldStateProtocolMode_spec.
Definition MinefieldStateProtocolMode_serialize_field (v : MinefieldStateProtocolMode) : bytes := put_u16 (as_u16 (code v)).
Definition MinefieldStateProtocolMode_field_len (v : MinefieldStateProtocolMode) : N := 2.

(** enums.rs:11884-11900. *)
Definition GridAxisDescriptorAxisType : Type := enum GridAxisDescriptorAxisType_spec.
Definition GridAxisDescriptorAxisType_serialize_field (v : GridAxisDescriptorAxisType) : bytes := put_u8 (as_u8 (code v)).
Definition GridAxisDescriptorAxisType_field_len (v : GridAxisDescriptorAxisType) : N := 1.

