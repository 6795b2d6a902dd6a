(** The two tables of VLC code words as they stand in the source: entry
    [128 * context + next seven bits].  Its bits: 0-2 length of the code word,
    3 u_off, 4-7 significance of the four samples, 8-11 e_1, 12-15 e_k. *)

From Coq Require Import ZArith List.
Import ListNotations.
Local Open Scope Z_scope.

(** t1_ht_luts.rs:3-79. *)
Definition vlc_tbl0 : list Z := [
  35; 165; 67; 102; 131; 43246; 20; 55519; 35; 4286; 67; 62975; 131; 8318; 85; 20831;
  35; 53; 67; 17486; 131; 50382; 20; 52431; 35; 58110; 67; 39423; 131; 150; 197; 12607;
  35; 165; 67; 17502; 131; 51406; 20; 4575; 35; 62718; 67; 64767; 131; 158; 85; 119;
  35; 53; 67; 61951; 131; 34990; 20; 183; 35; 63742; 67; 58607; 131; 34958; 197; 4383;
  35; 165; 67; 102; 131; 43246; 20; 21727; 35; 4286; 67; 8943; 131; 8318; 85; 8831;
  35; 53; 67; 17486; 131; 50382; 20; 4543; 35; 58110; 67; 247; 131; 150; 197; 8767;
  35; 165; 67; 17502; 131; 51406; 20; 215; 35; 62718; 67; 47871; 131; 158; 85; 111;
  35; 53; 67; 59135; 131; 34990; 20; 41647; 35; 63742; 67; 231; 131; 34958; 197; 8751;
  2; 197; 132; 8318; 2; 50382; 36; 247; 2; 41726; 68; 86; 2; 158; 20; 215;
  2; 4286; 132; 102; 2; 34990; 36; 4575; 2; 43246; 68; 54; 2; 34958; 20; 4383;
  2; 197; 132; 110; 2; 35022; 36; 35071; 2; 47358; 68; 17486; 2; 150; 20; 183;
  2; 58622; 132; 17502; 2; 166; 36; 231; 2; 21726; 68; 8750; 2; 62; 20; 119;
  2; 197; 132; 8318; 2; 50382; 36; 61951; 2; 41726; 68; 86; 2; 158; 20; 4543;
  2; 4286; 132; 102; 2; 34990; 36; 8943; 2; 43246; 68; 54; 2; 34958; 20; 8831;
  2; 197; 132; 110; 2; 35022; 36; 58607; 2; 47358; 68; 17486; 2; 150; 20; 41647;
  2; 58622; 132; 17502; 2; 166; 36; 55519; 2; 21726; 68; 8750; 2; 62; 20; 20831;
  2; 85; 132; 102; 2; 35038; 36; 13055; 2; 4606; 68; 17486; 2; 174; 20; 183;
  2; 12670; 132; 20830; 2; 198; 36; 215; 2; 8430; 68; 4382; 2; 158; 20; 119;
  2; 85; 132; 21598; 2; 17614; 36; 231; 2; 61950; 68; 54; 2; 166; 20; 21855;
  2; 29950; 132; 4414; 2; 8382; 36; 29823; 2; 50398; 68; 63743; 2; 150; 20; 8751;
  2; 85; 132; 102; 2; 35038; 36; 247; 2; 4606; 68; 17486; 2; 174; 20; 34959;
  2; 12670; 132; 20830; 2; 198; 36; 51407; 2; 8430; 68; 4382; 2; 158; 20; 111;
  2; 85; 132; 21598; 2; 17614; 36; 53727; 2; 61950; 68; 54; 2; 166; 20; 8831;
  2; 29950; 132; 4414; 2; 8382; 36; 8895; 2; 50398; 68; 8943; 2; 150; 20; 12863;
  3; 54494; 62717; 64767; 20; 4414; 85; 34959; 3; 12990; 133; 231; 37; 20830; 43774; 29311;
  3; 17614; 63741; 17647; 20; 25726; 69; 41647; 3; 166; 21853; 39391; 61949; 54; 62974; 25199;
  3; 53726; 62717; 59135; 20; 29054; 85; 45503; 3; 34990; 133; 54751; 37; 17486; 62206; 26239;
  3; 198; 63741; 58095; 20; 21598; 69; 4511; 3; 150; 21853; 51407; 61949; 4382; 51438; 103;
  3; 54494; 62717; 62463; 20; 4414; 85; 4543; 3; 12990; 133; 55519; 37; 20830; 43774; 8751;
  3; 17614; 63741; 247; 20; 25726; 69; 39071; 3; 166; 21853; 215; 61949; 54; 62974; 17519;
  3; 53726; 62717; 47615; 20; 29054; 85; 183; 3; 34990; 133; 56543; 37; 17486; 62206; 119;
  3; 198; 63741; 58607; 20; 21598; 69; 29567; 3; 150; 21853; 47295; 61949; 4382; 51438; 12863;
  2; 165; 132; 16510; 2; 4318; 36; 4575; 2; 29438; 68; 86; 2; 43182; 20; 45759;
  2; 150; 132; 102; 2; 198; 36; 231; 2; 51438; 68; 8750; 2; 34958; 20; 119;
  2; 165; 132; 110; 2; 35022; 36; 247; 2; 37374; 68; 54; 2; 41646; 20; 43695;
  2; 47358; 132; 94; 2; 190; 36; 50383; 2; 17646; 68; 62719; 2; 8766; 20; 4383;
  2; 165; 132; 16510; 2; 4318; 36; 39423; 2; 29438; 68; 86; 2; 43182; 20; 183;
  2; 150; 132; 102; 2; 198; 36; 215; 2; 51438; 68; 8750; 2; 34958; 20; 17487;
  2; 165; 132; 110; 2; 35022; 36; 58095; 2; 37374; 68; 54; 2; 41646; 20; 17535;
  2; 47358; 132; 94; 2; 190; 36; 159; 2; 17646; 68; 30463; 2; 8766; 20; 12607;
  3; 198; 133; 55807; 62205; 25726; 61950; 39359; 3; 41646; 37; 26351; 62717; 86; 58094; 29567;
  3; 39102; 69; 247; 63741; 102; 30462; 34975; 3; 34958; 21; 54751; 165; 8750; 39134; 17487;
  3; 45758; 133; 64767; 62205; 8814; 150; 183; 3; 43694; 37; 53727; 62717; 54; 54494; 25711;
  3; 43182; 69; 60143; 63741; 17502; 59630; 29055; 3; 12862; 21; 50383; 165; 64255; 35022; 12607;
  3; 198; 133; 30719; 62205; 25726; 61950; 46015; 3; 41646; 37; 231; 62717; 86; 58094; 119;
  3; 39102; 69; 58607; 63741; 102; 30462; 26239; 3; 34958; 21; 215; 165; 8750; 39134; 13119;
  3; 45758; 133; 30207; 62205; 8814; 150; 37279; 3; 43694; 37; 39391; 62717; 54; 54494; 20831;
  3; 43182; 69; 60655; 63741; 17502; 59630; 29311; 3; 12862; 21; 45503; 165; 62463; 35022; 4383;
  3; 21726; 62205; 4382; 20; 25726; 63742; 52431; 3; 37310; 69; 8943; 37; 8750; 62462; 34959;
  3; 198; 133; 247; 20; 4446; 64766; 43183; 3; 166; 53; 51423; 61949; 12606; 26366; 25711;
  3; 51406; 62205; 62975; 20; 102; 62718; 47807; 3; 8878; 69; 231; 37; 12862; 60158; 29567;
  3; 45758; 133; 21983; 20; 86; 29054; 4511; 3; 150; 53; 50383; 61949; 13118; 59630; 17487;
  3; 21726; 62205; 4382; 20; 25726; 63742; 39359; 3; 37310; 69; 58095; 37; 8750; 62462; 26239;
  3; 198; 133; 58607; 20; 4446; 64766; 39071; 3; 166; 53; 215; 61949; 12606; 26366; 8815;
  3; 51406; 62205; 47615; 20; 102; 62718; 183; 3; 8878; 69; 53727; 37; 12862; 60158; 119;
  3; 45758; 133; 60655; 20; 86; 29054; 29311; 3; 150; 53; 47295; 61949; 13118; 59630; 21599;
  61948; 53726; 64253; 215; 63740; 22; 65533; 29823; 62716; 29054; 62461; 46015; 62204; 60143; 59630; 17487;
  61948; 8878; 5; 47295; 63740; 247; 64766; 119; 62716; 4446; 62973; 30079; 62204; 55519; 58094; 13119;
  61948; 45758; 64253; 35023; 63740; 64511; 65533; 29567; 62716; 110; 62461; 183; 62204; 26351; 63998; 12607;
  61948; 158; 5; 47807; 63740; 65023; 63230; 103; 62716; 38; 62973; 34959; 62204; 56543; 54494; 8751;
  61948; 53726; 64253; 50383; 63740; 22; 65533; 29311; 62716; 29054; 62461; 39359; 62204; 60655; 59630; 71;
  61948; 8878; 5; 167; 63740; 63487; 64766; 87; 62716; 4446; 62973; 151; 62204; 54751; 58094; 55;
  61948; 45758; 64253; 199; 63740; 65279; 65533; 26239; 62716; 110; 62461; 43183; 62204; 231; 63998; 12863;
  61948; 158; 5; 45503; 63740; 58607; 63230; 21599; 62716; 38; 62973; 135; 62204; 39391; 54494; 4383].
(** t1_ht_luts.rs:80-150. *)
Definition vlc_tbl1 : list Z := [
  19; 101; 67; 222; 131; 34957; 35; 17486; 19; 165; 67; 34990; 131; 53; 35; 215;
  19; 197; 67; 158; 131; 85; 35; 8750; 19; 149; 67; 126; 131; 4350; 35; 119;
  19; 101; 67; 35022; 131; 34957; 35; 4382; 19; 165; 67; 94; 131; 53; 35; 231;
  19; 197; 67; 190; 131; 85; 35; 4607; 19; 149; 67; 62; 131; 16622; 35; 41647;
  19; 101; 67; 222; 131; 34957; 35; 17486; 19; 165; 67; 34990; 131; 53; 35; 17647;
  19; 197; 67; 158; 131; 85; 35; 8750; 19; 149; 67; 126; 131; 4350; 35; 183;
  19; 101; 67; 35022; 131; 34957; 35; 4382; 19; 165; 67; 94; 131; 53; 35; 50383;
  19; 197; 67; 190; 131; 85; 35; 247; 19; 149; 67; 62; 131; 16622; 35; 111;
  1; 132; 1; 86; 1; 20; 1; 215; 1; 36; 1; 150; 1; 69; 1; 119;
  1; 132; 1; 198; 1; 20; 1; 34959; 1; 36; 1; 247; 1; 53; 1; 8751;
  1; 132; 1; 16638; 1; 20; 1; 183; 1; 36; 1; 191; 1; 69; 1; 103;
  1; 132; 1; 166; 1; 20; 1; 17487; 1; 36; 1; 231; 1; 53; 1; 4415;
  1; 132; 1; 86; 1; 20; 1; 207; 1; 36; 1; 150; 1; 69; 1; 111;
  1; 132; 1; 198; 1; 20; 1; 159; 1; 36; 1; 239; 1; 53; 1; 12863;
  1; 132; 1; 16638; 1; 20; 1; 175; 1; 36; 1; 17663; 1; 69; 1; 95;
  1; 132; 1; 166; 1; 20; 1; 127; 1; 36; 1; 223; 1; 53; 1; 4383;
  1; 36; 1; 86; 1; 133; 1; 191; 1; 20; 1; 247; 1; 198; 1; 119;
  1; 36; 1; 63743; 1; 69; 1; 127; 1; 20; 1; 223; 1; 166; 1; 12607;
  1; 36; 1; 8750; 1; 133; 1; 183; 1; 20; 1; 17647; 1; 41646; 1; 103;
  1; 36; 1; 20991; 1; 69; 1; 151; 1; 20; 1; 207; 1; 54; 1; 8767;
  1; 36; 1; 86; 1; 133; 1; 45759; 1; 20; 1; 16623; 1; 198; 1; 111;
  1; 36; 1; 29439; 1; 69; 1; 159; 1; 20; 1; 215; 1; 166; 1; 17487;
  1; 36; 1; 8750; 1; 133; 1; 43183; 1; 20; 1; 231; 1; 41646; 1; 95;
  1; 36; 1; 17663; 1; 69; 1; 34959; 1; 20; 1; 43695; 1; 54; 1; 4383;
  2; 63742; 36; 86; 2; 182; 133; 26367; 2; 206; 20; 4382; 2; 150; 53; 43183;
  2; 246; 36; 12606; 2; 166; 69; 46015; 2; 45758; 20; 62975; 2; 102; 20862; 21599;
  2; 62206; 36; 8750; 2; 8878; 133; 17647; 2; 198; 20; 62719; 2; 118; 53; 17535;
  2; 16606; 36; 12862; 2; 158; 69; 215; 2; 35006; 20; 64255; 2; 4446; 61950; 17487;
  2; 63742; 36; 86; 2; 182; 133; 51439; 2; 206; 20; 4382; 2; 150; 53; 34959;
  2; 246; 36; 12606; 2; 166; 69; 17631; 2; 45758; 20; 43263; 2; 102; 20862; 111;
  2; 62206; 36; 8750; 2; 8878; 133; 231; 2; 198; 20; 58095; 2; 118; 53; 29311;
  2; 16606; 36; 12862; 2; 158; 69; 45503; 2; 35006; 20; 29695; 2; 4446; 61950; 13119;
  1; 132; 1; 8430; 1; 197; 1; 50383; 1; 68; 1; 13055; 1; 21; 1; 34959;
  1; 132; 1; 102; 1; 37; 1; 175; 1; 68; 1; 8943; 1; 166; 1; 95;
  1; 132; 1; 17486; 1; 197; 1; 52431; 1; 68; 1; 247; 1; 21; 1; 111;
  1; 132; 1; 86; 1; 37; 1; 159; 1; 68; 1; 223; 1; 12542; 1; 8751;
  1; 132; 1; 8430; 1; 197; 1; 51407; 1; 68; 1; 4607; 1; 21; 1; 119;
  1; 132; 1; 102; 1; 37; 1; 127; 1; 68; 1; 231; 1; 166; 1; 55;
  1; 132; 1; 17486; 1; 197; 1; 183; 1; 68; 1; 191; 1; 21; 1; 63;
  1; 132; 1; 86; 1; 37; 1; 151; 1; 68; 1; 215; 1; 12542; 1; 4383;
  2; 43246; 68; 34958; 2; 214; 197; 62463; 2; 64766; 37; 62; 2; 182; 85; 55519;
  2; 63742; 68; 102; 2; 8318; 133; 39423; 2; 230; 245; 54; 2; 166; 21; 159;
  2; 62206; 68; 118; 2; 17614; 197; 30463; 2; 61950; 37; 17486; 2; 174; 85; 51407;
  2; 62718; 68; 17502; 2; 4286; 133; 58607; 2; 21726; 245; 4382; 2; 150; 21; 8751;
  2; 43246; 68; 34958; 2; 214; 197; 64255; 2; 64766; 37; 62; 2; 182; 85; 4543;
  2; 63742; 68; 102; 2; 8318; 133; 8943; 2; 230; 245; 54; 2; 166; 21; 8831;
  2; 62206; 68; 118; 2; 17614; 197; 54783; 2; 61950; 37; 17486; 2; 174; 85; 111;
  2; 62718; 68; 17502; 2; 4286; 133; 4575; 2; 21726; 245; 4382; 2; 150; 21; 20831;
  3; 246; 20; 4382; 68; 34958; 165; 54495; 3; 41646; 85; 30463; 36; 8766; 182; 43695;
  3; 230; 20; 62975; 68; 102; 133; 52431; 3; 158; 197; 17647; 36; 54; 63742; 12671;
  3; 59630; 20; 61951; 68; 118; 165; 50383; 3; 8830; 85; 53727; 36; 17486; 62718; 20831;
  3; 214; 20; 58095; 68; 17502; 133; 8895; 3; 150; 197; 51423; 36; 8750; 62206; 8815;
  3; 246; 20; 4382; 68; 34958; 165; 45503; 3; 41646; 85; 13311; 36; 8766; 182; 43183;
  3; 230; 20; 47615; 68; 102; 133; 43199; 3; 158; 197; 58607; 36; 54; 63742; 25711;
  3; 59630; 20; 64767; 68; 118; 165; 51407; 3; 8830; 85; 60143; 36; 17486; 62718; 29823;
  3; 214; 20; 64255; 68; 17502; 133; 45759; 3; 150; 197; 17631; 36; 8750; 62206; 12607;
  243; 64254; 61949; 54; 4; 12990; 117; 4575; 243; 21726; 62205; 58607; 213; 29054; 64766; 29567;
  243; 62462; 63741; 4382; 4; 150; 85; 45503; 243; 206; 181; 55519; 62717; 102; 47614; 21599;
  243; 30462; 61949; 38; 4; 166; 117; 159; 243; 174; 62205; 63487; 213; 70; 62974; 29823;
  243; 230; 63741; 22; 4; 134; 85; 34959; 243; 198; 181; 58095; 62717; 4446; 43246; 4415;
  243; 64254; 61949; 54; 4; 12990; 117; 53727; 243; 21726; 62205; 64511; 213; 29054; 64766; 17535;
  243; 62462; 63741; 4382; 4; 150; 85; 29311; 243; 206; 181; 8943; 62717; 102; 47614; 17487;
  243; 30462; 61949; 38; 4; 166; 117; 4543; 243; 174; 62205; 65535; 213; 70; 62974; 12863;
  243; 230; 63741; 22; 4; 134; 85; 111; 243; 198; 181; 47295; 62717; 4446; 43246; 8751].
