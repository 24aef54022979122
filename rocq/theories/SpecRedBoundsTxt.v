(** The bounds that src/red-bounds.txt lists for the tables of src/test_ntt_red_tables.c. *)

From Coq Require Import ZArith List.
From Verif Require Import Spec SpecNotes.
Import ListNotations.
Open Scope Z_scope.

(** [c] bounds the results of the Cooley-Tukey butterflies with the constants p[t], .., p[2t-1], of
    operands bounded by [b]. *)
Definition ct_row (p : list Z) (t b c : Z) : Prop :=
  forall j x y, 0 <= j < t -> Z.abs x <= b -> Z.abs y <= b ->
    Z.abs (x + ln_red (at_ p (t + j) * y)) <= c /\ Z.abs (x - ln_red (at_ p (t + j) * y)) <= c.
(** The same for the Gentleman-Sande butterflies. *)
Definition gs_row (p : list Z) (t b c : Z) : Prop :=
  forall j x y, 0 <= j < t -> Z.abs x <= b -> Z.abs y <= b ->
    Z.abs (x + y) <= c /\ Z.abs (ln_red (at_ p (t + j) * (x - y))) <= c.

(** B[0], B[1], .. are the best bounds for the rounds of a transform of size [n]: one more than the
    rounds, and each the least bound that follows from the one before.  Round i of Cooley-Tukey has
    the constants from p[2^i], round i of Gentleman-Sande those from p[n/2^(i+1)]. *)
Definition ct_best (n : Z) (p B : list Z) : Prop :=
  n = 2 ^ (zlen B - 1) /\ forall i, 0 <= i < zlen B - 1 -> least (ct_row p (2 ^ i)) (at_ B i) (at_ B (i + 1)).
Definition gs_best (n : Z) (p B : list Z) : Prop :=
  n = 2 ^ (zlen B - 1) /\ forall i, 0 <= i < zlen B - 1 -> least (gs_row p (n / 2 ^ (i + 1))) (at_ B i) (at_ B (i + 1)).

(** src/red-bounds.txt 279-2566, transcribed by a script: for each function the sequences after
    "CT:" and "GS:", for the four bounds on the input. *)
Definition listed : list (list (list Z * list Z)) := [
  (* ntt16_red_ct_rev2std, 279-340 *)
  [
    ([6144; 12288; 26031; 72770; 181573],
     [6144; 28504; 87920; 175840; 351680]);
    ([12288; 24576; 49152; 126652; 307120],
     [12288; 44836; 131355; 262710; 525420]);
    ([21499; 42998; 85996; 212492; 507050],
     [21499; 69334; 196449; 392898; 785796]);
    ([36864; 73728; 147456; 355612; 840359],
     [36864; 110164; 304978; 609956; 1219912])
  ];
  (* ntt16_red_ct_std2rev, 341-402 *)
  [
    ([6144; 12288; 26031; 72770; 181573],
     [6144; 28504; 87920; 175840; 351680]);
    ([12288; 24576; 49152; 126652; 307120],
     [12288; 44836; 131355; 262710; 525420]);
    ([21499; 42998; 85996; 212492; 507050],
     [21499; 69334; 196449; 392898; 785796]);
    ([36864; 73728; 147456; 355612; 840359],
     [36864; 110164; 304978; 609956; 1219912])
  ];
  (* mulntt16_red_ct_rev2std, 403-464 *)
  [
    ([6144; 19160; 56840; 128675; 306640],
     [6144; 27969; 71040; 201000; 402000]);
    ([12288; 26031; 72770; 161548; 381880],
     [12288; 43800; 104761; 290592; 581184]);
    ([21499; 36370; 96836; 211186; 495402],
     [21499; 67622; 155470; 425448; 850896]);
    ([36864; 53565; 136934; 293889; 684765],
     [36864; 107124; 238908; 647291; 1294582])
  ];
  (* mulntt16_red_ct_std2rev, 465-526 *)
  [
    ([6144; 19160; 56840; 128675; 306640],
     [6144; 27969; 71040; 201000; 402000]);
    ([12288; 26031; 72770; 161548; 381880],
     [12288; 43800; 104761; 290592; 581184]);
    ([21499; 36370; 96836; 211186; 495402],
     [21499; 67622; 155470; 425448; 850896]);
    ([36864; 53565; 136934; 293889; 684765],
     [36864; 107124; 238908; 647291; 1294582])
  ];
  (* ntt128_red_ct_rev2std, 527-612 *)
  [
    ([6144; 12288; 26031; 72770; 181573; 435067; 1088689; 2705913],
     [6144; 30252; 101326; 281533; 760605; 2034033; 4068066; 8136132]);
    ([12288; 24576; 49152; 126652; 307120; 727475; 1812286; 4496320],
     [12288; 48318; 154696; 423268; 1137368; 3035495; 6070990; 12141980]);
    ([21499; 42998; 85996; 212492; 507050; 1193108; 2964381; 7347140],
     [21499; 75513; 234838; 636403; 1703895; 4541463; 9082926; 18165852]);
    ([36864; 73728; 147456; 355612; 840359; 1969444; 4885271; 12100103],
     [36864; 120751; 368132; 990731; 2645707; 7045001; 14090002; 28180004])
  ];
  (* ntt128_red_ct_std2rev, 613-698 *)
  [
    ([6144; 12288; 26031; 72770; 181573; 435067; 1088689; 2705913],
     [6144; 30252; 101326; 281533; 760605; 2034033; 4068066; 8136132]);
    ([12288; 24576; 49152; 126652; 307120; 727475; 1812286; 4496320],
     [12288; 48318; 154696; 423268; 1137368; 3035495; 6070990; 12141980]);
    ([21499; 42998; 85996; 212492; 507050; 1193108; 2964381; 7347140],
     [21499; 75513; 234838; 636403; 1703895; 4541463; 9082926; 18165852]);
    ([36864; 73728; 147456; 355612; 840359; 1969444; 4885271; 12100103],
     [36864; 120751; 368132; 990731; 2645707; 7045001; 14090002; 28180004])
  ];
  (* mulntt128_red_ct_rev2std, 699-784 *)
  [
    ([6144; 19160; 56840; 128675; 306640; 770851; 1855285; 4384731],
     [6144; 28132; 90440; 278877; 730693; 1559081; 4156491; 8312982]);
    ([12288; 26031; 72770; 161548; 381880; 957104; 2300797; 5435290],
     [12288; 44755; 136638; 415027; 1081603; 2302675; 6133131; 12266262]);
    ([21499; 36370; 96836; 211186; 495402; 1237952; 2972265; 7018174],
     [21499; 69764; 206328; 620571; 1611069; 3423526; 9112594; 18225188]);
    ([36864; 53565; 136934; 293889; 684765; 1706548; 4092668; 9659100],
     [36864; 111463; 322179; 962156; 2491294; 5287701; 14067995; 28135990])
  ];
  (* mulntt128_red_ct_std2rev, 785-870 *)
  [
    ([6144; 19160; 56840; 128675; 306640; 770851; 1855285; 4384731],
     [6144; 28132; 90440; 278877; 730693; 1559081; 4156491; 8312982]);
    ([12288; 26031; 72770; 161548; 381880; 957104; 2300797; 5435290],
     [12288; 44755; 136638; 415027; 1081603; 2302675; 6133131; 12266262]);
    ([21499; 36370; 96836; 211186; 495402; 1237952; 2972265; 7018174],
     [21499; 69764; 206328; 620571; 1611069; 3423526; 9112594; 18225188]);
    ([36864; 53565; 136934; 293889; 684765; 1706548; 4092668; 9659100],
     [36864; 111463; 322179; 962156; 2491294; 5287701; 14067995; 28135990])
  ];
  (* ntt256_red_ct_rev2std, 871-964 *)
  [
    ([6144; 12288; 26031; 72770; 181573; 435067; 1088689; 2705913; 6707561],
     [6144; 30252; 101326; 310816; 838299; 2240437; 5967791; 11935582; 23871164]);
    ([12288; 24576; 49152; 126652; 307120; 727475; 1812286; 4496320; 11137665],
     [12288; 48318; 154696; 468397; 1257253; 3354203; 8928274; 17856548; 35713096]);
    ([21499; 42998; 85996; 212492; 507050; 1193108; 2964381; 7347140; 18191629],
     [21499; 75513; 234838; 704681; 1885333; 5023682; 13366187; 26732374; 53464748]);
    ([36864; 73728; 147456; 355612; 840359; 1969444; 4885271; 12100103; 29952252],
     [36864; 120751; 368132; 1097652; 2930039; 7800824; 20748368; 41496736; 82993472])
  ];
  (* ntt256_red_ct_std2rev, 965-1058 *)
  [
    ([6144; 12288; 26031; 72770; 181573; 435067; 1088689; 2705913; 6707561],
     [6144; 30252; 101326; 310816; 838299; 2240437; 5967791; 11935582; 23871164]);
    ([12288; 24576; 49152; 126652; 307120; 727475; 1812286; 4496320; 11137665],
     [12288; 48318; 154696; 468397; 1257253; 3354203; 8928274; 17856548; 35713096]);
    ([21499; 42998; 85996; 212492; 507050; 1193108; 2964381; 7347140; 18191629],
     [21499; 75513; 234838; 704681; 1885333; 5023682; 13366187; 26732374; 53464748]);
    ([36864; 73728; 147456; 355612; 840359; 1969444; 4885271; 12100103; 29952252],
     [36864; 120751; 368132; 1097652; 2930039; 7800824; 20748368; 41496736; 82993472])
  ];
  (* mulntt256_red_ct_rev2std, 1059-1152 *)
  [
    ([6144; 19160; 56840; 128675; 306640; 770851; 1855285; 4384731; 10724646],
     [6144; 29862; 93200; 271462; 812729; 2106224; 4472270; 11900390; 23800780]);
    ([12288; 26031; 72770; 161548; 381880; 957104; 2300797; 5435290; 13291078],
     [12288; 47595; 141056; 404579; 1205264; 3117728; 6614388; 17594580; 35189160]);
    ([21499; 36370; 96836; 211186; 495402; 1237952; 2972265; 7018174; 17158386],
     [21499; 74255; 213388; 605802; 1798503; 4646378; 9851275; 26198939; 52397878]);
    ([36864; 53565; 136934; 293889; 684765; 1706548; 4092668; 9659100; 23610479],
     [36864; 118527; 333355; 939663; 2782969; 7182935; 15223198; 40478551; 80957102])
  ];
  (* mulntt256_red_ct_std2rev, 1153-1246 *)
  [
    ([6144; 19160; 56840; 128675; 306640; 770851; 1855285; 4384731; 10724646],
     [6144; 29862; 93200; 271462; 812729; 2106224; 4472270; 11900390; 23800780]);
    ([12288; 26031; 72770; 161548; 381880; 957104; 2300797; 5435290; 13291078],
     [12288; 47595; 141056; 404579; 1205264; 3117728; 6614388; 17594580; 35189160]);
    ([21499; 36370; 96836; 211186; 495402; 1237952; 2972265; 7018174; 17158386],
     [21499; 74255; 213388; 605802; 1798503; 4646378; 9851275; 26198939; 52397878]);
    ([36864; 53565; 136934; 293889; 684765; 1706548; 4092668; 9659100; 23610479],
     [36864; 118527; 333355; 939663; 2782969; 7182935; 15223198; 40478551; 80957102])
  ];
  (* ntt512_red_ct_rev2std, 1247-1348 *)
  [
    ([6144; 12288; 26031; 72770; 181573; 435067; 1088689; 2705913; 6707561; 16609203],
     [6144; 30252; 101326; 310816; 928669; 2480792; 6606525; 17573580; 35147160; 70294320]);
    ([12288; 24576; 49152; 126652; 307120; 727475; 1812286; 4496320; 11137665; 27570867],
     [12288; 48318; 154696; 468397; 1393345; 3715878; 9889725; 26301131; 52602262; 105204524]);
    ([21499; 42998; 85996; 212492; 507050; 1193108; 2964381; 7347140; 18191629; 45024861],
     [21499; 75513; 234838; 704681; 2090141; 5568199; 14813589; 39389751; 78779502; 157559004]);
    ([36864; 73728; 147456; 355612; 840359; 1969444; 4885271; 12100103; 29952252; 74125001],
     [36864; 120751; 368132; 1097652; 3248735; 8647908; 23000004; 61150897; 122301794; 244603588])
  ];
  (* ntt512_red_ct_std2rev, 1349-1450 *)
  [
    ([6144; 12288; 26031; 72770; 181573; 435067; 1088689; 2705913; 6707561; 16609203],
     [6144; 30252; 101326; 310816; 928669; 2480792; 6606525; 17573580; 35147160; 70294320]);
    ([12288; 24576; 49152; 126652; 307120; 727475; 1812286; 4496320; 11137665; 27570867],
     [12288; 48318; 154696; 468397; 1393345; 3715878; 9889725; 26301131; 52602262; 105204524]);
    ([21499; 42998; 85996; 212492; 507050; 1193108; 2964381; 7347140; 18191629; 45024861],
     [21499; 75513; 234838; 704681; 2090141; 5568199; 14813589; 39389751; 78779502; 157559004]);
    ([36864; 73728; 147456; 355612; 840359; 1969444; 4885271; 12100103; 29952252; 74125001],
     [36864; 120751; 368132; 1097652; 3248735; 8647908; 23000004; 61150897; 122301794; 244603588])
  ];
  (* mulntt512_red_ct_rev2std, 1451-1552 *)
  [
    ([6144; 19160; 56840; 128675; 306640; 770851; 1855285; 4384731; 10724646; 26818219],
     [6144; 30700; 100755; 285421; 806153; 2389344; 6168717; 13075573; 34769698; 69539396]);
    ([12288; 26031; 72770; 161548; 381880; 957104; 2300797; 5435290; 13291078; 33232614],
     [12288; 49126; 153954; 429864; 1208169; 3574623; 9222743; 19542850; 51961074; 103922148]);
    ([21499; 36370; 96836; 211186; 495402; 1237952; 2972265; 7018174; 17158386; 42899498],
     [21499; 76705; 233614; 646275; 1810315; 5350198; 13797816; 29231423; 77715277; 155430554]);
    ([36864; 53565; 136934; 293889; 684765; 1706548; 4092668; 9659100; 23610479; 59026784],
     [36864; 122830; 366551; 1006384; 2812156; 8304490; 21410050; 45351737; 120566245; 241132490])
  ];
  (* mulntt512_red_ct_std2rev, 1553-1654 *)
  [
    ([6144; 19160; 56840; 128675; 306640; 770851; 1855285; 4384731; 10724646; 26818219],
     [6144; 30700; 100755; 285421; 806153; 2389344; 6168717; 13075573; 34769698; 69539396]);
    ([12288; 26031; 72770; 161548; 381880; 957104; 2300797; 5435290; 13291078; 33232614],
     [12288; 49126; 153954; 429864; 1208169; 3574623; 9222743; 19542850; 51961074; 103922148]);
    ([21499; 36370; 96836; 211186; 495402; 1237952; 2972265; 7018174; 17158386; 42899498],
     [21499; 76705; 233614; 646275; 1810315; 5350198; 13797816; 29231423; 77715277; 155430554]);
    ([36864; 53565; 136934; 293889; 684765; 1706548; 4092668; 9659100; 23610479; 59026784],
     [36864; 122830; 366551; 1006384; 2812156; 8304490; 21410050; 45351737; 120566245; 241132490])
  ];
  (* ntt1024_red_ct_rev2std, 1655-1764 *)
  [
    ([6144; 12288; 26031; 72770; 181573; 435067; 1088689; 2705913; 6707561; 16609203; 41526717],
     [6144; 30700; 102634; 314893; 940638; 2785825; 7417373; 19728979; 52455776; 104911552; 209823104]);
    ([12288; 24576; 49152; 126652; 307120; 727475; 1812286; 4496320; 11137665; 27570867; 68924943],
     [12288; 49126; 156985; 475090; 1412988; 4178632; 11119835; 29570912; 78617620; 157235240; 314470480]);
    ([21499; 42998; 85996; 212492; 507050; 1193108; 2964381; 7347140; 18191629; 45024861; 112551542],
     [21499; 76705; 238239; 714666; 2119442; 6261760; 16657202; 44290361; 117744892; 235489784; 470979568]);
    ([36864; 73728; 147456; 355612; 840359; 1969444; 4885271; 12100103; 29952252; 74125001; 185287521],
     [36864; 122830; 374280; 1115769; 3302214; 9749446; 25928217; 68934573; 183254256; 366508512; 733017024])
  ];
  (* ntt1024_red_ct_std2rev, 1765-1874 *)
  [
    ([6144; 12288; 26031; 72770; 181573; 435067; 1088689; 2705913; 6707561; 16609203; 41526717],
     [6144; 30700; 102634; 314893; 940638; 2785825; 7417373; 19728979; 52455776; 104911552; 209823104]);
    ([12288; 24576; 49152; 126652; 307120; 727475; 1812286; 4496320; 11137665; 27570867; 68924943],
     [12288; 49126; 156985; 475090; 1412988; 4178632; 11119835; 29570912; 78617620; 157235240; 314470480]);
    ([21499; 42998; 85996; 212492; 507050; 1193108; 2964381; 7347140; 18191629; 45024861; 112551542],
     [21499; 76705; 238239; 714666; 2119442; 6261760; 16657202; 44290361; 117744892; 235489784; 470979568]);
    ([36864; 73728; 147456; 355612; 840359; 1969444; 4885271; 12100103; 29952252; 74125001; 185287521],
     [36864; 122830; 374280; 1115769; 3302214; 9749446; 25928217; 68934573; 183254256; 366508512; 733017024])
  ];
  (* mulntt1024_red_ct_rev2std, 1875-1984 *)
  [
    ([6144; 19160; 56840; 128675; 306640; 770851; 1855285; 4384731; 10724646; 26818219; 67018519],
     [6144; 30664; 103920; 312123; 858791; 2401593; 7093834; 18290546; 38745059; 103004486; 206008972]);
    ([12288; 26031; 72770; 161548; 381880; 957104; 2300797; 5435290; 13291078; 33232614; 83045022],
     [12288; 49078; 159144; 471482; 1291678; 3605799; 10644766; 27440067; 58121110; 154509936; 309019872]);
    ([21499; 36370; 96836; 211186; 495402; 1237952; 2972265; 7018174; 17158386; 42899498; 107198091],
     [21499; 76543; 241571; 709350; 1937081; 5401590; 15939966; 41084063; 87014594; 231314547; 462629094]);
    ([36864; 53565; 136934; 293889; 684765; 1706548; 4092668; 9659100; 23610479; 59026784; 147492742],
     [36864; 122734; 380061; 1109156; 3022780; 8422144; 24846728; 64033736; 135614626; 360503389; 721006778])
  ];
  (* mulntt1024_red_ct_std2rev, 1985-2094 *)
  [
    ([6144; 19160; 56840; 128675; 306640; 770851; 1855285; 4384731; 10724646; 26818219; 67018519],
     [6144; 30664; 103920; 312123; 858791; 2401593; 7093834; 18290546; 38745059; 103004486; 206008972]);
    ([12288; 26031; 72770; 161548; 381880; 957104; 2300797; 5435290; 13291078; 33232614; 83045022],
     [12288; 49078; 159144; 471482; 1291678; 3605799; 10644766; 27440067; 58121110; 154509936; 309019872]);
    ([21499; 36370; 96836; 211186; 495402; 1237952; 2972265; 7018174; 17158386; 42899498; 107198091],
     [21499; 76543; 241571; 709350; 1937081; 5401590; 15939966; 41084063; 87014594; 231314547; 462629094]);
    ([36864; 53565; 136934; 293889; 684765; 1706548; 4092668; 9659100; 23610479; 59026784; 147492742],
     [36864; 122734; 380061; 1109156; 3022780; 8422144; 24846728; 64033736; 135614626; 360503389; 721006778])
  ];
  (* ntt2048_red_ct_rev2std, 2095-2212 *)
  [
    ([6144; 12288; 26031; 72770; 181573; 435067; 1088689; 2705913; 6707561; 16609203; 41526717; 103808130],
     [6144; 30700; 104119; 319166; 953261; 2823040; 8336429; 22172048; 58950043; 156713395; 313426790; 626853580]);
    ([12288; 24576; 49152; 126652; 307120; 727475; 1812286; 4496320; 11137665; 27570867; 68924943; 172290194],
     [12288; 49126; 159307; 481892; 1433089; 4237932; 12508615; 33262646; 88430972; 235079658; 470159316; 940318632]);
    ([21499; 42998; 85996; 212492; 507050; 1193108; 2964381; 7347140; 18191629; 45024861; 112551542; 281335235],
     [21499; 76705; 241980; 725763; 2152166; 6358275; 18761073; 49882944; 132611212; 352519646; 705039292; 1410078584]);
    ([36864; 73728; 147456; 355612; 840359; 1969444; 4885271; 12100103; 29952252; 74125001; 185287521; 463139665],
     [36864; 122830; 380061; 1132905; 3352837; 9898786; 29200956; 77634159; 206379432; 548610623; 1097221246; 2194442492])
  ];
  (* ntt2048_red_ct_std2rev, 2213-2330 *)
  [
    ([6144; 12288; 26031; 72770; 181573; 435067; 1088689; 2705913; 6707561; 16609203; 41526717; 103808130],
     [6144; 30700; 104119; 319166; 953261; 2823040; 8336429; 22172048; 58950043; 156713395; 313426790; 626853580]);
    ([12288; 24576; 49152; 126652; 307120; 727475; 1812286; 4496320; 11137665; 27570867; 68924943; 172290194],
     [12288; 49126; 159307; 481892; 1433089; 4237932; 12508615; 33262646; 88430972; 235079658; 470159316; 940318632]);
    ([21499; 42998; 85996; 212492; 507050; 1193108; 2964381; 7347140; 18191629; 45024861; 112551542; 281335235],
     [21499; 76705; 241980; 725763; 2152166; 6358275; 18761073; 49882944; 132611212; 352519646; 705039292; 1410078584]);
    ([36864; 73728; 147456; 355612; 840359; 1969444; 4885271; 12100103; 29952252; 74125001; 185287521; 463139665],
     [36864; 122830; 380061; 1132905; 3352837; 9898786; 29200956; 77634159; 206379432; 548610623; 1097221246; 2194442492])
  ];
  (* mulntt2048_red_ct_rev2std, 2331-2448 *)
  [
    ([6144; 19160; 56840; 128675; 306640; 770851; 1855285; 4384731; 10724646; 26818219; 67018519; 167476489],
     [6144; 30673; 103986; 323988; 947218; 2583359; 7199616; 21241772; 54744945; 115943659; 308213886; 616427772]);
    ([12288; 26031; 72770; 161548; 381880; 957104; 2300797; 5435290; 13291078; 33232614; 83045022; 207523054],
     [12288; 49090; 159057; 488780; 1422915; 3874087; 10790670; 31830886; 82029512; 173723845; 461805458; 923610916]);
    ([21499; 36370; 96836; 211186; 495402; 1237952; 2972265; 7018174; 17158386; 42899498; 107198091; 267876598],
     [21499; 76567; 241415; 735559; 2135091; 5807631; 16170196; 47693704; 122902591; 260280101; 691889547; 1383779094]);
    ([36864; 53565; 136934; 293889; 684765; 1706548; 4092668; 9659100; 23610479; 59026784; 147492742; 368563645],
     [36864; 122758; 380025; 1151615; 3335976; 9066609; 25237642; 74431213; 191796066; 406173854; 1079704785; 2159409570])
  ];
  (* mulntt2048_red_ct_std2rev, 2449-2566 *)
  [
    ([6144; 19160; 56840; 128675; 306640; 770851; 1855285; 4384731; 10724646; 26818219; 67018519; 167476489],
     [6144; 30673; 103986; 323988; 947218; 2583359; 7199616; 21241772; 54744945; 115943659; 308213886; 616427772]);
    ([12288; 26031; 72770; 161548; 381880; 957104; 2300797; 5435290; 13291078; 33232614; 83045022; 207523054],
     [12288; 49090; 159057; 488780; 1422915; 3874087; 10790670; 31830886; 82029512; 173723845; 461805458; 923610916]);
    ([21499; 36370; 96836; 211186; 495402; 1237952; 2972265; 7018174; 17158386; 42899498; 107198091; 267876598],
     [21499; 76567; 241415; 735559; 2135091; 5807631; 16170196; 47693704; 122902591; 260280101; 691889547; 1383779094]);
    ([36864; 53565; 136934; 293889; 684765; 1706548; 4092668; 9659100; 23610479; 59026784; 147492742; 368563645],
     [36864; 122758; 380025; 1151615; 3335976; 9066609; 25237642; 74431213; 191796066; 406173854; 1079704785; 2159409570])
  ]
].
