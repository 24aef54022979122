(** Lemmas behind [PropRedBoundsTxt]. *)

From Coq Require Import ZArith List Bool Lia.
From Verif Require Import CSem Spec SpecNotes SpecRedBoundsTxt Loops ModQ ModelBounds ModelTestTables ModelTestRedBounds RedElem BoundsElem BoundsRound BoundsNtt.
From Verif Require Import TestRedBoundsElem TestRedBoundsTabs BoundsFinal TestRedBoundsFinal RedBoundsTxtElem.
From Verif Require ModelRed.
Import ListNotations.
Open Scope Z_scope.

(** For each round of each sequence a constant of the row and an operand for which the bound is
    attained; not used where the bound is twice the one before *)
Definition certs : list (list (list (Z * Z) * list (Z * Z))) := [
  [
    ([(0, 6144); (1, -12180); (1, -25992); (2, -72625)],
     [(2, -12209); (1, -56949); (0, 0); (0, 0)]);
    ([(0, 12288); (0, 24576); (1, -49073); (2, -126581)],
     [(2, -24497); (1, -89638); (0, 0); (0, 0)]);
    ([(0, 21499); (0, 42998); (1, -85937); (2, -212439)],
     [(2, -42929); (1, -138632); (0, 0); (0, 0)]);
    ([(0, 36864); (0, 73728); (1, -147377); (2, -355562)],
     [(2, -73649); (1, -220315); (0, 0); (0, 0)])
  ];
  [
    ([(0, 6144); (1, -12180); (2, -25992); (2, -72625)],
     [(2, -12209); (2, -56949); (0, 0); (0, 0)]);
    ([(0, 12288); (0, 24576); (2, -49073); (2, -126581)],
     [(2, -24497); (2, -89638); (0, 0); (0, 0)]);
    ([(0, 21499); (0, 42998); (2, -85937); (2, -212439)],
     [(2, -42929); (2, -138632); (0, 0); (0, 0)]);
    ([(0, 36864); (0, 73728); (2, -147377); (2, -355562)],
     [(2, -73649); (2, -220315); (0, 0); (0, 0)])
  ];
  [
    ([(0, -6090); (0, -19140); (3, 56835); (1, -128672)],
     [(1, -12236); (3, 55934); (0, -142020); (0, 0)]);
    ([(0, -12180); (0, -25992); (3, 72760); (1, -161492)],
     [(1, -24524); (3, 87597); (0, -209446); (0, 0)]);
    ([(0, -21477); (0, -36311); (3, 96826); (1, -211081)],
     [(1, -42982); (3, 135236); (0, -310901); (0, 0)]);
    ([(0, -36756); (0, -53561); (3, 136919); (1, -293875)],
     [(1, -73676); (3, 214233); (0, -477813); (0, 0)])
  ];
  [
    ([(0, -6090); (0, -19140); (3, 56835); (4, -128672)],
     [(4, -12236); (3, 55934); (0, -142020); (0, 0)]);
    ([(0, -12180); (0, -25992); (3, 72760); (4, -161492)],
     [(4, -24524); (3, 87597); (0, -209446); (0, 0)]);
    ([(0, -21477); (0, -36311); (3, 96826); (4, -211081)],
     [(4, -42982); (3, 135236); (0, -310901); (0, 0)]);
    ([(0, -36756); (0, -53561); (3, 136919); (4, -293875)],
     [(4, -73676); (3, 214233); (0, -477813); (0, 0)])
  ];
  [
    ([(0, 6144); (1, -12180); (1, -25992); (2, -72625); (4, -181561); (9, 435034); (18, 1088619)],
     [(58, -12271); (9, 60445); (4, -202594); (2, -563042); (1, -1521190); (0, 0); (0, 0)]);
    ([(0, 12288); (0, 24576); (1, -49073); (2, -126581); (4, -307042); (9, 727469); (18, 1812226)],
     [(58, -24559); (9, 96607); (4, -309324); (2, -846532); (1, -2274696); (0, 0); (0, 0)]);
    ([(0, 21499); (0, 42998); (1, -85937); (2, -212439); (4, -507035); (9, 1193106); (18, 2964353)],
     [(18, 42988); (9, 151025); (4, -469621); (2, -1272753); (1, -3407714); (0, 0); (0, 0)]);
    ([(0, 36864); (0, 73728); (1, -147377); (2, -355562); (4, -840309); (9, 1969415); (18, 4885221)],
     [(18, 73669); (9, 241449); (4, -736177); (2, -1981361); (1, -5291400); (0, 0); (0, 0)])
  ];
  [
    ([(0, 6144); (1, -12180); (2, -25992); (2, -72625); (2, -181561); (18, 435034); (18, 1088619)],
     [(23, -12271); (18, 60445); (2, -202594); (2, -563042); (2, -1521190); (0, 0); (0, 0)]);
    ([(0, 12288); (0, 24576); (2, -49073); (2, -126581); (2, -307042); (18, 727469); (18, 1812226)],
     [(23, -24559); (18, 96607); (2, -309324); (2, -846532); (2, -2274696); (0, 0); (0, 0)]);
    ([(0, 21499); (0, 42998); (2, -85937); (2, -212439); (2, -507035); (18, 1193106); (18, 2964353)],
     [(18, 42988); (18, 151025); (2, -469621); (2, -1272753); (2, -3407714); (0, 0); (0, 0)]);
    ([(0, 36864); (0, 73728); (2, -147377); (2, -355562); (2, -840309); (18, 1969415); (18, 4885221)],
     [(18, 73669); (18, 241449); (2, -736177); (2, -1981361); (2, -5291400); (0, 0); (0, 0)])
  ];
  [
    ([(0, -6090); (0, -19140); (3, -56835); (5, -128672); (4, 306595); (7, -770723); (37, -1855281)],
     [(43, -12235); (7, -56196); (4, 180848); (5, -557715); (3, -1461372); (0, -3118156); (0, 0)]);
    ([(0, -12180); (0, -25992); (3, -72760); (5, -161492); (4, 381864); (7, -957091); (37, -2300793)],
     [(37, -24565); (7, -89414); (4, 273203); (5, -830014); (3, -2163198); (0, -4605320); (0, 0)]);
    ([(0, -21477); (0, -36311); (3, -96826); (5, -211081); (4, 495401); (7, -1237892); (37, -2972257)],
     [(37, -42990); (7, -139489); (4, 412623); (5, -1241036); (3, -3222125); (0, -6847014); (0, 0)]);
    ([(0, -36756); (0, -53561); (3, -136919); (5, -293875); (4, 684734); (7, -1706434); (37, -4092660)],
     [(37, -73717); (7, -222915); (4, 644320); (5, -1924305); (3, -4982572); (0, -10575398); (0, 0)])
  ];
  [
    ([(0, -6090); (0, -19140); (3, -56835); (5, -128672); (2, 306595); (28, -770723); (41, -1855281)],
     [(53, -12235); (28, -56196); (2, 180848); (5, -557715); (3, -1461372); (0, -3118156); (0, 0)]);
    ([(0, -12180); (0, -25992); (3, -72760); (5, -161492); (2, 381864); (28, -957091); (41, -2300793)],
     [(41, -24565); (28, -89414); (2, 273203); (5, -830014); (3, -2163198); (0, -4605320); (0, 0)]);
    ([(0, -21477); (0, -36311); (3, -96826); (5, -211081); (2, 495401); (28, -1237892); (41, -2972257)],
     [(41, -42990); (28, -139489); (2, 412623); (5, -1241036); (3, -3222125); (0, -6847014); (0, 0)]);
    ([(0, -36756); (0, -53561); (3, -136919); (5, -293875); (2, 684734); (28, -1706434); (41, -4092660)],
     [(41, -73717); (28, -222915); (2, 644320); (5, -1924305); (3, -4982572); (0, -10575398); (0, 0)])
  ];
  [
    ([(0, 6144); (1, 12180); (3, 25992); (6, 72625); (12, 181561); (31, -435034); (62, -1088619); (124, -2705837)],
     [(44, -12271); (62, -60445); (31, -202576); (12, 621489); (6, 1676522); (3, 4480866); (0, 0); (0, 0)]);
    ([(0, 12288); (0, 24576); (3, 49073); (6, 126581); (12, 307042); (31, -727469); (62, -1812226); (124, -4496257)],
     [(44, -24559); (62, -96607); (31, -309365); (12, 936723); (6, 2514470); (3, 6708379); (0, 0); (0, 0)]);
    ([(0, 21499); (0, 42998); (3, 85937); (6, 212439); (12, 507035); (31, -1193106); (62, -2964353); (124, -7347073)],
     [(124, -42988); (62, -151025); (31, -469655); (12, 1409337); (6, 3770602); (3, 10047330); (0, 0); (0, 0)]);
    ([(0, 36864); (0, 73728); (3, 147377); (6, 355562); (12, 840309); (31, -1969415); (62, -4885221); (124, -12100052)],
     [(124, -73669); (62, -241449); (31, -736207); (12, 2195298); (6, 5860036); (3, 15601585); (0, 0); (0, 0)])
  ];
  [
    ([(0, 6144); (1, 12180); (3, 25992); (3, 72625); (3, 181561); (31, -435034); (31, -1088619); (31, -2705837)],
     [(26, -12271); (31, -60445); (31, -202576); (3, 621489); (3, 1676522); (3, 4480866); (0, 0); (0, 0)]);
    ([(0, 12288); (0, 24576); (3, 49073); (3, 126581); (3, 307042); (31, -727469); (31, -1812226); (31, -4496257)],
     [(26, -24559); (31, -96607); (31, -309365); (3, 936723); (3, 2514470); (3, 6708379); (0, 0); (0, 0)]);
    ([(0, 21499); (0, 42998); (3, 85937); (3, 212439); (3, 507035); (31, -1193106); (31, -2964353); (31, -7347073)],
     [(31, -42988); (31, -151025); (31, -469655); (3, 1409337); (3, 3770602); (3, 10047330); (0, 0); (0, 0)]);
    ([(0, 36864); (0, 73728); (3, 147377); (3, 355562); (3, 840309); (31, -1969415); (31, -4885221); (31, -12100052)],
     [(31, -73669); (31, -241449); (31, -736207); (3, 2195298); (3, 5860036); (3, 15601585); (0, 0); (0, 0)])
  ];
  [
    ([(0, 6090); (1, 19140); (0, -56835); (6, -128672); (15, -306595); (20, 770723); (6, -1855281); (60, 4384724)],
     [(60, 12279); (6, -59721); (20, 186345); (15, -542915); (6, -1625349); (0, -4212439); (1, 8944482); (0, 0)]);
    ([(0, 12180); (1, 25992); (0, -72760); (6, -161492); (15, -381864); (20, 957091); (6, -2300793); (60, 5435216)],
     [(60, 24567); (6, -95188); (20, 282105); (15, -809155); (6, -2410470); (0, -6235455); (1, 13228740); (0, 0)]);
    ([(0, 21477); (1, 36311); (0, -96826); (6, -211081); (15, -495401); (20, 1237892); (6, -2972257); (60, 7018118)],
     [(60, 42964); (6, -148506); (20, 426659); (15, -1211577); (6, -3596999); (0, -9292754); (1, 19702547); (0, 0)]);
    ([(0, 36756); (1, 53561); (0, -136919); (6, -293875); (15, -684734); (20, 1706434); (6, -4092660); (60, 9659036)],
     [(60, 73719); (6, -237053); (20, 666702); (15, -1879303); (6, -5565864); (0, -14365862); (1, 30446355); (0, 0)])
  ];
  [
    ([(0, 6090); (1, 19140); (0, -56835); (3, -128672); (15, -306595); (5, 770723); (24, -1855281); (30, 4384724)],
     [(30, 12279); (24, -59721); (5, 186345); (15, -542915); (3, -1625349); (0, -4212439); (1, 8944482); (0, 0)]);
    ([(0, 12180); (1, 25992); (0, -72760); (3, -161492); (15, -381864); (5, 957091); (24, -2300793); (30, 5435216)],
     [(30, 24567); (24, -95188); (5, 282105); (15, -809155); (3, -2410470); (0, -6235455); (1, 13228740); (0, 0)]);
    ([(0, 21477); (1, 36311); (0, -96826); (3, -211081); (15, -495401); (5, 1237892); (24, -2972257); (30, 7018118)],
     [(30, 42964); (24, -148506); (5, 426659); (15, -1211577); (3, -3596999); (0, -9292754); (1, 19702547); (0, 0)]);
    ([(0, 36756); (1, 53561); (0, -136919); (3, -293875); (15, -684734); (5, 1706434); (24, -4092660); (30, 9659036)],
     [(30, 73719); (24, -237053); (5, 666702); (15, -1879303); (3, -5565864); (0, -14365862); (1, 30446355); (0, 0)])
  ];
  [
    ([(0, 6144); (1, -12180); (1, -25992); (2, -72625); (4, -181561); (17, 435034); (34, 1088619); (68, 2705837); (136, 6707551)],
     [(40, -12271); (68, 60445); (34, 202576); (17, 621597); (4, -1857299); (2, -4961514); (1, -13212985); (0, 0); (0, 0)]);
    ([(0, 12288); (0, 24576); (1, -49073); (2, -126581); (4, -307042); (17, 727469); (34, 1812226); (68, 4496257); (136, 11137648)],
     [(40, -24559); (68, 96607); (34, 309365); (17, 936755); (4, -2786617); (2, -7431718); (1, -19779426); (0, 0); (0, 0)]);
    ([(0, 21499); (0, 42998); (1, -85937); (2, -212439); (4, -507035); (17, 1193106); (34, 2964353); (68, 7347073); (136, 18191584)],
     [(136, 42988); (68, 151025); (34, 469655); (17, 1409336); (4, -4180281); (2, -11136392); (1, -29627155); (0, 0); (0, 0)]);
    ([(0, 36864); (0, 73728); (1, -147377); (2, -355562); (4, -840309); (17, 1969415); (34, 4885221); (68, 12100052); (136, 29952195)],
     [(136, 73669); (68, 241449); (34, 736207); (17, 2195241); (4, -6497435); (2, -17295752); (1, -45999970); (0, 0); (0, 0)])
  ];
  [
    ([(0, 6144); (1, -12180); (2, -25992); (2, -72625); (2, -181561); (17, 435034); (17, 1088619); (17, 2705837); (17, 6707551)],
     [(20, -12271); (17, 60445); (17, 202576); (17, 621597); (2, -1857299); (2, -4961514); (2, -13212985); (0, 0); (0, 0)]);
    ([(0, 12288); (0, 24576); (2, -49073); (2, -126581); (2, -307042); (17, 727469); (17, 1812226); (17, 4496257); (17, 11137648)],
     [(20, -24559); (17, 96607); (17, 309365); (17, 936755); (2, -2786617); (2, -7431718); (2, -19779426); (0, 0); (0, 0)]);
    ([(0, 21499); (0, 42998); (2, -85937); (2, -212439); (2, -507035); (17, 1193106); (17, 2964353); (17, 7347073); (17, 18191584)],
     [(17, 42988); (17, 151025); (17, 469655); (17, 1409336); (2, -4180281); (2, -11136392); (2, -29627155); (0, 0); (0, 0)]);
    ([(0, 36864); (0, 73728); (2, -147377); (2, -355562); (2, -840309); (17, 1969415); (17, 4885221); (17, 12100052); (17, 29952195)],
     [(17, 73669); (17, 241449); (17, 736207); (17, 2195241); (2, -6497435); (2, -17295752); (2, -45999970); (0, 0); (0, 0)])
  ];
  [
    ([(0, -6090); (0, -19140); (3, 56835); (1, -128672); (8, 306595); (3, 770723); (49, 1855281); (91, 4384724); (22, -10724351)],
     [(22, -12286); (91, 61352); (49, 201502); (3, 570694); (8, 1612283); (1, -4778669); (3, 12337424); (0, -26151146); (0, 0)]);
    ([(0, -12180); (0, -25992); (3, 72760); (1, -161492); (8, 381864); (3, 957091); (49, 2300793); (91, 5435216); (22, -13290495)],
     [(22, -24574); (91, 98216); (49, 307900); (3, 859687); (8, 2416269); (1, -7149216); (3, 18445478); (0, -39085685); (0, 0)]);
    ([(0, -21477); (0, -36311); (3, 96826); (1, -211081); (8, 495401); (3, 1237892); (49, 2972257); (91, 7018118); (22, -17158142)],
     [(22, -42998); (91, 153389); (49, 467224); (3, 1292513); (8, 3620571); (1, -10700337); (3, 27595619); (0, -58462837); (0, 0)]);
    ([(0, -36756); (0, -53561); (3, 136919); (1, -293875); (8, 684734); (3, 1706434); (49, 4092660); (91, 9659036); (22, -23610367)],
     [(22, -73726); (91, 245584); (49, 733089); (3, 2012711); (8, 5624276); (1, -16608954); (3, 42820094); (0, -90703398); (0, 0)])
  ];
  [
    ([(0, -6090); (0, -19140); (3, 56835); (4, -128672); (1, 306595); (24, 770723); (35, 1855281); (109, 4384724); (104, -10724351)],
     [(104, -12286); (109, 61352); (35, 201502); (24, 570694); (1, 1612283); (4, -4778669); (3, 12337424); (0, -26151146); (0, 0)]);
    ([(0, -12180); (0, -25992); (3, 72760); (4, -161492); (1, 381864); (24, 957091); (35, 2300793); (109, 5435216); (104, -13290495)],
     [(104, -24574); (109, 98216); (35, 307900); (24, 859687); (1, 2416269); (4, -7149216); (3, 18445478); (0, -39085685); (0, 0)]);
    ([(0, -21477); (0, -36311); (3, 96826); (4, -211081); (1, 495401); (24, 1237892); (35, 2972257); (109, 7018118); (104, -17158142)],
     [(104, -42998); (109, 153389); (35, 467224); (24, 1292513); (1, 3620571); (4, -10700337); (3, 27595619); (0, -58462837); (0, 0)]);
    ([(0, -36756); (0, -53561); (3, 136919); (4, -293875); (1, 684734); (24, 1706434); (35, 4092660); (109, 9659036); (104, -23610367)],
     [(104, -73726); (109, 245584); (35, 733089); (24, 2012711); (1, 5624276); (4, -16608954); (3, 42820094); (0, -90703398); (0, 0)])
  ];
  [
    ([(0, 6144); (1, -12180); (1, -25992); (2, -72625); (4, -181561); (1, 435034); (2, 1088619); (4, 2705837); (8, 6707551); (349, 16609202)],
     [(349, 12286); (8, 61381); (4, 205268); (2, 629711); (1, 1881234); (4, -5571505); (2, -14834609); (1, -39457947); (0, 0); (0, 0)]);
    ([(0, 12288); (0, 24576); (1, -49073); (2, -126581); (4, -307042); (1, 727469); (2, 1812226); (4, 4496257); (8, 11137648); (349, 27570174)],
     [(349, 24574); (8, 98245); (4, 313929); (2, 950135); (1, 2825947); (4, -8357256); (2, -22239624); (1, -59141749); (0, 0); (0, 0)]);
    ([(0, 21499); (0, 42998); (1, -85937); (2, -212439); (4, -507035); (1, 1193106); (2, 2964353); (4, 7347073); (8, 18191584); (349, 45024255)],
     [(349, 42998); (8, 153346); (4, 476462); (2, 1429289); (1, 4238833); (4, -12523441); (2, -33314342); (1, -88580646); (0, 0); (0, 0)]);
    ([(0, 36864); (0, 73728); (1, -147377); (2, -355562); (4, -840309); (1, 1969415); (2, 4885221); (4, 12100052); (8, 29952195); (349, 74124287)],
     [(349, 73726); (8, 245623); (4, 748495); (2, 2231481); (1, 6604390); (4, -19498850); (2, -51856305); (1, -137869075); (0, 0); (0, 0)])
  ];
  [
    ([(0, 6144); (1, -12180); (2, -25992); (2, -72625); (2, -181561); (16, 435034); (16, 1088619); (16, 2705837); (16, 6707551); (373, 16609202)],
     [(373, 12286); (16, 61381); (16, 205268); (16, 629711); (16, 1881234); (2, -5571505); (2, -14834609); (2, -39457947); (0, 0); (0, 0)]);
    ([(0, 12288); (0, 24576); (2, -49073); (2, -126581); (2, -307042); (16, 727469); (16, 1812226); (16, 4496257); (16, 11137648); (373, 27570174)],
     [(373, 24574); (16, 98245); (16, 313929); (16, 950135); (16, 2825947); (2, -8357256); (2, -22239624); (2, -59141749); (0, 0); (0, 0)]);
    ([(0, 21499); (0, 42998); (2, -85937); (2, -212439); (2, -507035); (16, 1193106); (16, 2964353); (16, 7347073); (16, 18191584); (373, 45024255)],
     [(373, 42998); (16, 153346); (16, 476462); (16, 1429289); (16, 4238833); (2, -12523441); (2, -33314342); (2, -88580646); (0, 0); (0, 0)]);
    ([(0, 36864); (0, 73728); (2, -147377); (2, -355562); (2, -840309); (16, 1969415); (16, 4885221); (16, 12100052); (16, 29952195); (373, 74124287)],
     [(373, 73726); (16, 245623); (16, 748495); (16, 2231481); (16, 6604390); (2, -19498850); (2, -51856305); (2, -137869075); (0, 0); (0, 0)])
  ];
  [
    ([(0, -6090); (0, -19140); (3, 56835); (1, 128672); (0, 306595); (11, 770723); (25, 1855281); (35, -4384724); (174, 10724351); (183, 26818217)],
     [(183, 12286); (199, -61183); (35, -207806); (25, 624244); (11, 1717574); (0, 4803145); (1, 14187618); (3, 36581088); (0, -77490097); (0, 0)]);
    ([(0, -12180); (0, -25992); (3, 72760); (1, 161492); (0, 381864); (11, 957091); (25, 2300793); (35, -5435216); (174, 13290495); (183, 33232553)],
     [(183, 24574); (199, -98047); (35, -318231); (25, 942962); (11, 2583203); (0, 7211593); (1, 21289482); (3, 54880129); (0, -116242195); (0, 0)]);
    ([(0, -21477); (0, -36311); (3, 96826); (1, 211081); (0, 495401); (11, 1237892); (25, 2972257); (35, -7018118); (174, 17158142); (183, 42899454)],
     [(183, 42998); (199, -153086); (35, -483073); (25, 1418700); (11, 3874118); (0, 10803180); (1, 31879879); (3, 82168123); (0, -174029113); (0, 0)]);
    ([(0, -36756); (0, -53561); (3, 136919); (1, 293875); (0, 684734); (11, 1706434); (25, 4092660); (35, -9659036); (174, 23610367); (183, 59026772)],
     [(183, 73726); (167, 245467); (35, -760098); (25, 2218299); (11, 6045448); (0, 16844234); (1, 49693383); (3, 128067457); (0, -271229241); (0, 0)])
  ];
  [
    ([(0, -6090); (0, -19140); (3, 56835); (4, 128672); (0, 306595); (26, 770723); (38, 1855281); (98, -4384724); (117, 10724351); (474, 26818217)],
     [(474, 12286); (227, -61183); (98, -207806); (38, 624244); (26, 1717574); (0, 4803145); (4, 14187618); (3, 36581088); (0, -77490097); (0, 0)]);
    ([(0, -12180); (0, -25992); (3, 72760); (4, 161492); (0, 381864); (26, 957091); (38, 2300793); (98, -5435216); (117, 13290495); (474, 33232553)],
     [(474, 24574); (227, -98047); (98, -318231); (38, 942962); (26, 2583203); (0, 7211593); (4, 21289482); (3, 54880129); (0, -116242195); (0, 0)]);
    ([(0, -21477); (0, -36311); (3, 96826); (4, 211081); (0, 495401); (26, 1237892); (38, 2972257); (98, -7018118); (117, 17158142); (474, 42899454)],
     [(474, 42998); (227, -153086); (98, -483073); (38, 1418700); (26, 3874118); (0, 10803180); (4, 31879879); (3, 82168123); (0, -174029113); (0, 0)]);
    ([(0, -36756); (0, -53561); (3, 136919); (4, 293875); (0, 684734); (26, 1706434); (38, 4092660); (98, -9659036); (117, 23610367); (474, 59026772)],
     [(474, 73726); (229, 245467); (98, -760098); (38, 2218299); (26, 6045448); (0, 16844234); (4, 49693383); (3, 128067457); (0, -271229241); (0, 0)])
  ];
  [
    ([(0, 6144); (1, -12180); (1, 25992); (2, 72625); (4, 181561); (21, -435034); (42, -1088619); (84, -2705837); (168, -6707551); (385, -16609202); (770, -41526271)],
     [(770, -12286); (385, -61400); (168, -208213); (84, -638293); (42, -1906512); (21, -5646004); (4, 16672844); (2, 44344083); (1, 117900051); (0, 0); (0, 0)]);
    ([(0, 12288); (0, 24576); (1, 49073); (2, 126581); (4, 307042); (21, -727469); (42, -1812226); (84, -4496257); (168, -11137648); (385, -27570174); (770, -68924415)],
     [(770, -24574); (385, -98252); (168, -318571); (84, -963730); (42, -2866127); (21, -8475794); (4, 25017186); (2, 66525260); (1, 176861892); (0, 0); (0, 0)]);
    ([(0, 21499); (0, 42998); (1, 85937); (2, 212439); (4, 507035); (21, -1193106); (42, -2964353); (84, -7347073); (168, -18191584); (385, -45024255); (770, -112550911)],
     [(770, -42998); (91, 153343); (168, -483952); (84, -1451466); (42, -4304291); (21, -12716539); (4, 37522116); (2, 99765877); (1, 265222378); (0, 0); (0, 0)]);
    ([(0, 36864); (0, 73728); (1, 147377); (2, 355562); (4, 840309); (21, -1969415); (42, -4885221); (84, -12100052); (168, -29952195); (385, -74124287); (770, -185287521)],
     [(770, -73726); (283, 245467); (168, -760081); (84, -2265790); (42, -6705620); (21, -19797528); (4, 58401868); (2, 155268251); (1, 412758803); (0, 0); (0, 0)])
  ];
  [
    ([(0, 6144); (1, -12180); (2, 25992); (2, 72625); (2, 181561); (21, -435034); (21, -1088619); (21, -2705837); (21, -6707551); (259, -16609202); (259, -41526271)],
     [(259, -12286); (259, -61400); (21, -208213); (21, -638293); (21, -1906512); (21, -5646004); (2, 16672844); (2, 44344083); (2, 117900051); (0, 0); (0, 0)]);
    ([(0, 12288); (0, 24576); (2, 49073); (2, 126581); (2, 307042); (21, -727469); (21, -1812226); (21, -4496257); (21, -11137648); (259, -27570174); (259, -68924415)],
     [(259, -24574); (259, -98252); (21, -318571); (21, -963730); (21, -2866127); (21, -8475794); (2, 25017186); (2, 66525260); (2, 176861892); (0, 0); (0, 0)]);
    ([(0, 21499); (0, 42998); (2, 85937); (2, 212439); (2, 507035); (21, -1193106); (21, -2964353); (21, -7347073); (21, -18191584); (259, -45024255); (259, -112550911)],
     [(259, -42998); (436, 153343); (21, -483952); (21, -1451466); (21, -4304291); (21, -12716539); (2, 37522116); (2, 99765877); (2, 265222378); (0, 0); (0, 0)]);
    ([(0, 36864); (0, 73728); (2, 147377); (2, 355562); (2, 840309); (21, -1969415); (21, -4885221); (21, -12100052); (21, -29952195); (259, -74124287); (259, -185287521)],
     [(259, -73726); (433, 245467); (21, -760081); (21, -2265790); (21, -6705620); (21, -19797528); (2, 58401868); (2, 155268251); (2, 412758803); (0, 0); (0, 0)])
  ];
  [
    ([(0, -6090); (0, 19140); (1, 56835); (7, -128672); (10, -306595); (1, 770723); (39, 1855281); (57, -4384724); (192, -10724351); (477, 26818217); (264, -67018341)],
     [(264, -12286); (136, -61319); (192, -207871); (57, -647915); (39, 1894435); (1, 5166631); (10, -14399156); (7, -42483497); (1, 109489888); (0, 231887240); (0, 0)]);
    ([(0, -12180); (0, 25992); (1, 72760); (7, -161492); (10, -381864); (1, 957091); (39, 2300793); (57, -5435216); (192, -13290495); (477, 33232553); (264, -83044760)],
     [(264, -24574); (477, 97961); (141, 318025); (57, -977520); (39, 2845827); (1, 7748034); (10, -21581297); (7, -63661728); (1, 164059009); (0, 347447688); (0, 0)]);
    ([(0, -21477); (0, 36311); (1, 96826); (7, -211081); (10, -495401); (1, 1237892); (39, 2972257); (57, -7018118); (192, -17158142); (477, 42899454); (264, -107198054)],
     [(264, -42997); (477, 152916); (141, 482742); (57, -1471044); (39, 4270171); (1, 11615108); (10, -32340319); (7, -95387322); (1, 245805175); (0, 520560166); (0, 0)]);
    ([(0, -36756); (0, 53561); (1, 136919); (7, -293875); (10, -684734); (1, 1706434); (39, 4092660); (57, -9659036); (192, -23610367); (477, 59026772); (264, -147492453)],
     [(264, -73726); (477, 245417); (192, -759806); (57, -2303200); (39, 6671939); (1, 18133217); (10, -50475242); (7, -148862350); (1, 383592117); (0, 812347705); (0, 0)])
  ];
  [
    ([(0, -6090); (0, 19140); (2, 56835); (7, -128672); (5, -306595); (16, 770723); (57, 1855281); (78, -4384724); (3, -10724351); (375, 26818217); (66, -67018341)],
     [(66, -12286); (34, -61319); (3, -207871); (78, -647915); (57, 1894435); (16, 5166631); (5, -14399156); (7, -42483497); (2, 109489888); (0, 231887240); (0, 0)]);
    ([(0, -12180); (0, 25992); (2, 72760); (7, -161492); (5, -381864); (16, 957091); (57, 2300793); (78, -5435216); (3, -13290495); (375, 33232553); (66, -83044760)],
     [(66, -24574); (375, 97961); (177, 318025); (78, -977520); (57, 2845827); (16, 7748034); (5, -21581297); (7, -63661728); (2, 164059009); (0, 347447688); (0, 0)]);
    ([(0, -21477); (0, 36311); (2, 96826); (7, -211081); (5, -495401); (16, 1237892); (57, 2972257); (78, -7018118); (3, -17158142); (375, 42899454); (66, -107198054)],
     [(66, -42997); (375, 152916); (177, 482742); (78, -1471044); (57, 4270171); (16, 11615108); (5, -32340319); (7, -95387322); (2, 245805175); (0, 520560166); (0, 0)]);
    ([(0, -36756); (0, 53561); (2, 136919); (7, -293875); (5, -684734); (16, 1706434); (57, 4092660); (78, -9659036); (3, -23610367); (375, 59026772); (66, -147492453)],
     [(66, -73726); (375, 245417); (3, -759806); (78, -2303200); (57, 6671939); (16, 18133217); (5, -50475242); (7, -148862350); (2, 383592117); (0, 812347705); (0, 0)])
  ]
].

(** The four bounds on the input *)
Definition listed_inputs : list Z := [6144; 12288; 21499; 36864].

Definition seqs_chk (n : Z) (p : list Z) (s : list Z * list Z) (c : list (Z * Z) * list (Z * Z)) : bool :=
  let k := Z.to_nat (Z.log2 n) in
  seq_chk false k p (fst s) (fst c) && seq_chk true k p (snd s) (snd c).

Fixpoint forallb2 {A B} (f : A -> B -> bool) (l : list A) (m : list B) : bool :=
  match l, m with
  | [], [] => true
  | x :: l, y :: m => f x y && forallb2 f l m
  | _, _ => false
  end.
Fixpoint forallb3 {A B C} (f : A -> B -> C -> bool) (l : list A) (m : list B) (o : list C) : bool :=
  match l, m, o with
  | [], [], [] => true
  | x :: l, y :: m, z :: o => f x y z && forallb3 f l m o
  | _, _, _ => false
  end.

Lemma listed_check : forallb3 (fun '(n, p) s c => forallb2 (seqs_chk n p) s c) tables listed certs = true.
Proof. vm_cast_no_check (eq_refl true). Qed.

Lemma forallb2_In {A B} (f : A -> B -> bool) : forall l m, forallb2 f l m = true -> forall x, In x l -> exists y, f x y = true.
Proof.
  induction l as [|x l IH]; intros [|y m] H z Hz; try discriminate; [destruct Hz|]. cbn [forallb2] in H.
  apply andb_prop in H as [H1 H2]. destruct Hz as [<-|Hz]; [exists y; exact H1|exact (IH m H2 z Hz)].
Qed.

Lemma forallb3_nth {A B C} (f : A -> B -> C -> bool) : forall l m o, forallb3 f l m o = true ->
  length l = length m /\ forall i x y, nth_error l i = Some x -> nth_error m i = Some y -> exists z, f x y z = true.
Proof.
  induction l as [|x l IH]; intros [|y m] [|z o] H; try discriminate; cbn [forallb3 length] in *.
  - split; [reflexivity|]. intros [|i] x y E; discriminate.
  - apply andb_prop in H as [H1 H2]. destruct (IH m o H2) as [HL HR]. split; [lia|].
    intros [|i] x' y' E E'; cbn [nth_error] in E, E'.
    + injection E as <-. injection E' as <-. exists z. exact H1.
    + exact (HR i x' y' E E').
Qed.

Lemma table_facts n p : In (n, p) tables -> exists k, n = 2 ^ k /\ 1 <= k <= 11 /\ Z.log2 n = k /\ bnd_table k p.
Proof.
  intros HI. assert (HC := tables_check). rewrite forallb_forall in HC. specialize (HC _ HI). unfold tab_check in HC.
  apply andb_prop in HC as [HC _]. apply andb_prop in HC as [HC HT]. apply table_ok_sound in HT. exists (Z.log2 n).
  rewrite Z2Nat.id in HT by lia. split; [lia|]. split; [lia|]. split; [reflexivity|exact HT].
Qed.

Lemma best_all i n p seqs ct gs : nth_error tables i = Some (n, p) -> nth_error listed i = Some seqs -> In (ct, gs) seqs ->
  ct_best n p ct /\ gs_best n p gs.
Proof.
  intros HT HL HI. destruct (forallb3_nth _ _ _ _ listed_check) as [_ H]. destruct (H i _ _ HT HL) as (c & Hc). cbv beta iota in Hc.
  destruct (forallb2_In _ _ _ Hc _ HI) as ([c1 c2] & HS). unfold seqs_chk in HS. cbn [fst snd] in HS. apply andb_prop in HS as [S1 S2].
  destruct (table_facts n p (nth_error_In _ _ HT)) as (k & -> & Hk & HLog & [HP _]). rewrite HLog in S1, S2.
  replace (2 ^ k) with (2 ^ Z.of_nat (Z.to_nat k)) in HP |- * by (rewrite Z2Nat.id by lia; reflexivity).
  split; [exact (seq_chk_ct _ _ _ _ HP S1)|exact (seq_chk_gs _ _ _ _ HP S2)].
Qed.

Lemma starts_check : forallb (fun seqs => forallb (fun '(s, b) => (at_ (fst s) 0 =? b) && (at_ (snd s) 0 =? b)) (combine seqs listed_inputs)
  && (length seqs =? 4)%nat) listed = true.
Proof. vm_compute. reflexivity. Qed.

Lemma starts seqs : In seqs listed ->
  map (fun s => at_ (fst s) 0) seqs = listed_inputs /\ map (fun s => at_ (snd s) 0) seqs = listed_inputs.
Proof.
  intros H. assert (HC := starts_check). rewrite forallb_forall in HC. specialize (HC _ H). clear H.
  apply andb_prop in HC as [HC HL]. apply Nat.eqb_eq in HL.
  destruct seqs as [|s1 [|s2 [|s3 [|s4 [|]]]]]; try discriminate. unfold listed_inputs in *. cbn [combine forallb map] in *.
  repeat (apply andb_prop in HC as [? HC]). rewrite !andb_true_iff, !Z.eqb_eq in *. split; repeat f_equal; lia.
Qed.

Lemma Forall2_nth {A B} (R : A -> B -> Prop) : forall l m, length l = length m ->
  (forall i x y, nth_error l i = Some x -> nth_error m i = Some y -> R x y) -> Forall2 R l m.
Proof.
  induction l as [|x l IH]; intros [|y m] HL H; try discriminate; constructor.
  - apply (H 0%nat); reflexivity.
  - apply IH; [injection HL; auto|]. intros i x' y' E E'. apply (H (S i)); assumption.
Qed.

Lemma red_bounds_txt_best_L :
  Forall2 (fun '(n, p) seqs =>
      map (fun s => at_ (fst s) 0) seqs = listed_inputs /\ map (fun s => at_ (snd s) 0) seqs = listed_inputs
      /\ Forall (fun '(ct, gs) => ct_best n p ct /\ gs_best n p gs) seqs)
    tables listed.
Proof.
  apply Forall2_nth; [exact (proj1 (forallb3_nth _ _ _ _ listed_check))|]. intros i [n p] seqs HT HL.
  destruct (starts seqs (nth_error_In _ _ HL)) as [S1 S2]. split; [exact S1|]. split; [exact S2|].
  apply Forall_forall. intros [ct gs] HI. exact (best_all i n p seqs ct gs HT HL HI).
Qed.

Lemma last_at (B : list Z) k : 0 <= k -> zlen B - 1 = k -> last B 0 = at_ B k.
Proof.
  intros Hk HZ. unfold at_, zlen in *. destruct (exists_last (l := B)) as (l & x & ->); [intros ->; cbn in HZ; lia|].
  rewrite last_last, app_length in *. cbn [length] in HZ. rewrite app_nth2 by lia.
  replace (Z.to_nat k - length l)%nat with 0%nat by lia. reflexivity.
Qed.

Lemma best_len n (B : list Z) k : n = 2 ^ k -> 0 <= k -> 0 < zlen B -> n = 2 ^ (zlen B - 1) -> zlen B - 1 = k.
Proof. intros -> Hk HZ E. apply (Z.pow_inj_r 2) in E; lia. Qed.

Lemma input_in (seqs : list (list Z * list Z)) ct gs : In seqs listed -> In (ct, gs) seqs ->
  In (at_ ct 0) listed_inputs /\ at_ gs 0 = at_ ct 0 /\ 0 < zlen ct /\ 0 < zlen gs.
Proof.
  intros HS HI. destruct (starts seqs HS) as [S1 S2].
  assert (I1 : In (at_ ct 0) listed_inputs) by (rewrite <- S1; apply (in_map (fun s => at_ (fst s) 0) _ _ HI)).
  assert (I2 : In (at_ gs 0) listed_inputs) by (rewrite <- S2; apply (in_map (fun s => at_ (snd s) 0) _ _ HI)).
  split; [exact I1|]. split; [|split].
  - assert (HE : map (fun s => at_ (fst s) 0) seqs = map (fun s => at_ (snd s) 0) seqs) by congruence.
    clear - HI HE. induction seqs as [|s seqs IH]; [destruct HI|]. cbn [map] in HE. injection HE as E1 E2.
    destruct HI as [->|HI]; [symmetry; exact E1|exact (IH HI E2)].
  - destruct ct; [cbn in I1; lia|unfold zlen; cbn [length]; lia].
  - destruct gs; [cbn in I2; lia|unfold zlen; cbn [length]; lia].
Qed.

Lemma red_bounds_txt_computed_L :
  forall i n p seqs ct gs bound, nth_error tables i = Some (n, p) -> nth_error listed i = Some seqs -> In (ct, gs) seqs ->
  zlen ct <= zlen bound ->
  (exists bd, ntt_ct_bounds (at_ ct 0) n p bound = Ok (last ct 0, bd) /\ zlen bd = zlen bound /\ firstn (length ct) bd = ct)
  /\ exists bd, ntt_gs_bounds (at_ gs 0) n p bound = Ok (last gs 0, bd) /\ zlen bd = zlen bound /\ firstn (length gs) bd = gs.
Proof.
  intros i n p seqs ct gs bound HT HL HI HB. destruct (best_all i n p seqs ct gs HT HL HI) as [[N1 L1] [N2 L2]].
  destruct (input_in seqs ct gs (nth_error_In _ _ HL) HI) as (HI1 & HE & Hz1 & Hz2). rewrite HE.
  destruct (table_facts n p (nth_error_In _ _ HT)) as (k & Hn & Hk & _ & HP).
  assert (K1 := best_len n ct k Hn ltac:(lia) Hz1 N1). assert (K2 := best_len n gs k Hn ltac:(lia) Hz2 N2).
  rewrite K1 in L1. rewrite K2 in L2.
  assert (Hb : 0 <= at_ ct 0 <= 36864) by (cbn [In listed_inputs] in HI1; lia). clear N1 N2. subst n. split.
  - destruct (ntt_ct_bounds_ok k (at_ ct 0) p bound ltac:(lia) ltac:(lia) HP ltac:(lia)) as (bd & E & HLb & S & T).
    assert (U := ct_unique k _ p bd ct ltac:(lia) S T eq_refl L1). exists bd.
    split; [rewrite E, (last_at ct k), U by lia; reflexivity|]. split; [exact HLb|].
    apply firstn_at; [unfold zlen in *; lia|]. intros j Hj. apply U. lia.
  - destruct (ntt_gs_bounds_ok k (at_ ct 0) p bound ltac:(lia) ltac:(lia) HP ltac:(lia)) as (bd & E & HLb & S & T).
    assert (U := gs_unique k _ p bd gs ltac:(lia) S T HE L2). exists bd.
    split; [rewrite E, (last_at gs k), U by lia; reflexivity|]. split; [exact HLb|].
    apply firstn_at; [unfold zlen in *; lia|]. intros j Hj. apply U. lia.
Qed.

Lemma red_bounds_txt_transforms_L :
  forall i n p seqs ct gs a, nth_error tables i = Some (n, p) -> nth_error listed i = Some seqs -> In (ct, gs) seqs ->
  zlen a = n -> (forall j, 0 <= j < n -> Z.abs (at_ a j) <= at_ ct 0) ->
  (forall run, In run [ModelRed.mulntt_red_ct_rev2std; ModelRed.mulntt_red_ct_std2rev]
      \/ (forall l, 0 <= l < Z.log2 n -> at_ p (2 ^ l) = -4096) /\ In run [ModelRed.ntt_red_ct_rev2std; ModelRed.ntt_red_ct_std2rev] ->
    exists r, run a n p = Ok r /\ zlen r = n /\ forall j, 0 <= j < n -> Z.abs (at_ r j) <= last ct 0)
  /\ (n < 2048 \/ at_ ct 0 < 36864 ->
    forall run, In run [ModelRed.nttmul_red_gs_rev2std; ModelRed.nttmul_red_gs_std2rev; ModelRed.ntt_red_gs_rev2std; ModelRed.ntt_red_gs_std2rev] ->
    exists r, run a n p = Ok r /\ zlen r = n /\ forall j, 0 <= j < n -> Z.abs (at_ r j) <= last gs 0).
Proof.
  intros i n p seqs ct gs a HT HL HI HLa Ha.
  destruct (input_in seqs ct gs (nth_error_In _ _ HL) HI) as (HI1 & HE & Hz1 & Hz2).
  destruct (best_all i n p seqs ct gs HT HL HI) as [[N1 _] _].
  destruct (table_facts n p (nth_error_In _ _ HT)) as (k & Hn & Hk & HLog & HP).
  assert (K1 := best_len n ct k Hn ltac:(lia) Hz1 N1).
  assert (HI5 : In (at_ ct 0) inputs) by (cbn [In listed_inputs inputs] in *; lia).
  destruct (row_ok n p (at_ ct 0) (repeat 0 12) (nth_error_In _ _ HT) HI5 eq_refl) as (c & bd & g & bd' & E1 & E2 & HZ & R).
  assert (HZ' : zlen bd = 12).
  { destruct (red_bounds_txt_computed_L i n p seqs ct gs (repeat 0 12) HT HL HI) as [(x & F & HF & _) _].
    - change (zlen (repeat 0 12)) with 12. lia.
    - rewrite E1 in F. injection F as _ <-. exact HF. }
  assert (Hc : c = last ct 0).
  { destruct (red_bounds_txt_computed_L i n p seqs ct gs (repeat 0 12) HT HL HI) as [(x & F & _) _].
    - change (zlen (repeat 0 12)) with 12. lia.
    - rewrite E1 in F. injection F as <- _. reflexivity. }
  assert (Hg : g = last gs 0).
  { destruct (red_bounds_txt_computed_L i n p seqs ct gs bd HT HL HI) as [_ (x & F & _)]; [lia|].
    rewrite HE, E2 in F. injection F as <- _. reflexivity. }
  destruct R as (RX & RO & RC & RG). subst c g. split.
  - intros run HR. rewrite HLog in HR. clear RC RG N1 E2. rewrite Hn in *. clear Hn n. destruct HP as [HP1 HP2].
    assert (Hb : 0 <= at_ ct 0 <= 36864) by (cbn [In listed_inputs] in HI1; lia).
    destruct (ntt_ct_bounds_sound_L k (at_ ct 0) p (repeat 0 12)) as (B & bd3 & F & _ & _ & _ & _ & _ & Hrun);
      try assumption; [lia|lia|change (zlen (repeat 0 12)) with 12; lia|].
    rewrite E1 in F. injection F as <- _. apply Hrun; [unfold overflow_shown, INT32_MAX in RX; lia|exact HLa|exact Ha|].
    cbn [In] in HR. destruct HR as [[<-|[<-|[]]]|[HU [<-|[<-|[]]]]]; tauto.
  - intros HN run HR. apply RG; [|exact HLa|exact Ha|cbn [In] in HR; destruct HR as [<-|[<-|[<-|[<-|[]]]]]; tauto].
    destruct (overflow_shown (last gs 0)); [|reflexivity]. destruct (proj1 RO eq_refl). lia.
Qed.

(** ** What the program prints now *)

Lemma show_listed i n p seqs bound rows : nth_error tables i = Some (n, p) -> nth_error listed i = Some seqs -> zlen bound = 12 ->
  show_ct_bounds bound n p = Ok rows ->
  filter (fun r => negb (fst (fst r) =? 30709)) rows = map (fun s => (at_ (fst s) 0, last (fst s) 0, last (snd s) 0)) seqs.
Proof.
  intros HT HL HB.
  assert (HR : forall ct gs bd, In (ct, gs) seqs -> zlen bd = 12 -> exists bd1 bd2,
    ntt_ct_bounds (at_ ct 0) n p bd = Ok (last ct 0, bd1) /\ ntt_gs_bounds (at_ ct 0) n p bd1 = Ok (last gs 0, bd2) /\ zlen bd2 = 12).
  { intros ct gs bd HI Hbd. destruct (best_all i n p seqs ct gs HT HL HI) as [[N1 _] _].
    destruct (input_in seqs ct gs (nth_error_In _ _ HL) HI) as (_ & HE & Hz1 & _).
    destruct (table_facts n p (nth_error_In _ _ HT)) as (k & Hn & Hk & _).
    assert (K1 := best_len n ct k Hn ltac:(lia) Hz1 N1).
    destruct (red_bounds_txt_computed_L i n p seqs ct gs bd HT HL HI ltac:(lia)) as [(b1 & E1 & Z1 & _) _].
    destruct (red_bounds_txt_computed_L i n p seqs ct gs b1 HT HL HI ltac:(lia)) as [_ (b2 & E2 & Z2 & _)].
    rewrite HE in E2. exists b1, b2. split; [exact E1|]. split; [exact E2|lia]. }
  destruct (starts seqs (nth_error_In _ _ HL)) as [S1 _].
  destruct (table_facts n p (nth_error_In _ _ HT)) as (k & Hn & Hk & _).
  assert (H2048 : n <= 2048) by (rewrite Hn; change 2048 with (2 ^ 11); apply Z.pow_le_mono_r; lia).
  destruct seqs as [|[c1 g1] [|[c2 g2] [|[c3 g3] [|[c4 g4] [|]]]]]; try discriminate S1.
  cbn [map fst] in S1. unfold listed_inputs in S1. injection S1 as A1 A2 A3 A4.
  unfold show_ct_bounds. replace (n <=? 2048) with true by lia. cbn [cassert]. rewrite bind_Ok.
  destruct (HR c1 g1 bound) as (x1 & y1 & E & E' & Z1); [cbn [In]; tauto|exact HB|]. rewrite A1 in E, E'. rewrite E, bind_Ok, E', bind_Ok. clear E E'. cbv zeta.
  destruct (HR c2 g2 y1) as (x2 & y2 & E & E' & Z2); [cbn [In]; tauto|exact Z1|]. rewrite A2 in E, E'. rewrite E, bind_Ok, E', bind_Ok. clear E E'.
  destruct (HR c3 g3 y2) as (x3 & y3 & E & E' & Z3); [cbn [In]; tauto|exact Z2|]. rewrite A3 in E, E'. rewrite E, bind_Ok, E', bind_Ok. clear E E'.
  destruct (row_ok n p 30709 y3 (nth_error_In _ _ HT) ltac:(cbn [In inputs]; tauto) Z3) as (c5 & bd5 & g5 & bd5' & E & E' & Z5 & _).
  rewrite E, bind_Ok, E', bind_Ok. clear E E'.
  destruct (HR c4 g4 bd5') as (x4 & y4 & E & E' & Z4); [cbn [In]; tauto|exact Z5|]. rewrite A4 in E, E'. rewrite E, bind_Ok, E', bind_Ok. clear E E'.
  intros H. injection H as <-. cbn [filter map fst snd]. rewrite A1, A2, A3, A4. reflexivity.
Qed.

Lemma show_tables_nth stk : forall l i rs, show_tables stk i l = Ok rs ->
  Forall2 (fun '(n, p) rows => exists j, show_ct_bounds (stk j) n p = Ok rows) l rs.
Proof.
  induction l as [|[n p] l IH]; intros i rs H; cbn [show_tables] in H.
  - injection H as <-. constructor.
  - destruct (show_ct_bounds (stk i) n p) as [rows|] eqn:E; [rewrite bind_Ok in H|discriminate].
    destruct (show_tables stk (i + 1) l) as [rs'|] eqn:E'; [rewrite bind_Ok in H|discriminate]. injection H as <-.
    constructor; [exists i; exact E|exact (IH _ _ E')].
Qed.

Lemma Forall2_nth_r {A B} (R : A -> B -> Prop) : forall l m, Forall2 R l m ->
  forall i x y, nth_error l i = Some x -> nth_error m i = Some y -> R x y.
Proof.
  intros l m H. induction H as [|x y l m HR _ IH]; intros [|i] x' y' E E'; cbn [nth_error] in E, E'; try discriminate.
  - injection E as <-. injection E' as <-. exact HR.
  - exact (IH i x' y' E E').
Qed.

Lemma Forall2_nth_l {A B} (R : A -> B -> Prop) : forall l m, Forall2 R l m ->
  forall i y, nth_error m i = Some y -> exists x, nth_error l i = Some x /\ R x y.
Proof.
  intros l m H. induction H as [|x y l m HR _ IH]; intros [|i] y' E'; cbn [nth_error] in E'; try discriminate.
  - injection E' as <-. exists x. split; [reflexivity|exact HR].
  - exact (IH i y' E').
Qed.

Lemma bind_inv {A B} (m : res A) (f : A -> res B) y : bind m f = Ok y -> exists x, m = Ok x /\ f x = Ok y.
Proof. destruct m as [x|]; intros H; [exists x; split; [reflexivity|exact H]|discriminate H]. Qed.

Lemma main_tables stk out : main stk = Ok out -> show_tables stk 0 tables = Ok (p_tables out).
Proof.
  unfold main. intros E.
  do 10 (apply bind_inv in E as (? & _ & E)). apply bind_inv in E as (t & ET & E).
  assert (HP : p_tables out = t) by (injection E as <-; reflexivity). rewrite HP. exact ET.
Qed.

Lemma red_bounds_txt_printed_L :
  forall stk, (forall i, zlen (stk i) = 12) -> exists out, main stk = Ok out
  /\ Forall2 (fun rows seqs => filter (fun r => negb (fst (fst r) =? 30709)) rows
                 = map (fun s => (at_ (fst s) 0, last (fst s) 0, last (snd s) 0)) seqs)
       (p_tables out) listed.
Proof.
  intros stk Hs. destruct (tables_L stk Hs) as (out & E & HF). exists out. split; [exact E|].
  assert (ET : show_tables stk 0 tables = Ok (p_tables out)) by exact (main_tables stk out E).
  assert (HS := show_tables_nth stk tables 0 _ ET).
  apply Forall2_nth.
  - transitivity (length tables).
    + clear - HS. induction HS; cbn [length]; congruence.
    + exact (proj1 (forallb3_nth _ _ _ _ listed_check)).
  - intros i rows seqs HR HL. destruct (Forall2_nth_l _ _ _ HS i rows HR) as ([n p] & HT & j & Ej).
    exact (show_listed i n p seqs (stk j) rows HT HL (Hs j) Ej).
Qed.

(** The number listed for the transform of 16 coefficients with inputs up to 6144, and an array *)
Definition txt_ex : list Z := [6144; -6144; 6144; 6144; -6144; 6144; -6144; 6144; 6144; 6144; -6144; -6144; 6144; -6144; 6144; 6144].
