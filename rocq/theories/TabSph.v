(** TabSph.v — the Cartesian-to-spherical coefficient table.
    Generated from the text of the source file: entry q is the q-th literal of the
    initialiser times 10^18 (no literal has more than 18 decimals). *)
From Coq Require Import ZArith List.
Import ListNotations.
Local Open Scope Z_scope.

Definition g_trans_cart2sph_dec_0 : list Z := [
  1000000000000000000; 1000000000000000000; 0; 0; 0; 1000000000000000000; 0; 0; 0; 1000000000000000000; 0; 1092548430592079070;
  0; 0; 0; 0; 0; 0; 0; 0; 1092548430592079070; 0; -315391565252520002; 0;
  0; -315391565252520002; 0; 630783130505040012; 0; 0; 1092548430592079070; 0; 0; 0; 546274215296039535; 0;
  0; -546274215296039535; 0; 0; 0; 1770130769779930531; 0; 0; 0; 0; -590043589926643510; 0;
  0; 0; 0; 0; 0; 0; 2890611442640554055; 0; 0; 0; 0; 0;
  0; -457045799464465739; 0; 0; 0; 0; -457045799464465739; 0; 1828183197857862944; 0; 0; 0;
  -1119528997770346170; 0; 0; 0; 0; -1119528997770346170; 0; 746352665180230782; -457045799464465739; 0; 0; -457045799464465739;
  0; 1828183197857862944; 0; 0; 0; 0; 0; 0; 1445305721320277020; 0; 0; 0;
  0; -1445305721320277020; 0; 0; 590043589926643510; 0; 0; -1770130769779930530; 0; 0; 0; 0;
  0; 0; 0; 2503342941796704538; 0; 0; 0; 0; -2503342941796704530; 0; 0; 0;
  0; 0; 0; 0; 0; 0; 0; 0; 0; 5310392309339791593; 0; 0;
  0; 0; 0; 0; -1770130769779930530; 0; 0; 0; 0; -946174695757560014; 0; 0;
  0; 0; -946174695757560014; 0; 5677048174545360108; 0; 0; 0; 0; 0; 0; 0;
  0; 0; 0; -2007139630671867500; 0; 0; 0; 0; 0; 0; -2007139630671867500; 0;
  2676186174229156671; 0; 317356640745612911; 0; 0; 634713281491225822; 0; -2538853125964903290; 0; 0; 0; 0;
  317356640745612911; 0; -2538853125964903290; 0; 846284375321634430; 0; 0; -2007139630671867500; 0; 0; 0; 0;
  -2007139630671867500; 0; 2676186174229156671; 0; 0; 0; 0; 0; -473087347878780002; 0; 0; 0;
  0; 2838524087272680054; 0; 0; 0; 0; 473087347878780009; 0; -2838524087272680050; 0; 0; 0;
  0; 1770130769779930531; 0; 0; 0; 0; -5310392309339791590; 0; 0; 0; 0; 0;
  0; 0; 625835735449176134; 0; 0; -3755014412695056800; 0; 0; 0; 0; 0; 0;
  625835735449176134; 0; 0; 0; 0; 0; 3281910284200850514; 0; 0; 0; 0; -6563820568401701020;
  0; 0; 0; 0; 0; 0; 0; 0; 656382056840170102; 0; 0; 0;
  0; 0; 0; 0; 0; 0; 8302649259524165115; 0; 0; 0; 0; 0;
  0; -8302649259524165110; 0; 0; 0; 0; 0; 0; 0; 0; 0; 0;
  -1467714898305751160; 0; 0; 0; 0; -978476598870500779; 0; 11741719186446009300; 0; 0; 0; 0;
  0; 0; 489238299435250387; 0; -3913906395482003100; 0; 0; 0; 0; 0; 0; 0;
  -4793536784973323750; 0; 0; 0; 0; 0; 0; -4793536784973323750; 0; 9587073569946647510; 0; 0;
  0; 0; 0; 0; 0; 0; 452946651195696921; 0; 0; 0; 0; 905893302391393842;
  0; -5435359814348363050; 0; 0; 0; 0; 0; 0; 452946651195696921; 0; -5435359814348363050; 0;
  3623573209565575370; 0; 0; 0; 1754254836801353946; 0; 0; 0; 0; 3508509673602707893; 0; -4678012898136943850;
  0; 0; 0; 0; 0; 0; 1754254836801353946; 0; -4678012898136943850; 0; 935602579627388771; 452946651195696921;
  0; 0; 905893302391393842; 0; -5435359814348363050; 0; 0; 0; 0; 452946651195696921; 0; -5435359814348363050;
  0; 3623573209565575370; 0; 0; 0; 0; 0; 0; 0; 0; -2396768392486661870; 0;
  0; 0; 0; 0; 0; 4793536784973323755; 0; 0; 0; 0; 0; 0;
  2396768392486661877; 0; -4793536784973323750; 0; 0; -489238299435250389; 0; 0; 978476598870500775; 0; 3913906395482003101; 0;
  0; 0; 0; 1467714898305751163; 0; -11741719186446009300; 0; 0; 0; 0; 0; 0;
  0; 0; 0; 0; 2075662314881041278; 0; 0; 0; 0; -12453973889286247600; 0; 0;
  0; 0; 0; 0; 0; 0; 2075662314881041278; 0; 0; 0; 0; 656382056840170102;
  0; 0; -6563820568401701020; 0; 0; 0; 0; 0; 0; 3281910284200850514; 0; 0;
  0; 0; 0; 0; 0; 0; 0; 0; 0; 4099104631151486300; 0; 0;
  0; 0; -13663682103838288700; 0; 0; 0; 0; 0; 0; 0; 0; 4099104631151486300;
  0; 0; 0; 0; 0; 0; 0; 0; 0; 0; 0; 0;
  0; 0; 0; 0; 11833095811158763400; 0; 0; 0; 0; 0; 0; -23666191622317526800;
  0; 0; 0; 0; 0; 0; 0; 0; 0; 0; 2366619162231752500; 0;
  0; 0; 0; 0; 0; -2018259602914896300; 0; 0; 0; 0; 0; 0;
  20182596029148967900; 0; 0; 0; 0; 0; 0; 2018259602914896300; 0; -20182596029148967900; 0; 0;
  0; 0; 0; 0; 0; 0; 0; 0; 0; 0; 0; 0;
  -8290847335634310900; 0; 0; 0; 0; 0; 0; -5527231557089541200; 0; 22108926228358164700; 0; 0;
  0; 0; 0; 0; 0; 0; 2763615778544770600; 0; -7369642076119388800; 0; 0; 0;
  0; 921205259514923600; 0; 0; 0; 0; 1842410519029847200; 0; -14739284152238777600; 0; 0; 0;
  0; 0; 0; 921205259514923600; 0; -14739284152238777600; 0; 14739284152238777600; 0; 0; 0; 0;
  0; 0; 0; 0; 0; 0; 0; 0; 2913106812593656800; 0; 0; 0;
  0; 0; 0; 5826213625187313600; 0; -11652427250374627100; 0; 0; 0; 0; 0; 0;
  0; 0; 2913106812593656800; 0; -11652427250374627100; 0; 4660970900149850500; 0; -317846011338142100; 0; 0; -953538034014426400;
  0; 5721228204086558300; 0; 0; 0; 0; -953538034014426400; 0; 11442456408173116600; 0; -7628304272115411100; 0;
  0; 0; 0; 0; 0; -317846011338142100; 0; 5721228204086558300; 0; -7628304272115411100; 0; 1017107236282054800;
  0; 0; 2913106812593656800; 0; 0; 0; 0; 5826213625187313600; 0; -11652427250374627100; 0; 0;
  0; 0; 0; 0; 2913106812593656800; 0; -11652427250374627100; 0; 4660970900149850500; 0; 0; 0;
  0; 0; 0; 0; 460602629757461800; 0; 0; 460602629757461800; 0; -7369642076119388800; 0; 0;
  0; 0; -460602629757461800; 0; 0; 0; 7369642076119388800; 0; 0; 0; 0; 0;
  0; -460602629757461800; 0; 7369642076119388800; 0; -7369642076119388800; 0; 0; 0; 0; -2763615778544770600; 0;
  0; 0; 0; 5527231557089541200; 0; 7369642076119388800; 0; 0; 0; 0; 0; 0;
  8290847335634310900; 0; -22108926228358164700; 0; 0; 0; 0; 0; 0; 0; 0; 0;
  -504564900728724100; 0; 0; 2522824503643620100; 0; 5045649007287242000; 0; 0; 0; 0; 2522824503643620100; 0;
  -30273894043723451800; 0; 0; 0; 0; 0; 0; 0; 0; -504564900728724100; 0; 5045649007287242000;
  0; 0; 0; 0; 0; 0; 2366619162231752500; 0; 0; 0; 0; -23666191622317526800;
  0; 0; 0; 0; 0; 0; 0; 0; 11833095811158763400; 0; 0; 0;
  0; 0; 0; 0; 0; 0; 0; 0; 683184105191914400; 0; 0; -10247761577878716100;
  0; 0; 0; 0; 0; 0; 10247761577878716100; 0; 0; 0; 0; 0;
  0; 0; 0; 0; 0; -683184105191914400; 0; 0; 0; 0; 0; 0;
  0; 4950139127672174200; 0; 0; 0; 0; -24750695638360870300; 0; 0; 0; 0; 0;
  0; 0; 0; 14850417383016521800; 0; 0; 0; 0; 0; 0; 0; 0;
  0; 0; 0; 0; -707162732524596300; 0; 0; 0; 0; 0; 0; 0;
  0; 0; 0; 0; 15875763970811400200; 0; 0; 0; 0; 0; 0; -52919213236038004300;
  0; 0; 0; 0; 0; 0; 0; 0; 0; 0; 15875763970811400200; 0;
  0; 0; 0; 0; 0; 0; 0; 0; 0; 0; 0; 0;
  0; -2594577893601302000; 0; 0; 0; 0; 2594577893601302000; 0; 31134934723215621900; 0; 0; 0;
  0; 0; 0; 4670240208482344000; 0; -62269869446431243900; 0; 0; 0; 0; 0; 0;
  0; 0; 0; 0; -518915578720260400; 0; 6226986944643124700; 0; 0; 0; 0; 0;
  0; 0; 0; 0; -12453973889286249500; 0; 0; 0; 0; 0; 0; 0;
  0; 41513246297620831600; 0; 0; 0; 0; 0; 0; 0; 0; 12453973889286249500; 0;
  -41513246297620831600; 0; 0; 0; 0; 0; 0; 0; 0; 0; 0; 0;
  0; 1408130404760646200; 0; 0; 0; 0; 2346884007934410700; 0; -28162608095212924300; 0; 0; 0;
  0; 0; 0; 469376801586882100].
Definition g_trans_cart2sph_dec_1 : list Z := [
  0; -18775072063475281700; 0; 37550144126950570500; 0; 0; 0; 0; 0; 0; 0; 0;
  -469376801586882100; 0; 9387536031737640800; 0; -12516714708983522900; 0; 0; 0; 0; 0; 0; 0;
  6637990386674741400; 0; 0; 0; 0; 0; 0; 13275980773349482800; 0; -35402615395598616000; 0; 0;
  0; 0; 0; 0; 0; 0; 6637990386674741400; 0; -35402615395598616000; 0; 21241569237359172500; 0;
  0; 0; 0; 0; 0; 0; 0; 0; 0; -451658037912586600; 0; 0;
  0; 0; -1354974113737760000; 0; 10839792909902078200; 0; 0; 0; 0; 0; 0; -1354974113737760000;
  0; 21679585819804156400; 0; -21679585819804156400; 0; 0; 0; 0; 0; 0; 0; 0;
  -451658037912586600; 0; 10839792909902078200; 0; -21679585819804156400; 0; 5781222885281109400; 0; 0; 0; -2389949691920172800; 0;
  0; 0; 0; -7169849075760518900; 0; 14339698151521036000; 0; 0; 0; 0; 0; 0;
  -7169849075760518900; 0; 28679396303042072000; 0; -11471758521216829200; 0; 0; 0; 0; 0; 0; 0;
  0; -2389949691920172800; 0; 14339698151521036000; 0; -11471758521216829200; 0; 1092548430592079000; -451658037912586600; 0; 0; -1354974113737760000;
  0; 10839792909902078200; 0; 0; 0; 0; -1354974113737760000; 0; 21679585819804156400; 0; -21679585819804156400; 0;
  0; 0; 0; 0; 0; -451658037912586600; 0; 10839792909902078200; 0; -21679585819804156400; 0; 5781222885281109400;
  0; 0; 0; 0; 0; 0; 0; 0; 0; 0; 3318995193337370700; 0;
  0; 0; 0; 3318995193337370700; 0; -17701307697799308000; 0; 0; 0; 0; 0; 0;
  -3318995193337370700; 0; 0; 0; 10620784618679586200; 0; 0; 0; 0; 0; 0; 0;
  0; -3318995193337370700; 0; 17701307697799308000; 0; -10620784618679586200; 0; 0; 469376801586882100; 0; 0; -469376801586882100;
  0; -9387536031737640800; 0; 0; 0; 0; -2346884007934410700; 0; 18775072063475281700; 0; 12516714708983522900; 0;
  0; 0; 0; 0; 0; -1408130404760646200; 0; 28162608095212924300; 0; -37550144126950570500; 0; 0;
  0; 0; 0; 0; 0; 0; 0; 0; 0; 0; -3113493472321562400; 0;
  0; 0; 0; 15567467361607811000; 0; 10378311574405207900; 0; 0; 0; 0; 0; 0;
  15567467361607811000; 0; -62269869446431243900; 0; 0; 0; 0; 0; 0; 0; 0; 0;
  0; -3113493472321562400; 0; 10378311574405207900; 0; 0; 0; 0; -518915578720260400; 0; 0; 4670240208482344000;
  0; 6226986944643124700; 0; 0; 0; 0; 2594577893601302000; 0; -62269869446431243900; 0; 0; 0;
  0; 0; 0; 0; 0; -2594577893601302000; 0; 31134934723215621900; 0; 0; 0; 0;
  0; 0; 0; 0; 0; 0; 0; 0; 0; 0; 2645960661801900000; 0;
  0; 0; 0; -39689409927028499700; 0; 0; 0; 0; 0; 0; 0; 0;
  39689409927028499700; 0; 0; 0; 0; 0; 0; 0; 0; 0; 0; 0;
  0; -2645960661801900000; 0; 0; 0; 0; 0; 0; 707162732524596300; 0; 0; -14850417383016521800;
  0; 0; 0; 0; 0; 0; 24750695638360870300; 0; 0; 0; 0; 0;
  0; 0; 0; 0; 0; -4950139127672174200; 0; 0; 0; 0; 0; 0;
  0; 0; 0; 0; 0; 0; 0; 0; 0; 5831413281398640000; 0; 0;
  0; 0; -40819892969790480000; 0; 0; 0; 0; 0; 0; 0; 0; 40819892969790480000;
  0; 0; 0; 0; 0; 0; 0; 0; 0; 0; 0; 0;
  -5831413281398640000; 0; 0; 0; 0; 0; 0; 0; 0; 0; 0; 0;
  0; 0; 0; 0; 0; 0; 0; 0; 0; 20409946484895240000; 0; 0;
  0; 0; 0; 0; -102049732424476200000; 0; 0; 0; 0; 0; 0; 0;
  0; 0; 0; 61229839454685720000; 0; 0; 0; 0; 0; 0; 0; 0;
  0; 0; 0; 0; 0; 0; -2915706640699320000; 0; 0; 0; 0; 0;
  0; 0; 0; -3193996596357255000; 0; 0; 0; 0; 7452658724833595000; 0; 44715952349001570000; 0;
  0; 0; 0; 0; 0; 7452658724833595000; 0; -149053174496671900000; 0; 0; 0; 0;
  0; 0; 0; 0; 0; 0; -3193996596357255000; 0; 44715952349001570000; 0; 0; 0;
  0; 0; 0; 0; 0; 0; 0; 0; 0; 0; 0; 0;
  0; 0; 0; -17249553110490540000; 0; 0; 0; 0; 0; 0; 17249553110490540000; 0;
  68998212441962170000; 0; 0; 0; 0; 0; 0; 0; 0; 31049195598882970000; 0; -137996424883924300000;
  0; 0; 0; 0; 0; 0; 0; 0; 0; 0; 0; 0;
  -3449910622098108000; 0; 13799642488392430000; 0; 0; 0; 0; 0; 0; 1913666099037323000; 0; 0;
  0; 0; 1913666099037323000; 0; -45927986376895750000; 0; 0; 0; 0; 0; 0; -1913666099037323000;
  0; 0; 0; 76546643961492920000; 0; 0; 0; 0; 0; 0; 0; 0;
  -1913666099037323000; 0; 45927986376895750000; 0; -76546643961492920000; 0; 0; 0; 0; 0; 0; 0;
  0; 0; 0; 0; 0; 0; 0; 0; 0; 11117395397659900000; 0; 0;
  0; 0; 0; 0; 18528992329433160000; 0; -74115969317732650000; 0; 0; 0; 0; 0;
  0; 0; 0; 3705798465886632000; 0; -49410646211821760000; 0; 59292775454186110000; 0; 0; 0; 0;
  0; 0; 0; 0; 0; 0; -3705798465886632000; 0; 24705323105910880000; 0; -19764258484728700000; 0;
  0; 0; 0; -912304516869818900; 0; 0; 0; 0; -2736913550609457000; 0; 27369135506094570000; 0;
  0; 0; 0; 0; 0; -2736913550609457000; 0; 54738271012189140000; 0; -72984361349585530000; 0; 0;
  0; 0; 0; 0; 0; 0; -912304516869818900; 0; 27369135506094570000; 0; -72984361349585530000; 0;
  29193744539834210000; 0; 0; 0; 0; 0; 0; 0; 0; 0; 0; 0;
  0; 0; 0; -3816443606457300000; 0; 0; 0; 0; 0; 0; -11449330819371900000; 0;
  30531548851658400000; 0; 0; 0; 0; 0; 0; 0; 0; -11449330819371900000; 0; 61063097703316790000;
  0; -36637858621990070000; 0; 0; 0; 0; 0; 0; 0; 0; 0; 0;
  -3816443606457300000; 0; 30531548851658400000; 0; -36637858621990070000; 0; 6978639737521918000; 0; 318036967204774900; 0; 0; 1272147868819099000;
  0; -10177182950552800000; 0; 0; 0; 0; 1908221803228649000; 0; -30531548851658390000; 0; 30531548851658390000; 0;
  0; 0; 0; 0; 0; 1272147868819099000; 0; -30531548851658390000; 0; 61063097703316770000; 0; -16283492720884470000;
  0; 0; 0; 0; 0; 0; 0; 0; 318036967204774900; 0; -10177182950552800000; 0;
  30531548851658390000; 0; -16283492720884470000; 0; 1163106622920320000; 0; 0; -3816443606457300000; 0; 0; 0; 0;
  -11449330819371900000; 0; 30531548851658400000; 0; 0; 0; 0; 0; 0; -11449330819371900000; 0; 61063097703316790000;
  0; -36637858621990070000; 0; 0; 0; 0; 0; 0; 0; 0; -3816443606457300000; 0;
  30531548851658400000; 0; -36637858621990070000; 0; 6978639737521918000; 0; 0; 0; 0; 0; 0; 0;
  0; 0; -456152258434909500; 0; 0; -912304516869818900; 0; 13684567753047290000; 0; 0; 0; 0;
  0; 0; 13684567753047290000; 0; -36492180674792760000; 0; 0; 0; 0; 0; 0; 912304516869818900;
  0; -13684567753047290000; 0; 0; 0; 14596872269917100000; 0; 0; 0; 0; 0; 0;
  0; 0; 456152258434909500; 0; -13684567753047290000; 0; 36492180674792760000; 0; -14596872269917100000; 0; 0; 0;
  0; 3705798465886632000; 0; 0; 0; 0; -3705798465886632000; 0; -24705323105910880000; 0; 0; 0;
  0; 0; 0; -18528992329433160000; 0; 49410646211821760000; 0; 19764258484728700000; 0; 0; 0; 0;
  0; 0; 0; 0; -11117395397659900000; 0; 74115969317732650000; 0; -59292775454186110000; 0; 0; 0;
  0; 0; 0; 0; 0; 0; 0; 0; 478416524759330800; 0; 0; -1913666099037323000;
  0; -11481996594223940000; 0; 0; 0; 0; -4784165247593307000; 0; 57409982971119680000; 0; 19136660990373230000; 0;
  0; 0; 0; 0; 0; -1913666099037323000; 0; 57409982971119680000; 0; -114819965942239400000; 0; 0;
  0; 0; 0; 0; 0; 0; 0; 0; 478416524759330800; 0; -11481996594223940000; 0;
  19136660990373230000; 0; 0; 0; 0; 0; 0; -3449910622098108000; 0; 0; 0; 0;
  31049195598882970000; 0; 13799642488392430000; 0; 0; 0; 0; 0; 0; 17249553110490540000; 0; -137996424883924300000;
  0; 0; 0; 0; 0; 0; 0; 0; 0; 0; -17249553110490540000; 0;
  68998212441962170000; 0; 0; 0].
Definition g_trans_cart2sph_dec_2 : list Z := [
  0; 0; 0; 0; 0; 0; 0; 0; 0; 0; -532332766059542500; 0;
  0; 7452658724833595000; 0; 7452658724833595000; 0; 0; 0; 0; 0; 0; -111789880872503900000; 0;
  0; 0; 0; 0; 0; 0; 0; -7452658724833595000; 0; 111789880872503900000; 0; 0;
  0; 0; 0; 0; 0; 0; 0; 0; 0; 0; 532332766059542500; 0;
  -7452658724833595000; 0; 0; 0; 0; 0; 0; 0; 0; 2915706640699320000; 0; 0;
  0; 0; -61229839454685720000; 0; 0; 0; 0; 0; 0; 0; 0; 102049732424476200000;
  0; 0; 0; 0; 0; 0; 0; 0; 0; 0; 0; 0;
  -20409946484895240000; 0; 0; 0; 0; 0; 0; 0; 0; 0; 0; 0;
  0; 0; 0; 0; 728926660174830000; 0; 0; -20409946484895240000; 0; 0; 0; 0;
  0; 0; 51024866212238100000; 0; 0; 0; 0; 0; 0; 0; 0; 0;
  0; -20409946484895240000; 0; 0; 0; 0; 0; 0; 0; 0; 0; 0;
  0; 0; 0; 0; 728926660174830000; 0; 0; 0; 0; 0; 0; 0;
  0; 0; 6740108566678694000; 0; 0; 0; 0; -62907679955667800000; 0; 0; 0; 0;
  0; 0; 0; 0; 94361519933501710000; 0; 0; 0; 0; 0; 0; 0;
  0; 0; 0; 0; 0; -26960434266714770000; 0; 0; 0; 0; 0; 0;
  0; 0; 0; 0; 0; 0; 0; 0; 0; 0; 748900951853188200; 0;
  0; 0; 0; 0; 0; 0; 0; 0; 0; 0; 0; 0;
  25418541191637580000; 0; 0; 0; 0; 0; 0; -177929788341463100000; 0; 0; 0; 0;
  0; 0; 0; 0; 0; 0; 177929788341463100000; 0; 0; 0; 0; 0;
  0; 0; 0; 0; 0; 0; 0; 0; 0; -25418541191637580000; 0; 0;
  0; 0; 0; 0; 0; 0; 0; 0; 0; 0; 0; 0;
  0; 0; 0; 0; -3814338369408373000; 0; 0; 0; 0; 15257353477633490000; 0; 61029413910533960000;
  0; 0; 0; 0; 0; 0; 7628676738816745000; 0; -305147069552669800000; 0; 0; 0;
  0; 0; 0; 0; 0; 0; 0; -10898109626881070000; 0; 183088241731601900000; 0; 0;
  0; 0; 0; 0; 0; 0; 0; 0; 0; 0; 0; 0;
  544905481344053300; 0; -8718487701504852000; 0; 0; 0; 0; 0; 0; 0; 0; 0;
  0; 0; -22651295496256210000; 0; 0; 0; 0; 0; 0; 52853022824597820000; 0; 105706045649195600000;
  0; 0; 0; 0; 0; 0; 0; 0; 52853022824597820000; 0; -352353485497318700000; 0;
  0; 0; 0; 0; 0; 0; 0; 0; 0; 0; 0; -22651295496256210000;
  0; 105706045649195600000; 0; 0; 0; 0; 0; 0; 0; 0; 0; 0;
  0; 0; 0; 0; 0; 0; 2436891395195093000; 0; 0; 0; 0; 0;
  0; -68232959065462610000; 0; 0; 0; 0; 0; 0; -6823295906546260000; 0; 68232959065462610000; 0;
  136465918130925200000; 0; 0; 0; 0; 0; 0; 0; 0; -3899026232312149000; 0; 122819326317832700000;
  0; -272931836261850400000; 0; 0; 0; 0; 0; 0; 0; 0; 0; 0;
  0; 0; 487378279039018600; 0; -13646591813092520000; 0; 27293183626185040000; 0; 0; 0; 0; 0;
  0; 0; 0; 0; 16310796954916690000; 0; 0; 0; 0; 0; 0; 16310796954916690000;
  0; -130486375639333500000; 0; 0; 0; 0; 0; 0; 0; 0; -16310796954916690000; 0;
  0; 0; 130486375639333500000; 0; 0; 0; 0; 0; 0; 0; 0; 0;
  0; -16310796954916690000; 0; 130486375639333500000; 0; -130486375639333500000; 0; 0; 0; 0; 0; 0;
  0; 0; 0; 0; 0; 0; 0; 0; -1385125560048583000; 0; 0; 0;
  0; -3693668160129556000; 0; 49864520161749000000; 0; 0; 0; 0; 0; 0; -2770251120097167000; 0;
  83107533602915000000; 0; -166215067205830000000; 0; 0; 0; 0; 0; 0; 0; 0; 0;
  0; 16621506720583000000; 0; -110810044803886700000; 0; 88648035843109340000; 0; 0; 0; 0; 0; 0;
  0; 0; 0; 0; 461708520016194500; 0; -16621506720583000000; 0; 55405022401943330000; 0; -29549345281036450000; 0;
  0; 0; 0; 0; 0; 0; -8463256967920980000; 0; 0; 0; 0; 0;
  0; -25389770903762940000; 0; 84632569679209790000; 0; 0; 0; 0; 0; 0; 0; 0;
  -25389770903762940000; 0; 169265139358419600000; 0; -135412111486735700000; 0; 0; 0; 0; 0; 0; 0;
  0; 0; 0; -8463256967920980000; 0; 84632569679209790000; 0; -135412111486735700000; 0; 38689174710495910000; 0; 0;
  0; 0; 0; 0; 0; 0; 0; 0; 0; 0; 451093112065591000; 0;
  0; 0; 0; 1804372448262364000; 0; -18043724482623640000; 0; 0; 0; 0; 0; 0;
  2706558672393546000; 0; -54131173447870920000; 0; 72174897930494570000; 0; 0; 0; 0; 0; 0; 0;
  0; 1804372448262364000; 0; -54131173447870920000; 0; 144349795860989100000; 0; -57739918344395650000; 0; 0; 0; 0;
  0; 0; 0; 0; 0; 0; 451093112065591000; 0; -18043724482623640000; 0; 72174897930494570000; 0;
  -57739918344395650000; 0; 8248559763485094000; 0; 0; 0; 3026024588281776000; 0; 0; 0; 0; 12104098353127100000;
  0; -32277595608338950000; 0; 0; 0; 0; 0; 0; 18156147529690660000; 0; -96832786825016850000; 0;
  58099672095010100000; 0; 0; 0; 0; 0; 0; 0; 0; 12104098353127100000; 0; -96832786825016850000;
  0; 116199344190020200000; 0; -22133208417146700000; 0; 0; 0; 0; 0; 0; 0; 0;
  0; 0; 3026024588281776000; 0; -32277595608338950000; 0; 58099672095010100000; 0; -22133208417146700000; 0; 1229622689841484000; 451093112065591000;
  0; 0; 1804372448262364000; 0; -18043724482623640000; 0; 0; 0; 0; 2706558672393546000; 0; -54131173447870920000;
  0; 72174897930494570000; 0; 0; 0; 0; 0; 0; 1804372448262364000; 0; -54131173447870920000; 0;
  144349795860989100000; 0; -57739918344395650000; 0; 0; 0; 0; 0; 0; 0; 0; 451093112065591000;
  0; -18043724482623640000; 0; 72174897930494570000; 0; -57739918344395650000; 0; 8248559763485094000; 0; 0; 0; 0;
  0; 0; 0; 0; 0; 0; 0; 0; -4231628483960490000; 0; 0; 0;
  0; -8463256967920980000; 0; 42316284839604900000; 0; 0; 0; 0; 0; 0; 0; 0;
  42316284839604900000; 0; -67706055743367840000; 0; 0; 0; 0; 0; 0; 0; 0; 8463256967920980000;
  0; -42316284839604900000; 0; 0; 0; 19344587355247950000; 0; 0; 0; 0; 0; 0;
  0; 0; 0; 0; 4231628483960490000; 0; -42316284839604900000; 0; 67706055743367840000; 0; -19344587355247950000; 0;
  0; -461708520016194500; 0; 0; 0; 0; 16621506720583000000; 0; 0; 0; 0; 2770251120097167000;
  0; -16621506720583000000; 0; -55405022401943330000; 0; 0; 0; 0; 0; 0; 3693668160129556000; 0;
  -83107533602915000000; 0; 110810044803886700000; 0; 29549345281036450000; 0; 0; 0; 0; 0; 0; 0;
  0; 1385125560048583000; 0; -49864520161749000000; 0; 166215067205830000000; 0; -88648035843109340000; 0; 0; 0; 0;
  0; 0; 0; 0; 0; 0; 0; 0; 0; 0; 4077699238729173000; 0;
  0; 0; 0; -16310796954916690000; 0; -32621593909833390000; 0; 0; 0; 0; 0; 0;
  -40776992387291730000; 0; 163107969549166900000; 0; 32621593909833390000; 0; 0; 0; 0; 0; 0; 0;
  0; -16310796954916690000; 0; 163107969549166900000; 0; -195729563459000300000; 0; 0; 0; 0; 0; 0;
  0; 0; 0; 0; 0; 0; 4077699238729173000; 0; -32621593909833390000; 0; 32621593909833390000; 0;
  0; 0; 0; 487378279039018600; 0; 0; -3899026232312149000; 0; -13646591813092520000; 0; 0; 0;
  0; -6823295906546260000; 0; 122819326317832700000; 0; 27293183626185040000; 0; 0; 0; 0; 0; 0;
  0; 0; 68232959065462610000; 0; -272931836261850400000; 0; 0; 0; 0; 0; 0; 0;
  0; 0; 0; 2436891395195093000; 0; -68232959065462610000; 0; 136465918130925200000; 0; 0; 0; 0;
  0; 0; 0; 0; 0; 0; 0; 0; 0; 0; 0; 0;
  -3775215916042701000; 0; 0; 0; 0; 52853022824597820000; 0; 17617674274865940000; 0; 0; 0; 0;
  0; 0; 0; 0; -264265114122989100000; 0; 0; 0; 0; 0; 0; 0;
  0; 0; 0; -52853022824597820000].
Definition g_trans_cart2sph_dec_3 : list Z := [
  0; 264265114122989100000; 0; 0; 0; 0; 0; 0; 0; 0; 0; 0;
  0; 0; 0; 0; 3775215916042701000; 0; -17617674274865940000; 0; 0; 0; 0; 0;
  0; -544905481344053300; 0; 0; 10898109626881070000; 0; 8718487701504852000; 0; 0; 0; 0; -7628676738816745000;
  0; -183088241731601900000; 0; 0; 0; 0; 0; 0; 0; 0; -15257353477633490000; 0;
  305147069552669800000; 0; 0; 0; 0; 0; 0; 0; 0; 0; 0; 0;
  0; 3814338369408373000; 0; -61029413910533960000; 0; 0; 0; 0; 0; 0; 0; 0;
  0; 0; 0; 0; 0; 0; 0; 0; 0; 0; 3177317648954698000; 0;
  0; 0; 0; -88964894170731540000; 0; 0; 0; 0; 0; 0; 0; 0;
  222412235426828900000; 0; 0; 0; 0; 0; 0; 0; 0; 0; 0; 0;
  0; -88964894170731540000; 0; 0; 0; 0; 0; 0; 0; 0; 0; 0;
  0; 0; 0; 0; 0; 0; 3177317648954698000; 0; 0; 0; 0; 0;
  0; 0; 0; 748900951853188200; 0; 0; -26960434266714770000; 0; 0; 0; 0; 0;
  0; 94361519933501710000; 0; 0; 0; 0; 0; 0; 0; 0; 0; 0;
  -62907679955667800000; 0; 0; 0; 0; 0; 0; 0; 0; 0; 0; 0;
  0; 0; 0; 6740108566678694000; 0; 0; 0; 0; 0; 0; 0; 0;
  0; 0; 0; 0; 0; 0; 0; 0; 0; 0; 0; 7673951182219901000;
  0; 0; 0; 0; -92087414186638810000; 0; 0; 0; 0; 0; 0; 0;
  0; 193383569791941500000; 0; 0; 0; 0; 0; 0; 0; 0; 0; 0;
  0; 0; -92087414186638810000; 0; 0; 0; 0; 0; 0; 0; 0; 0;
  0; 0; 0; 0; 0; 0; 0; 7673951182219901000; 0; 0; 0; 0;
  0; 0; 0; 0; 0; 0; 0; 0; 0; 0; 0; 0;
  0; 0; 0; 0; 0; 0; 0; 0; 30887057699025430000; 0; 0; 0;
  0; 0; 0; -288279205190904100000; 0; 0; 0; 0; 0; 0; 0; 0;
  0; 0; 432418807786356100000; 0; 0; 0; 0; 0; 0; 0; 0; 0;
  0; 0; 0; 0; 0; -123548230796101700000; 0; 0; 0; 0; 0; 0;
  0; 0; 0; 0; 0; 0; 0; 0; 0; 0; 0; 0;
  3431895299891715000; 0; 0; 0; 0; 0; 0; 0; 0; 0; 0; -4453815461763347000;
  0; 0; 0; 0; 26722892770580080000; 0; 80168678311740270000; 0; 0; 0; 0; 0;
  0; 0; 0; -561180748182181900000; 0; 0; 0; 0; 0; 0; 0; 0;
  0; 0; -26722892770580080000; 0; 561180748182181900000; 0; 0; 0; 0; 0; 0; 0;
  0; 0; 0; 0; 0; 0; 0; 4453815461763347000; 0; -80168678311740270000; 0; 0;
  0; 0; 0; 0; 0; 0; 0; 0; 0; 0; 0; 0;
  0; 0; 0; 0; 0; 0; 0; 0; -28637635135825920000; 0; 0; 0;
  0; 0; 0; 114550540543303700000; 0; 152734054057738200000; 0; 0; 0; 0; 0; 0;
  0; 0; 57275270271651840000; 0; -763670270288691200000; 0; 0; 0; 0; 0; 0; 0;
  0; 0; 0; 0; 0; -81821814673788340000; 0; 458202162173214700000; 0; 0; 0; 0;
  0; 0; 0; 0; 0; 0; 0; 0; 0; 0; 0; 0;
  4091090733689417000; 0; -21819150579676890000; 0; 0; 0; 0; 0; 0; 0; 0; 2976705744527138000;
  0; 0; 0; 0; -3968940992702851000; 0; -95254583824868420000; 0; 0; 0; 0; 0;
  0; -13891293474459980000; 0; 222260695591359600000; 0; 222260695591359700000; 0; 0; 0; 0; 0; 0;
  0; 0; -3968940992702851000; 0; 222260695591359600000; 0; -740868985304532300000; 0; 0; 0; 0; 0;
  0; 0; 0; 0; 0; 0; 0; 2976705744527138000; 0; -95254583824868420000; 0; 222260695591359700000;
  0; 0; 0; 0; 0; 0; 0; 0; 0; 0; 0; 0;
  0; 0; 0; 0; 0; 0; 0; 0; 22187054645922680000; 0; 0; 0;
  0; 0; 0; 0; 0; -207079176695278300000; 0; 0; 0; 0; 0; 0;
  0; 0; -62123753008583490000; 0; 207079176695278300000; 0; 248495012034334000000; 0; 0; 0; 0; 0;
  0; 0; 0; 0; 0; -35499287433476280000; 0; 372742518051501000000; 0; -496990024068668000000; 0; 0;
  0; 0; 0; 0; 0; 0; 0; 0; 0; 0; 0; 0;
  4437410929184535000; 0; -41415835339055660000; 0; 49699002406866800000; 0; 0; 0; 0; 0; 0; -1870976726712969000;
  0; 0; 0; 0; -3741953453425937000; 0; 78581022521944690000; 0; 0; 0; 0; 0;
  0; 0; 0; 78581022521944690000; 0; -314324090087778800000; 0; 0; 0; 0; 0; 0;
  0; 0; 3741953453425937000; 0; -78581022521944690000; 0; 0; 0; 209549393391852500000; 0; 0; 0;
  0; 0; 0; 0; 0; 0; 0; 1870976726712969000; 0; -78581022521944690000; 0; 314324090087778800000;
  0; -209549393391852500000; 0; 0; 0; 0; 0; 0; 0; 0; 0; 0;
  0; 0; 0; 0; 0; 0; 0; 0; -13891293474459980000; 0; 0; 0;
  0; 0; 0; -37043449265226610000; 0; 166695521693519700000; 0; 0; 0; 0; 0; 0;
  0; 0; -27782586948919960000; 0; 277825869489199600000; 0; -333391043387039500000; 0; 0; 0; 0; 0;
  0; 0; 0; 0; 0; 0; 0; 55565173897839910000; 0; -222260695591359600000; 0; 127006111766491200000;
  0; 0; 0; 0; 0; 0; 0; 0; 0; 0; 0; 0;
  4630431158153326000; 0; -55565173897839910000; 0; 111130347795679800000; 0; -42335370588830410000; 0; 0; 0; 0; 908102262760455600;
  0; 0; 0; 0; 3632409051041822000; 0; -43588908612501870000; 0; 0; 0; 0; 0;
  0; 5448613576562733000; 0; -130766725837505600000; 0; 217944543062509300000; 0; 0; 0; 0; 0; 0;
  0; 0; 3632409051041822000; 0; -130766725837505600000; 0; 435889086125018700000; 0; -232474179266676600000; 0; 0; 0;
  0; 0; 0; 0; 0; 0; 0; 908102262760455600; 0; -43588908612501870000; 0; 217944543062509300000;
  0; -232474179266676600000; 0; 49815895557145000000; 0; 0; 0; 0; 0; 0; 0; 0;
  0; 0; 0; 0; 0; 0; 0; 0; 4718637772708116000; 0; 0; 0;
  0; 0; 0; 18874551090832470000; 0; -62915170302774880000; 0; 0; 0; 0; 0; 0;
  0; 0; 28311826636248700000; 0; -188745510908324700000; 0; 150996408726659700000; 0; 0; 0; 0; 0;
  0; 0; 0; 0; 0; 18874551090832470000; 0; -188745510908324700000; 0; 301992817453319400000; 0; -86283662129519840000;
  0; 0; 0; 0; 0; 0; 0; 0; 0; 0; 0; 0;
  4718637772708116000; 0; -62915170302774880000; 0; 150996408726659700000; 0; -86283662129519840000; 0; 9587073569946648000; 0; -318130493737367100; 0;
  0; -1590652468686835000; 0; 15906524686868350000; 0; 0; 0; 0; -3181304937373671000; 0; 63626098747473410000; 0;
  -84834798329964560000; 0; 0; 0; 0; 0; 0; -3181304937373671000; 0; 95439148121210120000; 0; -254504394989893700000;
  0; 101801757995957500000; 0; 0; 0; 0; 0; 0; 0; 0; -1590652468686835000; 0;
  63626098747473410000; 0; -254504394989893700000; 0; 203603515991914900000; 0; -29086216570273560000; 0; 0; 0; 0; 0;
  0; 0; 0; 0; 0; -318130493737367100; 0; 15906524686868350000; 0; -84834798329964560000; 0; 101801757995957500000;
  0; -29086216570273560000; 0; 1292720736456603000; 0; 0; 4718637772708116000; 0; 0; 0; 0; 18874551090832470000;
  0; -62915170302774880000; 0; 0; 0; 0; 0; 0; 28311826636248700000; 0; -188745510908324700000; 0;
  150996408726659700000; 0; 0; 0; 0; 0; 0; 0; 0; 18874551090832470000; 0; -188745510908324700000;
  0; 301992817453319400000; 0; -86283662129519840000; 0; 0; 0; 0; 0; 0; 0; 0;
  0; 0; 4718637772708116000; 0; -62915170302774880000; 0; 150996408726659700000; 0; -86283662129519840000; 0; 9587073569946648000; 0;
  0; 0; 0; 0; 0; 0; 0; 0; 0; 0; 454051131380227800; 0;
  0; 1362153394140683000; 0; -21794454306250930000; 0; 0; 0; 0; 908102262760455600; 0; -43588908612501870000; 0;
  108972271531254700000; 0; 0; 0].
Definition g_trans_cart2sph_dec_4 : list Z := [
  0; 0; 0; -908102262760455600; 0; 0; 0; 108972271531254700000; 0; -116237089633338300000; 0; 0;
  0; 0; 0; 0; 0; 0; -1362153394140683000; 0; 43588908612501870000; 0; -108972271531254700000; 0;
  0; 0; 24907947778572500000; 0; 0; 0; 0; 0; 0; 0; 0; 0;
  0; -454051131380227800; 0; 21794454306250930000; 0; -108972271531254700000; 0; 116237089633338300000; 0; -24907947778572500000; 0; 0;
  0; 0; -4630431158153326000; 0; 0; 0; 0; 0; 0; 55565173897839910000; 0; 0;
  0; 0; 0; 0; 27782586948919960000; 0; -55565173897839910000; 0; -111130347795679800000; 0; 0; 0;
  0; 0; 0; 0; 0; 37043449265226610000; 0; -277825869489199600000; 0; 222260695591359600000; 0; 42335370588830410000;
  0; 0; 0; 0; 0; 0; 0; 0; 0; 0; 13891293474459980000; 0;
  -166695521693519700000; 0; 333391043387039500000; 0; -127006111766491200000; 0; 0; 0; 0; 0; 0; 0;
  0; 0; 0; 0; 0; 0; -467744181678242200; 0; 0; 1403232545034726000; 0; 19645255630486170000;
  0; 0; 0; 0; 6548418543495391000; 0; -78581022521944690000; 0; -78581022521944690000; 0; 0; 0;
  0; 0; 0; 6548418543495391000; 0; -196452556304861700000; 0; 392905112609723500000; 0; 52387348347963130000; 0; 0;
  0; 0; 0; 0; 0; 0; 1403232545034726000; 0; -78581022521944690000; 0; 392905112609723500000; 0;
  -314324090087778800000; 0; 0; 0; 0; 0; 0; 0; 0; 0; 0; 0;
  0; -467744181678242200; 0; 19645255630486170000; 0; -78581022521944690000; 0; 52387348347963130000; 0; 0; 0; 0;
  0; 0; 4437410929184535000; 0; 0; 0; 0; -35499287433476280000; 0; -41415835339055660000; 0; 0;
  0; 0; 0; 0; -62123753008583490000; 0; 372742518051501000000; 0; 49699002406866800000; 0; 0; 0;
  0; 0; 0; 0; 0; 0; 0; 207079176695278300000; 0; -496990024068668000000; 0; 0;
  0; 0; 0; 0; 0; 0; 0; 0; 0; 0; 22187054645922680000; 0;
  -207079176695278300000; 0; 248495012034334000000; 0; 0; 0; 0; 0; 0; 0; 0; 0;
  0; 0; 0; 0; 0; 0; 496117624087856400; 0; 0; -6449529113142133000; 0; -15875763970811400000;
  0; 0; 0; 0; -6945646737229989000; 0; 222260695591359600000; 0; 37043449265226610000; 0; 0; 0;
  0; 0; 0; 6945646737229989000; 0; 0; 0; -555651738978399200000; 0; 0; 0; 0;
  0; 0; 0; 0; 0; 0; 6449529113142133000; 0; -222260695591359600000; 0; 555651738978399200000; 0;
  0; 0; 0; 0; 0; 0; 0; 0; 0; 0; 0; 0;
  0; -496117624087856400; 0; 15875763970811400000; 0; -37043449265226610000; 0; 0; 0; 0; 0; 0;
  0; 0; -4091090733689417000; 0; 0; 0; 0; 81821814673788340000; 0; 21819150579676890000; 0; 0;
  0; 0; 0; 0; -57275270271651840000; 0; -458202162173214700000; 0; 0; 0; 0; 0;
  0; 0; 0; 0; 0; -114550540543303700000; 0; 763670270288691200000; 0; 0; 0; 0;
  0; 0; 0; 0; 0; 0; 0; 0; 0; 0; 28637635135825920000; 0;
  -152734054057738200000; 0; 0; 0; 0; 0; 0; 0; 0; 0; 0; 0;
  0; 0; 0; 0; 0; 0; -556726932720418400; 0; 0; 15031627183451300000; 0; 10021084788967530000;
  0; 0; 0; 0; -23382531174257570000; 0; -280590374091091000000; 0; 0; 0; 0; 0;
  0; 0; 0; -23382531174257570000; 0; 701475935227727300000; 0; 0; 0; 0; 0; 0;
  0; 0; 0; 0; 0; 0; 15031627183451300000; 0; -280590374091091000000; 0; 0; 0;
  0; 0; 0; 0; 0; 0; 0; 0; 0; 0; 0; 0;
  0; -556726932720418400; 0; 10021084788967530000; 0; 0; 0; 0; 0; 0; 0; 0;
  0; 0; 3431895299891715000; 0; 0; 0; 0; -123548230796101700000; 0; 0; 0; 0;
  0; 0; 0; 0; 432418807786356100000; 0; 0; 0; 0; 0; 0; 0;
  0; 0; 0; 0; 0; -288279205190904100000; 0; 0; 0; 0; 0; 0;
  0; 0; 0; 0; 0; 0; 0; 0; 0; 0; 30887057699025430000; 0;
  0; 0; 0; 0; 0; 0; 0; 0; 0; 0; 0; 0;
  0; 0; 0; 0; 0; 0; 767395118221990100; 0; 0; -34532780319989560000; 0; 0;
  0; 0; 0; 0; 161152974826617900000; 0; 0; 0; 0; 0; 0; 0;
  0; 0; 0; -161152974826617900000; 0; 0; 0; 0; 0; 0; 0; 0;
  0; 0; 0; 0; 0; 0; 34532780319989560000; 0; 0; 0; 0; 0;
  0; 0; 0; 0; 0; 0; 0; 0; 0; 0; 0; 0;
  0; -767395118221990100; 0; 0; 0; 0; 0; 0; 0; 0; 0; 0;
  0; 8631063163659167000; 0; 0; 0; 0; -129465947454887500000; 0; 0; 0; 0; 0;
  0; 0; 0; 362504652873685000000; 0; 0; 0; 0; 0; 0; 0; 0;
  0; 0; 0; 0; -258931894909775100000; 0; 0; 0; 0; 0; 0; 0;
  0; 0; 0; 0; 0; 0; 0; 0; 0; 43155315818295840000; 0; 0;
  0; 0; 0; 0; 0; 0; 0; 0; 0; 0; 0; 0;
  0; 0; 0; 0; 0; 0; -784642105787197100; 0; 0; 0; 0; 0;
  0; 0; 0; 0; 0; 0; 0; 0; 0; 0; 36802976988053110000; 0;
  0; 0; 0; 0; 0; -441635723856637300000; 0; 0; 0; 0; 0; 0;
  0; 0; 0; 0; 927435020098938400000; 0; 0; 0; 0; 0; 0; 0;
  0; 0; 0; 0; 0; 0; 0; -441635723856637300000; 0; 0; 0; 0;
  0; 0; 0; 0; 0; 0; 0; 0; 0; 0; 0; 0;
  0; 0; 36802976988053110000; 0; 0; 0; 0; 0; 0; 0; 0; 0;
  0; 0; 0; 0; 0; 0; 0; 0; 0; 0; 0; 0;
  0; -5110940374050938000; 0; 0; 0; 0; 42591169783757810000; 0; 102218807481018800000; 0; 0; 0;
  0; 0; 0; -23851055078904380000; 0; -954042203156175100000; 0; 0; 0; 0; 0; 0;
  0; 0; 0; 0; -51109403740509380000; 0; 1431063304734263000000; 0; 0; 0; 0; 0;
  0; 0; 0; 0; 0; 0; 0; 0; 0; 19875879232420310000; 0; -408875229924075000000;
  0; 0; 0; 0; 0; 0; 0; 0; 0; 0; 0; 0;
  0; 0; 0; 0; 0; 0; -567882263783437500; 0; 11357645275668750000; 0; 0; 0;
  0; 0; 0; 0; 0; 0; 0; 0; 0; 0; -35190376803837130000; 0;
  0; 0; 0; 0; 0; 211142260823022800000; 0; 211142260823022800000; 0; 0; 0; 0;
  0; 0; 0; 0; 0; 0; -1477995825761159000000; 0; 0; 0; 0; 0;
  0; 0; 0; 0; 0; 0; 0; -211142260823022800000; 0; 1477995825761159000000; 0; 0;
  0; 0; 0; 0; 0; 0; 0; 0; 0; 0; 0; 0;
  0; 0; 35190376803837130000; 0; -211142260823022800000; 0; 0; 0; 0; 0; 0; 0;
  0; 0; 0; 0; 0; 0; 0; 0; 0; 0; 0; 0;
  0; 3532036427339827000; 0; 0; 0; 0; -10596109282019480000; 0; -127153311384233700000; 0; 0; 0;
  0; 0; 0; -21192218564038960000; 0; 508613245536935000000; 0; 339075497024623400000; 0; 0; 0; 0;
  0; 0; 0; 0; 3027459794862709000; 0; 254306622768467500000; 0; -1695377485123117000000; 0; 0; 0;
  0; 0; 0; 0; 0; 0; 0; 0; 0; 9586956017065244000; 0; -363295175383525000000;
  0; 1017226491073870000000; 0; 0; 0; 0; 0; 0; 0; 0; 0; 0;
  0; 0; 0; 0; 0; 0; -504576632477118100; 0; 18164758769176250000; 0; -48439356717803340000; 0;
  0; 0; 0; 0; 0; 0; 0; 0; 0; 0; 28721005429056860000; 0;
  0; 0; 0; 0; 0; -38294673905409150000; 0; -306357391243273200000; 0; 0; 0; 0;
  0; 0; 0; 0; -134031358668932000000; 0; 714833912900970900000; 0; 428900347740582400000; 0; 0; 0;
  0; 0; 0; 0].
Definition g_trans_cart2sph_dec_5 : list Z := [
  0; 0; 0; -38294673905409150000; 0; 714833912900970900000; 0; -1429667825801941000000; 0; 0; 0; 0;
  0; 0; 0; 0; 0; 0; 0; 0; 0; 0; 28721005429056860000; 0;
  -306357391243273200000; 0; 428900347740582400000; 0; 0; 0; 0; 0; 0; 0; 0; 0;
  0; 0; 0; 0; 0; 0; 0; 0; 0; -2369836079783365000; 0; 0;
  0; 0; -2369836079783365000; 0; 113752131829601500000; 0; 0; 0; 0; 0; 0; 6635541023393420000;
  0; 0; 0; -530843281871473700000; 0; 0; 0; 0; 0; 0; 0; 0;
  10427278751046800000; 0; -318505969122884200000; 0; 530843281871473700000; 0; 424674625497179000000; 0; 0; 0; 0; 0;
  0; 0; 0; 0; 0; 3317770511696710000; 0; -182003410927362400000; 0; 955517907368652600000; 0; -849349250994358000000;
  0; 0; 0; 0; 0; 0; 0; 0; 0; 0; 0; 0;
  0; 0; -473967215956672900; 0; 22750426365920300000; 0; -106168656374294700000; 0; 84934925099435800000; 0; 0; 0;
  0; 0; 0; 0; 0; 0; -20063990128304020000; 0; 0; 0; 0; 0;
  0; -40127980256608040000; 0; 280895861796256300000; 0; 0; 0; 0; 0; 0; 0; 0;
  0; 0; 280895861796256300000; 0; -674150068311015000000; 0; 0; 0; 0; 0; 0; 0;
  0; 0; 0; 40127980256608040000; 0; -280895861796256300000; 0; 0; 0; 321023842052864300000; 0; 0;
  0; 0; 0; 0; 0; 0; 0; 0; 0; 0; 20063990128304020000; 0;
  -280895861796256300000; 0; 674150068311015000000; 0; -321023842052864300000; 0; 0; 0; 0; 0; 0; 0;
  0; 0; 0; 0; 0; 0; 0; 0; 0; 1373687498354136000; 0; 0;
  0; 0; 5036854160631831000; 0; -76926499907831580000; 0; 0; 0; 0; 0; 0; 6410541658985967000;
  0; -205137333087550900000; 0; 461558999446989500000; 0; 0; 0; 0; 0; 0; 0; 0;
  2747374996708271000; 0; -153852999815663200000; 0; 769264999078315900000; 0; -615411999262652700000; 0; 0; 0; 0; 0;
  0; 0; 0; 0; 0; -457895832784711900; 0; 0; 0; 153852999815663200000; 0; -410274666175101800000;
  0; 175831999789329400000; 0; 0; 0; 0; 0; 0; 0; 0; 0; 0;
  0; 0; -457895832784711900; 0; 25642166635943860000; 0; -153852999815663200000; 0; 205137333087550900000; 0; -58610666596443120000; 0;
  0; 0; 0; 0; 0; 0; 10279735950671530000; 0; 0; 0; 0; 0;
  0; 41118943802686140000; 0; -164475775210744600000; 0; 0; 0; 0; 0; 0; 0; 0;
  61678415704029210000; 0; -493427325632233600000; 0; 493427325632233700000; 0; 0; 0; 0; 0; 0; 0;
  0; 0; 0; 41118943802686140000; 0; -493427325632233600000; 0; 986854651264467400000; 0; -375944629053130400000; 0; 0;
  0; 0; 0; 0; 0; 0; 0; 0; 0; 0; 10279735950671530000; 0;
  -164475775210744600000; 0; 493427325632233700000; 0; -375944629053130400000; 0; 62657438175521730000; 0; 0; 0; 0; 0;
  0; 0; 0; 0; 0; 0; 0; 0; 0; -450796242594761800; 0; 0;
  0; 0; -2253981212973809000; 0; 27047774555685710000; 0; 0; 0; 0; 0; 0; -4507962425947618000;
  0; 108191098222742900000; 0; -180318497037904700000; 0; 0; 0; 0; 0; 0; 0; 0;
  -4507962425947618000; 0; 162286647334114300000; 0; -540955491113714200000; 0; 288509595260647600000; 0; 0; 0; 0; 0;
  0; 0; 0; 0; 0; -2253981212973809000; 0; 108191098222742900000; 0; -540955491113714200000; 0; 577019190521295200000;
  0; -123646969397420400000; 0; 0; 0; 0; 0; 0; 0; 0; 0; 0;
  0; 0; -450796242594761800; 0; 27047774555685710000; 0; -180318497037904700000; 0; 288509595260647600000; 0; -123646969397420400000; 0;
  10990841724215150000; 0; 0; 0; -3662285987505434000; 0; 0; 0; 0; -18311429937527170000; 0; 61038099791757230000;
  0; 0; 0; 0; 0; 0; -36622859875054340000; 0; 244152399167028900000; 0; -195321919333623200000; 0;
  0; 0; 0; 0; 0; 0; 0; -36622859875054340000; 0; 366228598750543400000; 0; -585965758000869500000;
  0; 167418788000248400000; 0; 0; 0; 0; 0; 0; 0; 0; 0; 0;
  -18311429937527170000; 0; 244152399167028900000; 0; -585965758000869500000; 0; 334837576000496800000; 0; -37204175111166310000; 0; 0; 0;
  0; 0; 0; 0; 0; 0; 0; 0; 0; -3662285987505434000; 0; 61038099791757230000;
  0; -195321919333623200000; 0; 167418788000248400000; 0; -37204175111166310000; 0; 1352879094951502000; -450796242594761800; 0; 0; -2253981212973809000;
  0; 27047774555685710000; 0; 0; 0; 0; -4507962425947618000; 0; 108191098222742900000; 0; -180318497037904700000; 0;
  0; 0; 0; 0; 0; -4507962425947618000; 0; 162286647334114300000; 0; -540955491113714200000; 0; 288509595260647600000;
  0; 0; 0; 0; 0; 0; 0; 0; -2253981212973809000; 0; 108191098222742900000; 0;
  -540955491113714200000; 0; 577019190521295200000; 0; -123646969397420400000; 0; 0; 0; 0; 0; 0; 0;
  0; 0; 0; -450796242594761800; 0; 27047774555685710000; 0; -180318497037904700000; 0; 288509595260647600000; 0; -123646969397420400000;
  0; 10990841724215150000; 0; 0; 0; 0; 0; 0; 0; 0; 0; 0;
  0; 0; 0; 0; 5139867975335767000; 0; 0; 0; 0; 15419603926007300000; 0; -82237887605372280000;
  0; 0; 0; 0; 0; 0; 10279735950671530000; 0; -164475775210744600000; 0; 246713662816116900000; 0;
  0; 0; 0; 0; 0; 0; 0; -10279735950671530000; 0; 0; 0; 246713662816116900000;
  0; -187972314526565200000; 0; 0; 0; 0; 0; 0; 0; 0; 0; 0;
  -15419603926007300000; 0; 164475775210744600000; 0; -246713662816116900000; 0; 0; 0; 31328719087760870000; 0; 0; 0;
  0; 0; 0; 0; 0; 0; 0; 0; 0; -5139867975335767000; 0; 82237887605372280000;
  0; -246713662816116900000; 0; 187972314526565200000; 0; -31328719087760870000; 0; 0; 457895832784711900; 0; 0; 457895832784711900;
  0; -25642166635943860000; 0; 0; 0; 0; -2747374996708271000; 0; 0; 0; 153852999815663200000; 0;
  0; 0; 0; 0; 0; -6410541658985967000; 0; 153852999815663200000; 0; -153852999815663200000; 0; -205137333087550900000;
  0; 0; 0; 0; 0; 0; 0; 0; -5036854160631831000; 0; 205137333087550900000; 0;
  -769264999078315900000; 0; 410274666175101800000; 0; 58610666596443120000; 0; 0; 0; 0; 0; 0; 0;
  0; 0; 0; -1373687498354136000; 0; 76926499907831580000; 0; -461558999446989500000; 0; 615411999262652700000; 0; -175831999789329400000;
  0; 0; 0; 0; 0; 0; 0; 0; 0; 0; 0; 0;
  0; 0; 0; 0; -5015997532076005000; 0; 0; 0; 0; 15047992596228020000; 0; 70223965449064080000;
  0; 0; 0; 0; 0; 0; 70223965449064070000; 0; -280895861796256300000; 0; -168537517077753800000; 0;
  0; 0; 0; 0; 0; 0; 0; 70223965449064070000; 0; -702239654490640800000; 0; 842687585388768900000;
  0; 80255960513216080000; 0; 0; 0; 0; 0; 0; 0; 0; 0; 0;
  15047992596228020000; 0; -280895861796256300000; 0; 842687585388768900000; 0; -481535763079296500000; 0; 0; 0; 0; 0;
  0; 0; 0; 0; 0; 0; 0; 0; 0; -5015997532076005000; 0; 70223965449064080000;
  0; -168537517077753800000; 0; 80255960513216080000; 0; 0; 0; 0; -473967215956672900; 0; 0; 3317770511696710000;
  0; 22750426365920300000; 0; 0; 0; 0; 10427278751046800000; 0; -182003410927362400000; 0; -106168656374294700000; 0;
  0; 0; 0; 0; 0; 6635541023393420000; 0; -318505969122884200000; 0; 955517907368652600000; 0; 84934925099435800000;
  0; 0; 0; 0; 0; 0; 0; 0; -2369836079783365000; 0; 0; 0;
  530843281871473700000; 0; -849349250994358000000; 0; 0; 0; 0; 0; 0; 0; 0; 0;
  0; 0; 0; -2369836079783365000; 0; 113752131829601500000; 0; -530843281871473700000; 0; 424674625497179000000; 0; 0;
  0; 0; 0; 0; 0; 0; 0; 0; 0; 0; 0; 0;
  0; 0; 0; 0; 4786834238176144000; 0; 0; 0; 0; -62228845096289870000; 0; -51059565207212200000;
  0; 0; 0; 0; 0; 0; -67015679334466010000; 0; 714833912900970900000; 0; 71483391290097070000; 0;
  0; 0; 0; 0; 0; 0; 0; 67015679334466010000; 0; 0; 0; -1072250869351456000000;
  0; 0; 0; 0; 0; 0; 0; 0; 0; 0; 0; 0;
  62228845096289870000; 0; -714833912900970900000; 0; 1072250869351456000000; 0; 0; 0; 0; 0; 0; 0;
  0; 0; 0; 0; 0; 0; 0; 0; 0; -4786834238176144000; 0; 51059565207212200000;
  0; -71483391290097070000; 0; 0; 0; 0; 0; 0; 504576632477118100; 0; 0; -9586956017065244000;
  0; -18164758769176250000; 0; 0; 0; 0; -3027459794862709000; 0; 363295175383525000000; 0; 48439356717803340000; 0;
  0; 0; 0; 0].
Definition g_trans_cart2sph_dec_6 : list Z := [
  0; 21192218564038960000; 0; -254306622768467500000; 0; -1017226491073870000000; 0; 0; 0; 0; 0; 0;
  0; 0; 0; 0; 10596109282019480000; 0; -508613245536935000000; 0; 1695377485123117000000; 0; 0; 0;
  0; 0; 0; 0; 0; 0; 0; 0; 0; 0; 0; -3532036427339827000;
  0; 127153311384233700000; 0; -339075497024623400000; 0; 0; 0; 0; 0; 0; 0; 0;
  0; 0; 0; 0; 0; 0; 0; 0; 0; 0; 0; 0;
  -4398797100479641000; 0; 0; 0; 0; 118767521712950300000; 0; 26392782602877840000; 0; 0; 0; 0;
  0; 0; -184749478220144900000; 0; -738997912880579600000; 0; 0; 0; 0; 0; 0; 0;
  0; 0; 0; -184749478220144900000; 0; 1847494782201449000000; 0; 0; 0; 0; 0; 0;
  0; 0; 0; 0; 0; 0; 0; 0; 118767521712950300000; 0; -738997912880579600000; 0;
  0; 0; 0; 0; 0; 0; 0; 0; 0; 0; 0; 0;
  0; 0; 0; 0; 0; -4398797100479641000; 0; 26392782602877840000; 0; 0; 0; 0;
  0; 0; 0; 0; -567882263783437500; 0; 0; 19875879232420310000; 0; 11357645275668750000; 0; 0;
  0; 0; -51109403740509380000; 0; -408875229924075000000; 0; 0; 0; 0; 0; 0; 0;
  0; -23851055078904380000; 0; 1431063304734263000000; 0; 0; 0; 0; 0; 0; 0; 0;
  0; 0; 0; 0; 42591169783757810000; 0; -954042203156175100000; 0; 0; 0; 0; 0;
  0; 0; 0; 0; 0; 0; 0; 0; 0; 0; 0; -5110940374050938000;
  0; 102218807481018800000; 0; 0; 0; 0; 0; 0; 0; 0; 0; 0;
  0; 0; 0; 0; 0; 0; 0; 0; 0; 0; 0; 0;
  3680297698805311000; 0; 0; 0; 0; -165613396446239000000; 0; 0; 0; 0; 0; 0;
  0; 0; 772862516749115200000; 0; 0; 0; 0; 0; 0; 0; 0; 0;
  0; 0; 0; -772862516749115200000; 0; 0; 0; 0; 0; 0; 0; 0;
  0; 0; 0; 0; 0; 0; 0; 0; 165613396446239000000; 0; 0; 0;
  0; 0; 0; 0; 0; 0; 0; 0; 0; 0; 0; 0;
  0; 0; 0; 0; 0; -3680297698805311000; 0; 0; 0; 0; 0; 0;
  0; 0; 0; 0; 784642105787197100; 0; 0; -43155315818295840000; 0; 0; 0; 0;
  0; 0; 258931894909775100000; 0; 0; 0; 0; 0; 0; 0; 0; 0;
  0; -362504652873685000000; 0; 0; 0; 0; 0; 0; 0; 0; 0; 0;
  0; 0; 0; 0; 129465947454887500000; 0; 0; 0; 0; 0; 0; 0;
  0; 0; 0; 0; 0; 0; 0; 0; 0; 0; 0; -8631063163659167000;
  0; 0; 0; 0; 0; 0; 0; 0; 0; 0; 0; 0;
  0; 0; 0; 0; 0; 0; 0; 0; 0; 0; 0; 9609863949407661000;
  0; 0; 0; 0; -176180839072473800000; 0; 0; 0; 0; 0; 0; 0;
  0; 634251020660905600000; 0; 0; 0; 0; 0; 0; 0; 0; 0; 0;
  0; 0; -634251020660905600000; 0; 0; 0; 0; 0; 0; 0; 0; 0;
  0; 0; 0; 0; 0; 0; 0; 176180839072473800000; 0; 0; 0; 0;
  0; 0; 0; 0; 0; 0; 0; 0; 0; 0; 0; 0;
  0; 0; 0; 0; -9609863949407661000; 0; 0; 0; 0; 0; 0; 0;
  0; 0; 0; 0; 0; 0; 0; 0; 0; 0; 0; 0;
  0; 0; 0; 0; 0; 0; 0; 0; 0; 43155315818295830000; 0; 0;
  0; 0; 0; 0; -647329737274437300000; 0; 0; 0; 0; 0; 0; 0;
  0; 0; 0; 1812523264368425000000; 0; 0; 0; 0; 0; 0; 0; 0;
  0; 0; 0; 0; 0; 0; -1294659474548875000000; 0; 0; 0; 0; 0;
  0; 0; 0; 0; 0; 0; 0; 0; 0; 0; 0; 0;
  0; 215776579091479100000; 0; 0; 0; 0; 0; 0; 0; 0; 0; 0;
  0; 0; 0; 0; 0; 0; 0; 0; 0; 0; 0; 0;
  -3923210528935984000; 0; 0; 0; 0; 0; 0; 0; 0; 0; 0; 0;
  0; -5784458347938102000; 0; 0; 0; 0; 63629041827319120000; 0; 127258083654638300000; 0; 0; 0;
  0; 0; 0; -76354850192782950000; 0; -1527097003855659000000; 0; 0; 0; 0; 0; 0;
  0; 0; 0; 0; -76354850192782950000; 0; 3206903708096884000000; 0; 0; 0; 0; 0;
  0; 0; 0; 0; 0; 0; 0; 0; 0; 63629041827319120000; 0; -1527097003855659000000;
  0; 0; 0; 0; 0; 0; 0; 0; 0; 0; 0; 0;
  0; 0; 0; 0; 0; 0; -5784458347938102000; 0; 127258083654638300000; 0; 0; 0;
  0; 0; 0; 0; 0; 0; 0; 0; 0; 0; 0; 0;
  0; 0; 0; 0; 0; 0; 0; 0; 0; 0; 0; -42293845591799600000;
  0; 0; 0; 0; 0; 0; 352448713264996700000; 0; 281958970611997400000; 0; 0; 0;
  0; 0; 0; 0; 0; -197371279428398100000; 0; -2631617059045309000000; 0; 0; 0; 0;
  0; 0; 0; 0; 0; 0; 0; 0; -422938455917996000000; 0; 3947425588567963000000; 0;
  0; 0; 0; 0; 0; 0; 0; 0; 0; 0; 0; 0;
  0; 0; 0; 164476066190331800000; 0; -1127835882447989000000; 0; 0; 0; 0; 0; 0;
  0; 0; 0; 0; 0; 0; 0; 0; 0; 0; 0; 0;
  0; 0; -4699316176866622000; 0; 31328774512444150000; 0; 0; 0; 0; 0; 0; 0;
  0; 0; 0; 4101899446670816000; 0; 0; 0; 0; -20509497233354080000; 0; -164075977866832700000; 0;
  0; 0; 0; 0; 0; -24611396680024900000; 0; 984455867200996000000; 0; 492227933600497900000; 0; 0;
  0; 0; 0; 0; 0; 0; 24611396680024900000; 0; 0; 0; -3445595535203485000000; 0;
  0; 0; 0; 0; 0; 0; 0; 0; 0; 0; 0; 20509497233354080000;
  0; -984455867200996000000; 0; 3445595535203485000000; 0; 0; 0; 0; 0; 0; 0; 0;
  0; 0; 0; 0; 0; 0; 0; 0; -4101899446670816000; 0; 164075977866832700000; 0;
  -492227933600497900000; 0; 0; 0; 0; 0; 0; 0; 0; 0; 0; 0;
  0; 0; 0; 0; 0; 0; 0; 0; 0; 0; 0; 0;
  0; 35891620158369650000; 0; 0; 0; 0; 0; 0; -107674860475108900000; 0; -430699441900435700000; 0;
  0; 0; 0; 0; 0; 0; 0; -215349720950217900000; 0; 1722797767601743000000; 0; 689119107040697100000;
  0; 0; 0; 0; 0; 0; 0; 0; 0; 0; 30764245850031120000; 0;
  861398883800871300000; 0; -3445595535203485000000; 0; 0; 0; 0; 0; 0; 0; 0; 0;
  0; 0; 0; 0; 0; 97420111858431890000; 0; -1230569834001245000000; 0; 2067357321122091000000; 0; 0;
  0; 0; 0; 0; 0; 0; 0; 0; 0; 0; 0; 0;
  0; 0; 0; 0; -5127374308338521000; 0; 61528491700062240000; 0; -98445586720099580000; 0; 0; 0;
  0; 0; 0; 0; 0; -2881335616715016000; 0; 0; 0; 0; 960445205571671900; 0;
  155592123302610800000; 0; 0; 0; 0; 0; 0; 17288013700290090000; 0; -207456164403481100000; 0; -829824657613924500000;
  0; 0; 0; 0; 0; 0; 0; 0; 17288013700290090000; 0; -726096575412183900000; 0;
  1936257534432491000000; 0; 774503013772996200000; 0; 0; 0; 0; 0; 0; 0; 0; 0;
  0; 960445205571671900; 0; -207456164403481100000; 0; 1936257534432491000000; 0; -2581676712576654000000; 0; 0; 0; 0;
  0; 0; 0; 0; 0; 0; 0; 0; 0; 0; -2881335616715016000; 0;
  155592123302610800000; 0; -829824657613924500000; 0; 774503013772996200000; 0; 0; 0; 0; 0; 0; 0;
  0; 0; 0; 0].
Definition g_trans_cart2sph_dec_7 : list Z := [
  0; 0; 0; 0; 0; 0; 0; 0; 0; 0; 0; -26952426735141470000;
  0; 0; 0; 0; 0; 0; -26952426735141470000; 0; 431238827762263400000; 0; 0; 0;
  0; 0; 0; 0; 0; 75466794858396100000; 0; 0; 0; -1207468717734338000000; 0; 0;
  0; 0; 0; 0; 0; 0; 0; 0; 118590677634622500000; 0; -1207468717734338000000; 0;
  1207468717734338000000; 0; 689982124419621500000; 0; 0; 0; 0; 0; 0; 0; 0; 0;
  0; 0; 0; 37733397429198050000; 0; -689982124419621500000; 0; 2173443691921808000000; 0; -1379964248839243000000; 0; 0;
  0; 0; 0; 0; 0; 0; 0; 0; 0; 0; 0; 0;
  0; 0; -5390485347028293000; 0; 86247765552452690000; 0; -241493743546867600000; 0; 137996424883924300000; 0; 0; 0;
  0; 0; 0; 1848921220493557000; 0; 0; 0; 0; 5546763661480670000; 0; -118330958111587600000; 0;
  0; 0; 0; 0; 0; 3697842440987113000; 0; -236661916223175200000; 0; 828316706781113500000; 0; 0;
  0; 0; 0; 0; 0; 0; -3697842440987113000; 0; 0; 0; 828316706781113500000; 0;
  -1325306730849781000000; 0; 0; 0; 0; 0; 0; 0; 0; 0; 0; -5546763661480670000;
  0; 236661916223175200000; 0; -828316706781113500000; 0; 0; 0; 473323832446350500000; 0; 0; 0; 0;
  0; 0; 0; 0; 0; 0; 0; 0; -1848921220493557000; 0; 118330958111587600000; 0;
  -828316706781113500000; 0; 1325306730849781000000; 0; -473323832446350500000; 0; 0; 0; 0; 0; 0; 0;
  0; 0; 0; 0; 0; 0; 0; 0; 0; 0; 0; 0;
  0; 16640290984442010000; 0; 0; 0; 0; 0; 0; 61014400276287370000; 0; -310618765042917500000; 0;
  0; 0; 0; 0; 0; 0; 0; 77654691260729380000; 0; -828316706781113300000; 0; 1118227554154503000000;
  0; 0; 0; 0; 0; 0; 0; 0; 0; 0; 33280581968884020000; 0;
  -621237530085835000000; 0; 1863712590257505000000; 0; -1064978623004289000000; 0; 0; 0; 0; 0; 0; 0;
  0; 0; 0; 0; 0; -5546763661480670000; 0; 0; 0; 372742518051501000000; 0; -709985748669525700000;
  0; 236661916223175200000; 0; 0; 0; 0; 0; 0; 0; 0; 0; 0;
  0; 0; 0; 0; -5546763661480670000; 0; 103539588347639200000; 0; -372742518051501000000; 0; 354992874334762900000; 0;
  -78887305407725080000; 0; 0; 0; 0; -905782712962624400; 0; 0; 0; 0; -4528913564813122000; 0;
  63404789907383700000; 0; 0; 0; 0; 0; 0; -9057827129626244000; 0; 253619159629534800000; 0; -507238319259069600000;
  0; 0; 0; 0; 0; 0; 0; 0; -9057827129626244000; 0; 380428739444302200000; 0;
  -1521714957777209000000; 0; 1014476638518139000000; 0; 0; 0; 0; 0; 0; 0; 0; 0;
  0; -4528913564813122000; 0; 253619159629534800000; 0; -1521714957777209000000; 0; 2028953277036278000000; 0; -579700936296079600000; 0; 0;
  0; 0; 0; 0; 0; 0; 0; 0; 0; 0; -905782712962624400; 0;
  63404789907383700000; 0; -507238319259069600000; 0; 1014476638518139000000; 0; -579700936296079600000; 0; 77293458172810600000; 0; 0; 0;
  0; 0; 0; 0; 0; 0; 0; 0; 0; 0; 0; 0;
  0; 0; 0; -5620233931023189000; 0; 0; 0; 0; 0; 0; -28101169655115950000; 0;
  112404678620463800000; 0; 0; 0; 0; 0; 0; 0; 0; -56202339310231890000; 0; 449618714481855100000;
  0; -449618714481855100000; 0; 0; 0; 0; 0; 0; 0; 0; 0; 0;
  -56202339310231890000; 0; 674428071722782800000; 0; -1348856143445566000000; 0; 513849959407834400000; 0; 0; 0; 0; 0;
  0; 0; 0; 0; 0; 0; 0; -28101169655115950000; 0; 449618714481855100000; 0; -1348856143445566000000;
  0; 1027699918815669000000; 0; -171283319802611500000; 0; 0; 0; 0; 0; 0; 0; 0;
  0; 0; 0; 0; 0; 0; -5620233931023189000; 0; 112404678620463800000; 0; -449618714481855100000; 0;
  513849959407834400000; 0; -171283319802611500000; 0; 12456968712917200000; 0; 318183090330888000; 0; 0; 1909098541985328000; 0; -22909182503823930000;
  0; 0; 0; 0; 4772746354963320000; 0; -114545912519119700000; 0; 190909854198532800000; 0; 0; 0;
  0; 0; 0; 6363661806617760000; 0; -229091825038239300000; 0; 763639416794131100000; 0; -407274355623536600000; 0; 0;
  0; 0; 0; 0; 0; 0; 4772746354963320000; 0; -229091825038239300000; 0; 1145459125191197000000; 0;
  -1221823066870610000000; 0; 261819228615130700000; 0; 0; 0; 0; 0; 0; 0; 0; 0;
  0; 1909098541985328000; 0; -114545912519119700000; 0; 763639416794131100000; 0; -1221823066870610000000; 0; 523638457230261300000; 0; -46545640642689900000;
  0; 0; 0; 0; 0; 0; 0; 0; 0; 0; 0; 0;
  318183090330888000; 0; -22909182503823930000; 0; 190909854198532800000; 0; -407274355623536600000; 0; 261819228615130700000; 0; -46545640642689900000; 0;
  1410473958869391000; 0; 0; -5620233931023189000; 0; 0; 0; 0; -28101169655115950000; 0; 112404678620463800000; 0;
  0; 0; 0; 0; 0; -56202339310231890000; 0; 449618714481855100000; 0; -449618714481855100000; 0; 0;
  0; 0; 0; 0; 0; 0; -56202339310231890000; 0; 674428071722782800000; 0; -1348856143445566000000; 0;
  513849959407834400000; 0; 0; 0; 0; 0; 0; 0; 0; 0; 0; -28101169655115950000;
  0; 449618714481855100000; 0; -1348856143445566000000; 0; 1027699918815669000000; 0; -171283319802611500000; 0; 0; 0; 0;
  0; 0; 0; 0; 0; 0; 0; 0; -5620233931023189000; 0; 112404678620463800000; 0;
  -449618714481855100000; 0; 513849959407834400000; 0; -171283319802611500000; 0; 12456968712917200000; 0; 0; 0; 0; 0;
  0; 0; 0; 0; 0; 0; 0; 0; -452891356481312200; 0; 0; -1811565425925249000;
  0; 31702394953691850000; 0; 0; 0; 0; -2264456782406561000; 0; 95107184861075550000; 0; -253619159629534800000; 0;
  0; 0; 0; 0; 0; 0; 0; 63404789907383700000; 0; -507238319259069600000; 0; 507238319259069600000;
  0; 0; 0; 0; 0; 0; 0; 0; 2264456782406561000; 0; -63404789907383700000; 0;
  0; 0; 507238319259069600000; 0; -289850468148039800000; 0; 0; 0; 0; 0; 0; 0;
  0; 0; 0; 1811565425925249000; 0; -95107184861075550000; 0; 507238319259069600000; 0; -507238319259069600000; 0; 0;
  0; 38646729086405300000; 0; 0; 0; 0; 0; 0; 0; 0; 0; 0;
  0; 0; 452891356481312200; 0; -31702394953691850000; 0; 253619159629534800000; 0; -507238319259069600000; 0; 289850468148039800000; 0;
  -38646729086405300000; 0; 0; 0; 0; 5546763661480670000; 0; 0; 0; 0; 5546763661480670000; 0;
  -103539588347639200000; 0; 0; 0; 0; 0; 0; -33280581968884020000; 0; 0; 0; 372742518051501000000;
  0; 0; 0; 0; 0; 0; 0; 0; -77654691260729380000; 0; 621237530085835000000; 0;
  -372742518051501000000; 0; -354992874334762900000; 0; 0; 0; 0; 0; 0; 0; 0; 0;
  0; -61014400276287370000; 0; 828316706781113300000; 0; -1863712590257505000000; 0; 709985748669525700000; 0; 78887305407725080000; 0; 0;
  0; 0; 0; 0; 0; 0; 0; 0; 0; 0; -16640290984442010000; 0;
  310618765042917500000; 0; -1118227554154503000000; 0; 1064978623004289000000; 0; -236661916223175200000; 0; 0; 0; 0; 0;
  0; 0; 0; 0; 0; 0; 0; 0; 0; 0; 462230305123389100; 0;
  0; -924460610246778300; 0; -29582739527896900000; 0; 0; 0; 0; -7857915187097616000; 0; 88748218583690710000; 0;
  207079176695278400000; 0; 0; 0; 0; 0; 0; -12942448543454900000; 0; 414158353390556700000; 0; -828316706781113500000;
  0; -331326682712445300000; 0; 0; 0; 0; 0; 0; 0; 0; -7857915187097616000; 0;
  414158353390556700000; 0; -2070791766952784000000; 0; 1656633413562227000000; 0; 118330958111587600000; 0; 0; 0; 0; 0;
  0; 0; 0; 0; 0; -924460610246778300; 0; 88748218583690710000; 0; -828316706781113500000; 0; 1656633413562227000000;
  0; -709985748669525700000; 0; 0; 0; 0; 0; 0; 0; 0; 0; 0;
  0; 0; 0; 0; 462230305123389100; 0; -29582739527896900000; 0; 207079176695278400000; 0; -331326682712445300000; 0;
  118330958111587600000; 0; 0; 0; 0; 0; 0; -5390485347028293000; 0; 0; 0; 0;
  37733397429198050000; 0; 86247765552452690000; 0; 0; 0; 0; 0; 0; 118590677634622500000; 0; -689982124419621500000;
  0; -241493743546867600000; 0; 0; 0; 0; 0; 0; 0; 0; 75466794858396100000; 0;
  -1207468717734338000000; 0; 2173443691921808000000; 0; 137996424883924300000; 0; 0; 0; 0; 0; 0; 0;
  0; 0; 0; -26952426735141470000; 0; 0; 0; 1207468717734338000000; 0; -1379964248839243000000; 0; 0;
  0; 0; 0; 0; 0; 0; 0; 0; 0; 0; 0; 0;
  -26952426735141470000; 0; 431238827762263400000; 0; -1207468717734338000000; 0; 689982124419621500000; 0; 0; 0; 0; 0;
  0; 0; 0; 0].
Definition g_trans_cart2sph_dec_8 : list Z := [
  0; 0; 0; 0; 0; 0; 0; 0; -480222602785836000; 0; 0; 5762671233430032000;
  0; 25932020550435140000; 0; 0; 0; 0; 12966010275217570000; 0; -337116267155656800000; 0; -138304109602320800000; 0;
  0; 0; 0; 0; 0; 0; 0; -363048287706092000000; 0; 1936257534432491000000; 0; 129083835628832700000;
  0; 0; 0; 0; 0; 0; 0; 0; -12966010275217570000; 0; 363048287706092000000; 0;
  0; 0; -1936257534432491000000; 0; 0; 0; 0; 0; 0; 0; 0; 0;
  0; 0; 0; -5762671233430032000; 0; 337116267155656800000; 0; -1936257534432491000000; 0; 1936257534432491000000; 0; 0;
  0; 0; 0; 0; 0; 0; 0; 0; 0; 0; 0; 0;
  0; 0; 480222602785836000; 0; -25932020550435140000; 0; 138304109602320800000; 0; -129083835628832700000; 0; 0; 0;
  0; 0; 0; 0; 0; 5127374308338521000; 0; 0; 0; 0; -97420111858431890000; 0;
  -61528491700062240000; 0; 0; 0; 0; 0; 0; -30764245850031120000; 0; 1230569834001245000000; 0; 98445586720099580000;
  0; 0; 0; 0; 0; 0; 0; 0; 215349720950217900000; 0; -861398883800871300000; 0;
  -2067357321122091000000; 0; 0; 0; 0; 0; 0; 0; 0; 0; 0; 0;
  0; 107674860475108900000; 0; -1722797767601743000000; 0; 3445595535203485000000; 0; 0; 0; 0; 0; 0;
  0; 0; 0; 0; 0; 0; 0; 0; 0; 0; -35891620158369650000; 0;
  430699441900435700000; 0; -689119107040697100000; 0; 0; 0; 0; 0; 0; 0; 0; 0;
  0; 0; 0; 0; 0; 0; 0; 0; 0; 0; 512737430833852000; 0;
  0; -13331173201680150000; 0; -20509497233354080000; 0; 0; 0; 0; 7691061462507781000; 0; 553756425300560200000; 0;
  61528491700062240000; 0; 0; 0; 0; 0; 0; 43069944190043570000; 0; -861398883800871400000; 0; -1722797767601743000000;
  0; 0; 0; 0; 0; 0; 0; 0; 0; 0; 7691061462507781000; 0;
  -861398883800871400000; 0; 4306994419004357000000; 0; 0; 0; 0; 0; 0; 0; 0; 0;
  0; 0; 0; 0; 0; -13331173201680150000; 0; 553756425300560200000; 0; -1722797767601743000000; 0; 0;
  0; 0; 0; 0; 0; 0; 0; 0; 0; 0; 0; 0;
  0; 0; 0; 0; 512737430833852000; 0; -20509497233354080000; 0; 61528491700062240000; 0; 0; 0;
  0; 0; 0; 0; 0; 0; 0; -4699316176866622000; 0; 0; 0; 0;
  164476066190331800000; 0; 31328774512444150000; 0; 0; 0; 0; 0; 0; -422938455917996000000; 0; -1127835882447989000000;
  0; 0; 0; 0; 0; 0; 0; 0; 0; 0; -197371279428398100000; 0;
  3947425588567963000000; 0; 0; 0; 0; 0; 0; 0; 0; 0; 0; 0;
  0; 0; 0; 352448713264996700000; 0; -2631617059045309000000; 0; 0; 0; 0; 0; 0;
  0; 0; 0; 0; 0; 0; 0; 0; 0; 0; 0; 0;
  -42293845591799600000; 0; 281958970611997400000; 0; 0; 0; 0; 0; 0; 0; 0; 0;
  0; 0; 0; 0; 0; 0; 0; 0; 0; 0; 0; 0;
  -578445834793810200; 0; 0; 25451616730927650000; 0; 12725808365463830000; 0; 0; 0; 0; -95443562740978680000; 0;
  -572661376445872200000; 0; 0; 0; 0; 0; 0; 0; 0; 0; 0; 2672419756747403000000;
  0; 0; 0; 0; 0; 0; 0; 0; 0; 0; 0; 0;
  95443562740978680000; 0; -2672419756747403000000; 0; 0; 0; 0; 0; 0; 0; 0; 0;
  0; 0; 0; 0; 0; 0; 0; -25451616730927650000; 0; 572661376445872200000; 0; 0;
  0; 0; 0; 0; 0; 0; 0; 0; 0; 0; 0; 0;
  0; 0; 0; 0; 0; 0; 578445834793810200; 0; -12725808365463830000; 0; 0; 0;
  0; 0; 0; 0; 0; 0; 0; 0; 0; 3923210528935984000; 0; 0;
  0; 0; -215776579091479100000; 0; 0; 0; 0; 0; 0; 0; 0; 1294659474548875000000;
  0; 0; 0; 0; 0; 0; 0; 0; 0; 0; 0; 0;
  -1812523264368425000000; 0; 0; 0; 0; 0; 0; 0; 0; 0; 0; 0;
  0; 0; 0; 0; 0; 647329737274437300000; 0; 0; 0; 0; 0; 0;
  0; 0; 0; 0; 0; 0; 0; 0; 0; 0; 0; 0;
  0; 0; -43155315818295830000; 0; 0; 0; 0; 0; 0; 0; 0; 0;
  0; 0; 0; 0; 0; 0; 0; 0; 0; 0; 0; 0;
  0; 0; 800821995783971700; 0; 0; -52854251721742130000; 0; 0; 0; 0; 0; 0;
  396406887913066000000; 0; 0; 0; 0; 0; 0; 0; 0; 0; 0; -739959524104389900000;
  0; 0; 0; 0; 0; 0; 0; 0; 0; 0; 0; 0;
  0; 0; 396406887913066000000; 0; 0; 0; 0; 0; 0; 0; 0; 0;
  0; 0; 0; 0; 0; 0; 0; 0; 0; -52854251721742130000; 0; 0;
  0; 0; 0; 0; 0; 0; 0; 0; 0; 0; 0; 0;
  0; 0; 0; 0; 0; 0; 0; 0; 800821995783971700; 0; 0; 0;
  0; 0; 0; 0; 0; 0; 0; 0; 0; 0; 10609002544889170000; 0;
  0; 0; 0; -233398055987561700000; 0; 0; 0; 0; 0; 0; 0; 0;
  1050291251944028000000; 0; 0; 0; 0; 0; 0; 0; 0; 0; 0; 0;
  0; -1400388335925370000000; 0; 0; 0; 0; 0; 0; 0; 0; 0; 0;
  0; 0; 0; 0; 0; 0; 583495139968904200000; 0; 0; 0; 0; 0;
  0; 0; 0; 0; 0; 0; 0; 0; 0; 0; 0; 0;
  0; 0; 0; -63654015269335010000; 0; 0; 0; 0; 0; 0; 0; 0;
  0; 0; 0; 0; 0; 0; 0; 0; 0; 0; 0; 0;
  0; 0; 0; 0; 816077118837628300; 0; 0; 0; 0; 0; 0; 0;
  0; 0; 0; 0; 0; 0; 0; 0; 0; 0; 49934317842595740000; 0;
  0; 0; 0; 0; 0; -915462493780921800000; 0; 0; 0; 0; 0; 0;
  0; 0; 0; 0; 3295664977611319000000; 0; 0; 0; 0; 0; 0; 0;
  0; 0; 0; 0; 0; 0; 0; -3295664977611319000000; 0; 0; 0; 0;
  0; 0; 0; 0; 0; 0; 0; 0; 0; 0; 0; 0;
  0; 0; 915462493780921800000; 0; 0; 0; 0; 0; 0; 0; 0; 0;
  0; 0; 0; 0; 0; 0; 0; 0; 0; 0; 0; 0;
  0; -49934317842595740000; 0; 0; 0; 0; 0; 0; 0; 0; 0; 0;
  0; 0; 0; 0; 0; 0; 0; 0; 0; 0; 0; 0;
  0; 0; 0; 0; -6473297372744374000; 0; 0; 0; 0; 90626163218421240000; 0; 155359136945865000000;
  0; 0; 0; 0; 0; 0; -174779029064098100000; 0; -2330387054187975000000; 0; 0; 0;
  0; 0; 0; 0; 0; 0; 0; -77679568472932490000; 0; 6525083751726329000000; 0; 0;
  0; 0; 0; 0; 0; 0; 0; 0; 0; 0; 0; 0;
  161832434318609400000; 0; -4660774108375949000000; 0; 0; 0; 0; 0; 0; 0; 0; 0;
  0; 0; 0; 0; 0; 0; 0; 0; 0; -31778005284381470000; 0; 776795684729324900000;
  0; 0; 0; 0; 0; 0; 0; 0; 0; 0; 0; 0;
  0; 0; 0; 0; 0; 0; 0; 0; 0; 0; 588481579340397700; 0;
  -14123557904169540000; 0; 0; 0; 0; 0; 0; 0; 0; 0; 0; 0;
  0; 0; 0; 0; -49934317842595740000; 0; 0; 0; 0; 0; 0; 549277496268553100000;
  0; 366184997512368700000; 0; 0; 0; 0; 0; 0; 0; 0; -659132995522263700000; 0;
  -4394219970148425000000; 0; 0; 0; 0; 0; 0; 0; 0; 0; 0; 0;
  0; -659132995522263700000; 0; 9227861937311692000000].
Definition g_trans_cart2sph_dec_9 : list Z := [
  0; 0; 0; 0; 0; 0; 0; 0; 0; 0; 0; 0;
  0; 0; 0; 0; 549277496268553100000; 0; -4394219970148425000000; 0; 0; 0; 0; 0;
  0; 0; 0; 0; 0; 0; 0; 0; 0; 0; 0; 0;
  0; 0; 0; -49934317842595740000; 0; 366184997512368700000; 0; 0; 0; 0; 0; 0;
  0; 0; 0; 0; 0; 0; 0; 0; 0; 0; 0; 0;
  0; 0; 0; 0; 0; 0; 4685411261829863000; 0; 0; 0; 0; -34359682586752330000;
  0; -206158095520514000000; 0; 0; 0; 0; 0; 0; -17179841293376160000; 0; 1717984129337616000000; 0;
  687193651735046500000; 0; 0; 0; 0; 0; 0; 0; 0; 68719365173504650000; 0; -962071112429065100000;
  0; -6413807416193768000000; 0; 0; 0; 0; 0; 0; 0; 0; 0; 0;
  0; 0; 28633068822293610000; 0; -2061580955205140000000; 0; 9620711124290651000000; 0; 0; 0; 0; 0;
  0; 0; 0; 0; 0; 0; 0; 0; 0; 0; 0; -17700442544690590000;
  0; 801725927024220900000; 0; -2748774606940186000000; 0; 0; 0; 0; 0; 0; 0; 0;
  0; 0; 0; 0; 0; 0; 0; 0; 0; 0; 0; 0;
  520601251314429200; 0; -22906455057834880000; 0; 76354850192782950000; 0; 0; 0; 0; 0; 0; 0;
  0; 0; 0; 0; 0; 0; 43680895899762090000; 0; 0; 0; 0; 0;
  0; -218404479498810400000; 0; -582411945330161100000; 0; 0; 0; 0; 0; 0; 0; 0;
  -262085375398572500000; 0; 3494471671980967000000; 0; 1048341501594290000000; 0; 0; 0; 0; 0; 0; 0;
  0; 0; 0; 262085375398572500000; 0; 0; 0; -7338390511160030000000; 0; 0; 0; 0;
  0; 0; 0; 0; 0; 0; 0; 0; 0; 0; 218404479498810400000; 0;
  -3494471671980967000000; 0; 7338390511160030000000; 0; 0; 0; 0; 0; 0; 0; 0; 0;
  0; 0; 0; 0; 0; 0; 0; 0; 0; -43680895899762090000; 0; 582411945330161100000;
  0; -1048341501594290000000; 0; 0; 0; 0; 0; 0; 0; 0; 0; 0;
  0; 0; 0; 0; 0; 0; 0; 0; 0; 0; 0; 0;
  -3404978058421841000; 0; 0; 0; 0; 6809956116843682000; 0; 204298683505310500000; 0; 0; 0; 0;
  0; 0; 30644802525796570000; 0; -612896050515931400000; 0; -1225792101031863000000; 0; 0; 0; 0; 0;
  0; 0; 0; 17511315729026610000; 0; -1225792101031863000000; 0; 4903168404127451000000; 0; 1307511574433987000000; 0; 0;
  0; 0; 0; 0; 0; 0; 0; 0; -12160635922935150000; 0; 175113157290266100000; 0;
  2451584202063726000000; 0; -6537557872169935000000; 0; 0; 0; 0; 0; 0; 0; 0; 0;
  0; 0; 0; 0; 0; -8755657864513306000; 0; 554524998085842700000; 0; -3502263145805322000000; 0; 3922534723301961000000;
  0; 0; 0; 0; 0; 0; 0; 0; 0; 0; 0; 0;
  0; 0; 0; 0; 0; 0; 486425436917405900; 0; -29185526215044350000; 0; 175113157290266100000; 0;
  -186787367776283900000; 0; 0; 0; 0; 0; 0; 0; 0; 0; 0; 0;
  -34532780319989550000; 0; 0; 0; 0; 0; 0; 11510926773329850000; 0; 621590045759811900000; 0; 0;
  0; 0; 0; 0; 0; 0; 207196681919937300000; 0; -828786727679749200000; 0; -1989088146431398000000; 0;
  0; 0; 0; 0; 0; 0; 0; 0; 0; 207196681919937300000; 0; -2900753546879122000000;
  0; 4641205675006596000000; 0; 1326058764287599000000; 0; 0; 0; 0; 0; 0; 0; 0;
  0; 0; 0; 0; 11510926773329850000; 0; -828786727679749200000; 0; 4641205675006596000000; 0; -4420195880958662000000; 0;
  0; 0; 0; 0; 0; 0; 0; 0; 0; 0; 0; 0;
  0; 0; 0; -34532780319989550000; 0; 621590045759811900000; 0; -1989088146431398000000; 0; 1326058764287599000000; 0; 0;
  0; 0; 0; 0; 0; 0; 0; 0; 0; 0; 0; 0;
  0; 0; 0; 0; 0; 0; 2334148624627139000; 0; 0; 0; 0; 4668297249254278000;
  0; -168058700973154000000; 0; 0; 0; 0; 0; 0; -4201467524328850000; 0; -168058700973154000000; 0;
  1344469607785232000000; 0; 0; 0; 0; 0; 0; 0; 0; -16805870097315400000; 0; 470564362724831200000;
  0; 0; 0; -2509676601199100000000; 0; 0; 0; 0; 0; 0; 0; 0;
  0; 0; -13538062022837410000; 0; 739458284281877600000; 0; -3764514901798650000000; 0; 2509676601199100000000; 0; 1075575686228186000000; 0;
  0; 0; 0; 0; 0; 0; 0; 0; 0; 0; 0; -2800978349552567000;
  0; 235282181362415600000; 0; -2151151372456371000000; 0; 4517417882158380000000; 0; -2151151372456371000000; 0; 0; 0; 0;
  0; 0; 0; 0; 0; 0; 0; 0; 0; 0; 0; 0;
  466829724925427800; 0; -33611740194630800000; 0; 268893921557046400000; 0; -501935320239820000000; 0; 215115137245637100000; 0; 0; 0;
  0; 0; 0; 0; 0; 0; 23767089419103890000; 0; 0; 0; 0; 0;
  0; 71301268257311660000; 0; -507031240940882900000; 0; 0; 0; 0; 0; 0; 0; 0;
  47534178838207770000; 0; -1014062481881766000000; 0; 2129531211951708000000; 0; 0; 0; 0; 0; 0; 0;
  0; 0; 0; -47534178838207770000; 0; 0; 0; 2129531211951708000000; 0; -2433749956516238000000; 0; 0;
  0; 0; 0; 0; 0; 0; 0; 0; 0; 0; -71301268257311660000; 0;
  1014062481881766000000; 0; -2129531211951708000000; 0; 0; 0; 676041654587843900000; 0; 0; 0; 0; 0;
  0; 0; 0; 0; 0; 0; 0; 0; 0; -23767089419103890000; 0; 507031240940882900000;
  0; -2129531211951708000000; 0; 2433749956516238000000; 0; -676041654587843900000; 0; 0; 0; 0; 0; 0;
  0; 0; 0; 0; 0; 0; 0; 0; 0; 0; 0; 0;
  -1367139410344310000; 0; 0; 0; 0; -6379983914940114000; 0; 109371152827544800000; 0; 0; 0; 0;
  0; 0; -11392828419535920000; 0; 401027560367664300000; 0; -1020797426390418000000; 0; 0; 0; 0; 0;
  0; 0; 0; -9114262735628734000; 0; 510398713195209100000; 0; -2722126470374449000000; 0; 2449913823337004000000; 0; 0;
  0; 0; 0; 0; 0; 0; 0; 0; -2278565683907184000; 0; 218742305655089600000; 0;
  -2041594852780836000000; 0; 4083189705561673000000; 0; -1749938445240717000000; 0; 0; 0; 0; 0; 0; 0;
  0; 0; 0; 0; 0; 911426273562873400; 0; -36457050942514940000; 0; 0; 0; 816637941112334600000;
  0; -1166625630160478000000; 0; 311100168042794100000; 0; 0; 0; 0; 0; 0; 0; 0;
  0; 0; 0; 0; 0; 0; 455713136781436700; 0; -36457050942514940000; 0; 340265808796806100000; 0;
  -816637941112334600000; 0; 583312815080239000000; 0; -103700056014264700000; 0; 0; 0; 0; 0; 0; 0;
  -12091435893919470000; 0; 0; 0; 0; 0; 0; -60457179469597370000; 0; 282133504191454400000; 0; 0;
  0; 0; 0; 0; 0; 0; -120914358939194700000; 0; 1128534016765818000000; 0; -1354240820118981000000; 0;
  0; 0; 0; 0; 0; 0; 0; 0; 0; -120914358939194700000; 0; 1692801025148726000000;
  0; -4062722460356943000000; 0; 1934629743027116000000; 0; 0; 0; 0; 0; 0; 0; 0;
  0; 0; 0; 0; -60457179469597370000; 0; 1128534016765818000000; 0; -4062722460356943000000; 0; 3869259486054231000000; 0;
  -859835441345384800000; 0; 0; 0; 0; 0; 0; 0; 0; 0; 0; 0;
  0; 0; 0; -12091435893919470000; 0; 282133504191454400000; 0; -1354240820118981000000; 0; 1934629743027116000000; 0; -859835441345384800000;
  0; 93800229964951070000; 0; 0; 0; 0; 0; 0; 0; 0; 0; 0;
  0; 0; 0; 0; 0; 0; 450621210073081300; 0; 0; 0; 0; 2703727260438488000;
  0; -37852181646138830000; 0; 0; 0; 0; 0; 0; 6759318151096220000; 0; -189260908230694100000; 0;
  378521816461388300000; 0; 0; 0; 0; 0; 0; 0; 0; 9012424201461626000; 0; -378521816461388300000;
  0; 1514087265845553000000; 0; -1009391510563702000000; 0; 0; 0; 0; 0; 0; 0; 0;
  0; 0; 6759318151096220000; 0; -378521816461388300000; 0; 2271130898768330000000; 0; -3028174531691106000000; 0; 865192723340316100000; 0;
  0; 0; 0; 0; 0; 0; 0; 0; 0; 0; 0; 2703727260438488000;
  0; -189260908230694100000; 0; 1514087265845553000000; 0; -3028174531691106000000; 0; 1730385446680632000000; 0; -230718059557417600000; 0; 0;
  0; 0; 0; 0; 0; 0; 0; 0; 0; 0; 0; 0;
  450621210073081300; 0; -37852181646138830000; 0].
Definition g_trans_cart2sph_dec_10 : list Z := [
  378521816461388300000; 0; -1009391510563702000000; 0; 865192723340316100000; 0; -230718059557417600000; 0; 13982912700449550000; 0; 0; 0;
  4298652372786529000; 0; 0; 0; 0; 25791914236719170000; 0; -103167656946876700000; 0; 0; 0; 0;
  0; 0; 64479785591797930000; 0; -515838284734383500000; 0; 515838284734383500000; 0; 0; 0; 0; 0;
  0; 0; 0; 85973047455730580000; 0; -1031676569468767000000; 0; 2063353138937534000000; 0; -786039291023822400000; 0; 0;
  0; 0; 0; 0; 0; 0; 0; 0; 64479785591797930000; 0; -1031676569468767000000; 0;
  3095029708406301000000; 0; -2358117873071467000000; 0; 393019645511911200000; 0; 0; 0; 0; 0; 0; 0;
  0; 0; 0; 0; 0; 25791914236719170000; 0; -515838284734383500000; 0; 2063353138937534000000; 0; -2358117873071467000000;
  0; 786039291023822400000; 0; -57166493892641630000; 0; 0; 0; 0; 0; 0; 0; 0;
  0; 0; 0; 0; 0; 0; 4298652372786529000; 0; -103167656946876700000; 0; 515838284734383500000; 0;
  -786039291023822400000; 0; 393019645511911200000; 0; -57166493892641630000; 0; 1465807535708760000; 450621210073081300; 0; 0; 2703727260438488000; 0;
  -37852181646138830000; 0; 0; 0; 0; 6759318151096220000; 0; -189260908230694100000; 0; 378521816461388300000; 0; 0;
  0; 0; 0; 0; 9012424201461626000; 0; -378521816461388300000; 0; 1514087265845553000000; 0; -1009391510563702000000; 0;
  0; 0; 0; 0; 0; 0; 0; 6759318151096220000; 0; -378521816461388300000; 0; 2271130898768330000000;
  0; -3028174531691106000000; 0; 865192723340316100000; 0; 0; 0; 0; 0; 0; 0; 0;
  0; 0; 2703727260438488000; 0; -189260908230694100000; 0; 1514087265845553000000; 0; -3028174531691106000000; 0; 1730385446680632000000; 0;
  -230718059557417600000; 0; 0; 0; 0; 0; 0; 0; 0; 0; 0; 0;
  0; 450621210073081300; 0; -37852181646138830000; 0; 378521816461388300000; 0; -1009391510563702000000; 0; 865192723340316100000; 0; -230718059557417600000;
  0; 13982912700449550000; 0; 0; 0; 0; 0; 0; 0; 0; 0; 0;
  0; 0; 0; 0; 0; 0; -6045717946959737000; 0; 0; 0; 0; -24182871787838950000;
  0; 141066752095727200000; 0; 0; 0; 0; 0; 0; -30228589734798680000; 0; 423200256287181600000; 0;
  -677120410059490500000; 0; 0; 0; 0; 0; 0; 0; 0; 0; 0; 282133504191454400000;
  0; -1354240820118981000000; 0; 967314871513557900000; 0; 0; 0; 0; 0; 0; 0; 0;
  0; 0; 30228589734798680000; 0; -282133504191454400000; 0; 0; 0; 967314871513557900000; 0; -429917720672692400000; 0;
  0; 0; 0; 0; 0; 0; 0; 0; 0; 0; 0; 24182871787838950000;
  0; -423200256287181600000; 0; 1354240820118981000000; 0; -967314871513557900000; 0; 0; 0; 46900114982475530000; 0; 0;
  0; 0; 0; 0; 0; 0; 0; 0; 0; 0; 0; 0;
  6045717946959737000; 0; -141066752095727200000; 0; 677120410059490500000; 0; -967314871513557900000; 0; 429917720672692400000; 0; -46900114982475530000; 0;
  0; -455713136781436700; 0; 0; -911426273562873400; 0; 36457050942514940000; 0; 0; 0; 0; 2278565683907184000;
  0; 36457050942514940000; 0; -340265808796806100000; 0; 0; 0; 0; 0; 0; 9114262735628734000; 0;
  -218742305655089600000; 0; 0; 0; 816637941112334600000; 0; 0; 0; 0; 0; 0; 0;
  0; 11392828419535920000; 0; -510398713195209100000; 0; 2041594852780836000000; 0; -816637941112334600000; 0; -583312815080239000000; 0; 0;
  0; 0; 0; 0; 0; 0; 0; 0; 6379983914940114000; 0; -401027560367664300000; 0;
  2722126470374449000000; 0; -4083189705561673000000; 0; 1166625630160478000000; 0; 103700056014264700000; 0; 0; 0; 0; 0;
  0; 0; 0; 0; 0; 0; 0; 1367139410344310000; 0; -109371152827544800000; 0; 1020797426390418000000;
  0; -2449913823337004000000; 0; 1749938445240717000000; 0; -311100168042794100000; 0; 0; 0; 0; 0; 0;
  0; 0; 0; 0; 0; 0; 0; 0; 0; 0; 0; 0;
  5941772354775972000; 0; 0; 0; 0; -11883544709551940000; 0; -126757810235220700000; 0; 0; 0; 0;
  0; 0; -101010130031191500000; 0; 380273430705662200000; 0; 532382802987927100000; 0; 0; 0; 0; 0;
  0; 0; 0; -166369625933727200000; 0; 1774609343293090000000; 0; -2129531211951708000000; 0; -608437489129059500000; 0; 0;
  0; 0; 0; 0; 0; 0; 0; 0; -101010130031191500000; 0; 1774609343293090000000; 0;
  -5323828029879271000000; 0; 3042187445645297000000; 0; 169010413646961000000; 0; 0; 0; 0; 0; 0; 0;
  0; 0; 0; 0; 0; -11883544709551940000; 0; 380273430705662200000; 0; -2129531211951708000000; 0; 3042187445645297000000;
  0; -1014062481881766000000; 0; 0; 0; 0; 0; 0; 0; 0; 0; 0;
  0; 0; 0; 0; 0; 0; 5941772354775972000; 0; -126757810235220700000; 0; 532382802987927100000; 0;
  -608437489129059500000; 0; 169010413646961000000; 0; 0; 0; 0; 466829724925427800; 0; 0; -2800978349552567000; 0;
  -33611740194630800000; 0; 0; 0; 0; -13538062022837410000; 0; 235282181362415600000; 0; 268893921557046400000; 0; 0;
  0; 0; 0; 0; -16805870097315400000; 0; 739458284281877600000; 0; -2151151372456371000000; 0; -501935320239820000000; 0;
  0; 0; 0; 0; 0; 0; 0; -4201467524328850000; 0; 470564362724831200000; 0; -3764514901798650000000;
  0; 4517417882158380000000; 0; 215115137245637100000; 0; 0; 0; 0; 0; 0; 0; 0;
  0; 0; 4668297249254278000; 0; -168058700973154000000; 0; 0; 0; 2509676601199100000000; 0; -2151151372456371000000; 0;
  0; 0; 0; 0; 0; 0; 0; 0; 0; 0; 0; 0;
  0; 2334148624627139000; 0; -168058700973154000000; 0; 1344469607785232000000; 0; -2509676601199100000000; 0; 1075575686228186000000; 0; 0;
  0; 0; 0; 0; 0; 0; 0; 0; 0; 0; 0; 0;
  0; 0; 0; 0; 0; 0; -5755463386664925000; 0; 0; 0; 0; 69065560639979100000;
  0; 103598340959968700000; 0; 0; 0; 0; 0; 0; 155397511439953000000; 0; -1346778432479592000000; 0;
  -331514691071899700000; 0; 0; 0; 0; 0; 0; 0; 0; 0; 0; -1450376773439561000000;
  0; 4641205675006596000000; 0; 221009794047933100000; 0; 0; 0; 0; 0; 0; 0; 0;
  0; 0; -155397511439953000000; 0; 1450376773439561000000; 0; 0; 0; -3315146910718997000000; 0; 0; 0;
  0; 0; 0; 0; 0; 0; 0; 0; 0; 0; 0; -69065560639979100000;
  0; 1346778432479592000000; 0; -4641205675006596000000; 0; 3315146910718997000000; 0; 0; 0; 0; 0; 0;
  0; 0; 0; 0; 0; 0; 0; 0; 0; 0; 0; 0;
  5755463386664925000; 0; -103598340959968700000; 0; 331514691071899700000; 0; -221009794047933100000; 0; 0; 0; 0; 0;
  0; -486425436917405900; 0; 0; 8755657864513306000; 0; 29185526215044350000; 0; 0; 0; 0; 12160635922935150000;
  0; -554524998085842700000; 0; -175113157290266100000; 0; 0; 0; 0; 0; 0; -17511315729026610000; 0;
  -175113157290266100000; 0; 3502263145805322000000; 0; 186787367776283900000; 0; 0; 0; 0; 0; 0; 0;
  0; -30644802525796570000; 0; 1225792101031863000000; 0; -2451584202063726000000; 0; -3922534723301961000000; 0; 0; 0; 0;
  0; 0; 0; 0; 0; 0; 0; 0; -6809956116843682000; 0; 612896050515931400000; 0;
  -4903168404127451000000; 0; 6537557872169935000000; 0; 0; 0; 0; 0; 0; 0; 0; 0;
  0; 0; 0; 0; 0; 0; 0; 3404978058421841000; 0; -204298683505310500000; 0; 1225792101031863000000;
  0; -1307511574433987000000; 0; 0; 0; 0; 0; 0; 0; 0; 0; 0;
  0; 0; 0; 0; 0; 0; 0; 0; 0; 0; 0; 0;
  5460111987470261000; 0; 0; 0; 0; -141962911674226800000; 0; -72801493166270140000; 0; 0; 0; 0;
  0; 0; 81901679812053910000; 0; 1965640315489294000000; 0; 131042687699286300000; 0; 0; 0; 0; 0;
  0; 0; 0; 458649406947501900000; 0; -3057662712983346000000; 0; -3669195255580015000000; 0; 0; 0; 0;
  0; 0; 0; 0; 0; 0; 0; 0; 81901679812053910000; 0; -3057662712983346000000; 0;
  9172988138950038000000; 0; 0; 0; 0; 0; 0; 0; 0; 0; 0; 0;
  0; 0; 0; 0; 0; -141962911674226800000; 0; 1965640315489294000000; 0; -3669195255580015000000; 0; 0;
  0; 0; 0; 0; 0; 0; 0; 0; 0; 0; 0; 0;
  0; 0; 0; 0; 0; 0; 5460111987470261000; 0; -72801493166270140000; 0; 131042687699286300000; 0;
  0; 0; 0; 0; 0; 0; 0; 520601251314429200; 0; 0; -17700442544690590000; 0;
  -22906455057834880000; 0; 0; 0; 0; 28633068822293610000; 0; 801725927024220900000; 0; 76354850192782950000; 0; 0;
  0; 0; 0; 0; 68719365173504650000; 0; -2061580955205140000000; 0; -2748774606940186000000; 0; 0; 0;
  0; 0; 0; 0; 0; 0; 0; -17179841293376160000; 0; -962071112429065100000; 0; 9620711124290651000000;
  0; 0; 0; 0].
Definition g_trans_cart2sph_dec_11 : list Z := [
  0; 0; 0; 0; 0; 0; 0; 0; 0; 0; -34359682586752330000; 0;
  1717984129337616000000; 0; -6413807416193768000000; 0; 0; 0; 0; 0; 0; 0; 0; 0;
  0; 0; 0; 0; 0; 0; 0; 0; 0; 4685411261829863000; 0; -206158095520514000000;
  0; 687193651735046500000; 0; 0; 0; 0; 0; 0; 0; 0; 0; 0;
  0; 0; 0; 0; 0; 0; 0; 0; 0; 0; 0; 0;
  0; 0; -4993431784259574000; 0; 0; 0; 0; 219710998507421200000; 0; 36618499751236870000; 0; 0;
  0; 0; 0; 0; -823916244402829700000; 0; -1647832488805659000000; 0; 0; 0; 0; 0;
  0; 0; 0; 0; 0; 0; 0; 7689884947759744000000; 0; 0; 0; 0;
  0; 0; 0; 0; 0; 0; 0; 0; 0; 0; 823916244402829700000; 0;
  -7689884947759744000000; 0; 0; 0; 0; 0; 0; 0; 0; 0; 0; 0;
  0; 0; 0; 0; 0; 0; 0; -219710998507421200000; 0; 1647832488805659000000; 0; 0;
  0; 0; 0; 0; 0; 0; 0; 0; 0; 0; 0; 0;
  0; 0; 0; 0; 0; 0; 0; 0; 4993431784259574000; 0; -36618499751236870000; 0;
  0; 0; 0; 0; 0; 0; 0; 0; 0; -588481579340397700; 0; 0;
  31778005284381470000; 0; 14123557904169540000; 0; 0; 0; 0; -161832434318609400000; 0; -776795684729324900000; 0; 0;
  0; 0; 0; 0; 0; 0; 77679568472932490000; 0; 4660774108375949000000; 0; 0; 0;
  0; 0; 0; 0; 0; 0; 0; 0; 0; 174779029064098100000; 0; -6525083751726329000000;
  0; 0; 0; 0; 0; 0; 0; 0; 0; 0; 0; 0;
  0; 0; 0; 0; -90626163218421240000; 0; 2330387054187975000000; 0; 0; 0; 0; 0;
  0; 0; 0; 0; 0; 0; 0; 0; 0; 0; 0; 0;
  0; 0; 0; 6473297372744374000; 0; -155359136945865000000; 0; 0; 0; 0; 0; 0;
  0; 0; 0; 0; 0; 0; 0; 0; 0; 0; 0; 0;
  0; 0; 0; 0; 0; 0; 0; 0; 4161193153549645000; 0; 0; 0;
  0; -274638748134276600000; 0; 0; 0; 0; 0; 0; 0; 0; 2059790611007074000000; 0;
  0; 0; 0; 0; 0; 0; 0; 0; 0; 0; 0; -3844942473879872000000;
  0; 0; 0; 0; 0; 0; 0; 0; 0; 0; 0; 0;
  0; 0; 0; 0; 2059790611007074000000; 0; 0; 0; 0; 0; 0; 0;
  0; 0; 0; 0; 0; 0; 0; 0; 0; 0; 0; 0;
  0; -274638748134276600000; 0; 0; 0; 0; 0; 0; 0; 0; 0; 0;
  0; 0; 0; 0; 0; 0; 0; 0; 0; 0; 0; 0;
  0; 0; 4161193153549645000; 0; 0; 0; 0; 0; 0; 0; 0; 0;
  0; 0; 0; 816077118837628300; 0; 0; -63654015269335010000; 0; 0; 0; 0; 0;
  0; 583495139968904200000; 0; 0; 0; 0; 0; 0; 0; 0; 0; 0;
  -1400388335925370000000; 0; 0; 0; 0; 0; 0; 0; 0; 0; 0; 0;
  0; 0; 0; 1050291251944028000000; 0; 0; 0; 0; 0; 0; 0; 0;
  0; 0; 0; 0; 0; 0; 0; 0; 0; 0; -233398055987561700000; 0;
  0; 0; 0; 0; 0; 0; 0; 0; 0; 0; 0; 0;
  0; 0; 0; 0; 0; 0; 0; 0; 0; 10609002544889170000; 0; 0;
  0; 0; 0; 0; 0; 0; 0; 0; 0; 0; 0; 0;
  0; 0; 0; 0; 0; 0; 0; 0; 0; 0; 0; 0;
  0; 11627309162903340000; 0; 0; 0; 0; -302310038235486700000; 0; 0; 0; 0; 0;
  0; 0; 0; 1662705210295177000000; 0; 0; 0; 0; 0; 0; 0; 0;
  0; 0; 0; 0; -2850351789077446000000; 0; 0; 0; 0; 0; 0; 0;
  0; 0; 0; 0; 0; 0; 0; 0; 0; 1662705210295177000000; 0; 0;
  0; 0; 0; 0; 0; 0; 0; 0; 0; 0; 0; 0;
  0; 0; 0; 0; 0; 0; -302310038235486700000; 0; 0; 0; 0; 0;
  0; 0; 0; 0; 0; 0; 0; 0; 0; 0; 0; 0;
  0; 0; 0; 0; 0; 0; 0; 11627309162903340000; 0; 0; 0; 0;
  0; 0; 0; 0; 0; 0; 0; 0; 0; 0; 0; 0;
  0; 0; 0; 0; 0; 0; 0; 0; 0; 0; 0; 0;
  0; 0; 0; 0; 57131227143537540000; 0; 0; 0; 0; 0; 0; -1256886997157826000000;
  0; 0; 0; 0; 0; 0; 0; 0; 0; 0; 5655991487210216000000; 0;
  0; 0; 0; 0; 0; 0; 0; 0; 0; 0; 0; 0;
  0; -7541321982946955000000; 0; 0; 0; 0; 0; 0; 0; 0; 0; 0;
  0; 0; 0; 0; 0; 0; 0; 0; 3142217492894565000000; 0; 0; 0;
  0; 0; 0; 0; 0; 0; 0; 0; 0; 0; 0; 0;
  0; 0; 0; 0; 0; 0; 0; -342787362861225200000; 0; 0; 0; 0;
  0; 0; 0; 0; 0; 0; 0; 0; 0; 0; 0; 0;
  0; 0; 0; 0; 0; 0; 0; 0; 0; 0; 4394709780272118000; 0;
  0; 0; 0; 0; 0; 0; 0; 0; 0; 0; 0; 0;
  0; -7176531019523646000; 0; 0; 0; 0; 124393204338409900000; 0; 186589806507614800000; 0; 0; 0;
  0; 0; 0; -342081311930627100000; 0; -3420813119306271000000; 0; 0; 0; 0; 0; 0;
  0; 0; 0; 0; 0; 0; 12314927229502580000000; 0; 0; 0; 0; 0;
  0; 0; 0; 0; 0; 0; 0; 0; 0; 342081311930627100000; 0; -12314927229502580000000;
  0; 0; 0; 0; 0; 0; 0; 0; 0; 0; 0; 0;
  0; 0; 0; 0; 0; 0; -124393204338409900000; 0; 3420813119306271000000; 0; 0; 0;
  0; 0; 0; 0; 0; 0; 0; 0; 0; 0; 0; 0;
  0; 0; 0; 0; 0; 0; 0; 7176531019523646000; 0; -186589806507614800000; 0; 0;
  0; 0; 0; 0; 0; 0; 0; 0; 0; 0; 0; 0;
  0; 0; 0; 0; 0; 0; 0; 0; 0; 0; 0; 0;
  0; 0; 0; 0; -58099621996365420000; 0; 0; 0; 0; 0; 0; 813394707949115800000;
  0; 464796975970923300000; 0; 0; 0; 0; 0; 0; 0; 0; -1568689793901866000000; 0;
  -6971954639563850000000; 0; 0; 0; 0; 0; 0; 0; 0; 0; 0; 0;
  0; -697195463956385000000; 0; 19521472990778780000000; 0; 0; 0; 0; 0; 0; 0; 0;
  0; 0; 0; 0; 0; 0; 0; 0; 1452490549909135000000; 0; -13943909279127700000000; 0;
  0; 0; 0; 0; 0; 0; 0; 0; 0; 0; 0; 0;
  0; 0; 0; 0; 0; 0; 0; -285216326163975700000; 0; 2323984879854617000000; 0; 0;
  0; 0; 0; 0; 0; 0; 0; 0; 0; 0; 0; 0;
  0; 0; 0; 0; 0; 0; 0; 0; 0; 0; 5281783817851402000; 0;
  -42254270542811210000; 0; 0; 0; 0; 0; 0; 0; 0; 0; 0; 0;
  0; 5281783817851402000; 0; 0; 0; 0; -52817838178514020000; 0; -253525623256867300000; 0; 0; 0;
  0; 0; 0; 11619924399273080000; 0; 2788781855825540000000; 0; 929593951941846700000; 0; 0; 0; 0;
  0; 0; 0; 0; 139439092791277000000; 0; -3346538226990648000000; 0; -11155127423302160000000; 0; 0; 0;
  0; 0; 0; 0].
Definition g_trans_cart2sph_dec_12 : list Z := [
  0; 0; 0; 0; 0; 11619924399273080000; 0; -3346538226990648000000; 0; 23425767588934540000000; 0; 0;
  0; 0; 0; 0; 0; 0; 0; 0; 0; 0; 0; 0;
  0; 0; -52817838178514020000; 0; 2788781855825540000000; 0; -11155127423302160000000; 0; 0; 0; 0; 0;
  0; 0; 0; 0; 0; 0; 0; 0; 0; 0; 0; 0;
  0; 0; 0; 5281783817851402000; 0; -253525623256867300000; 0; 929593951941846700000; 0; 0; 0; 0;
  0; 0; 0; 0; 0; 0; 0; 0; 0; 0; 0; 0;
  0; 0; 0; 0; 0; 0; 0; 0; 0; 0; 0; 0;
  52073138536253460000; 0; 0; 0; 0; 0; 0; -381869682599192100000; 0; -763739365198384100000; 0; 0;
  0; 0; 0; 0; 0; 0; -190934841299596000000; 0; 6364494709986534000000; 0; 1527478730396768000000; 0;
  0; 0; 0; 0; 0; 0; 0; 0; 0; 763739365198384100000; 0; -3564117037592459000000;
  0; -14256468150369840000000; 0; 0; 0; 0; 0; 0; 0; 0; 0; 0;
  0; 0; 0; 0; 318224735499326700000; 0; -7637393651983841000000; 0; 21384702225554750000000; 0; 0; 0;
  0; 0; 0; 0; 0; 0; 0; 0; 0; 0; 0; 0;
  0; 0; 0; -196720745581402000000; 0; 2970097531327049000000; 0; -6109914921587073000000; 0; 0; 0; 0;
  0; 0; 0; 0; 0; 0; 0; 0; 0; 0; 0; 0;
  0; 0; 0; 0; 0; 0; 5785904281805940000; 0; -84859929466487120000; 0; 169719858932974200000; 0;
  0; 0; 0; 0; 0; 0; 0; 0; 0; -3940231044985851000; 0; 0;
  0; 0; 15760924179943400000; 0; 260055248969066200000; 0; 0; 0; 0; 0; 0; 43342541494844360000;
  0; -1300276244845331000000; 0; -1733701659793774000000; 0; 0; 0; 0; 0; 0; 0; 0;
  0; 0; -1560331493814397000000; 0; 10402209958762650000000; 0; 2080441991752529000000; 0; 0; 0; 0; 0;
  0; 0; 0; 0; 0; -43342541494844360000; 0; 1560331493814397000000; 0; 0; 0; -14563093942267700000000;
  0; 0; 0; 0; 0; 0; 0; 0; 0; 0; 0; 0;
  0; 0; -15760924179943400000; 0; 1300276244845331000000; 0; -10402209958762650000000; 0; 14563093942267700000000; 0; 0; 0;
  0; 0; 0; 0; 0; 0; 0; 0; 0; 0; 0; 0;
  0; 0; 0; 3940231044985851000; 0; -260055248969066200000; 0; 1733701659793774000000; 0; -2080441991752529000000; 0; 0;
  0; 0; 0; 0; 0; 0; 0; 0; 0; 0; 0; 0;
  0; 0; 0; 0; 0; 0; 0; 0; 0; 0; 0; 0;
  -42784858688316440000; 0; 0; 0; 0; 0; 0; 85569717376632870000; 0; 855697173766328700000; 0; 0;
  0; 0; 0; 0; 0; 0; 385063728194847900000; 0; -2567091521298986000000; 0; -3080509825558783000000; 0;
  0; 0; 0; 0; 0; 0; 0; 0; 0; 220036416111341700000; 0; -5134183042597972000000;
  0; 12322039302235130000000; 0; 2347055105187644000000; 0; 0; 0; 0; 0; 0; 0; 0;
  0; 0; 0; 0; -152803066743987300000; 0; 733454720371138900000; 0; 6161019651117567000000; 0; -11735275525938220000000; 0;
  0; 0; 0; 0; 0; 0; 0; 0; 0; 0; 0; 0;
  0; 0; 0; -110018208055670800000; 0; 2322606614508606000000; 0; -8801456644453667000000; 0; 7041165315562933000000; 0; 0;
  0; 0; 0; 0; 0; 0; 0; 0; 0; 0; 0; 0;
  0; 0; 0; 0; 0; 0; 6112122669759491000; 0; -122242453395189800000; 0; 440072832222683300000; 0;
  -335293586455377800000; 0; 0; 0; 0; 0; 0; 0; 0; 2829363009969403000; 0; 0;
  0; 0; 1886242006646268000; 0; -226349040797552200000; 0; 0; 0; 0; 0; 0; -17919299063139550000;
  0; 75449680265850740000; 0; 2037141367177970000000; 0; 0; 0; 0; 0; 0; 0; 0;
  -33952356119632830000; 0; 1358094244785313000000; 0; -2716188489570627000000; 0; -4345901583313003000000; 0; 0; 0; 0; 0;
  0; 0; 0; 0; 0; -17919299063139550000; 0; 1358094244785313000000; 0; -9506659713497193000000; 0; 10140437027730340000000;
  0; 2172950791656501000000; 0; 0; 0; 0; 0; 0; 0; 0; 0; 0;
  0; 0; 1886242006646268000; 0; 75449680265850740000; 0; -2716188489570627000000; 0; 10140437027730340000000; 0; -7243169305521671000000; 0;
  0; 0; 0; 0; 0; 0; 0; 0; 0; 0; 0; 0;
  0; 0; 0; 2829363009969403000; 0; -226349040797552200000; 0; 2037141367177970000000; 0; -4345901583313003000000; 0; 2172950791656501000000;
  0; 0; 0; 0; 0; 0; 0; 0; 0; 0; 0; 0;
  0; 0; 0; 0; 0; 0; 0; 0; 0; 0; 0; 0;
  31633240116575000000; 0; 0; 0; 0; 0; 0; 63266480233150000000; 0; -759197762797799900000; 0; 0;
  0; 0; 0; 0; 0; 0; -56939832209835000000; 0; -759197762797799900000; 0; 3644149261429440000000; 0;
  0; 0; 0; 0; 0; 0; 0; 0; 0; -227759328839340000000; 0; 2125753735833840000000;
  0; 0; 0; -4858865681905920000000; 0; 0; 0; 0; 0; 0; 0; 0;
  0; 0; 0; 0; -183472792676135000000; 0; 3340470156310320000000; 0; -10203617932002430000000; 0; 4858865681905920000000; 0;
  1619621893968640000000; 0; 0; 0; 0; 0; 0; 0; 0; 0; 0; 0;
  0; 0; 0; -37959888139890000000; 0; 1062876867916920000000; 0; -5830638818287104000000; 0; 8745958227430655000000; 0; -3239243787937280000000;
  0; 0; 0; 0; 0; 0; 0; 0; 0; 0; 0; 0;
  0; 0; 0; 0; 0; 0; 6326648023315000000; 0; -151839552559560000000; 0; 728829852285887900000; 0;
  -971773136381183900000; 0; 323924378793728000000; 0; 0; 0; 0; 0; 0; -1835933153488193000; 0; 0;
  0; 0; -7343732613952774000; 0; 165233983813937400000; 0; 0; 0; 0; 0; 0; -9179665767440967000;
  0; 495701951441812200000; 0; -1762495827348666000000; 0; 0; 0; 0; 0; 0; 0; 0;
  0; 0; 330467967627874800000; 0; -3524991654697331000000; 0; 4934988316576264000000; 0; 0; 0; 0; 0;
  0; 0; 0; 0; 0; 9179665767440967000; 0; -330467967627874800000; 0; 0; 0; 4934988316576264000000;
  0; -4229989985636798000000; 0; 0; 0; 0; 0; 0; 0; 0; 0; 0;
  0; 0; 7343732613952774000; 0; -495701951441812200000; 0; 3524991654697331000000; 0; -4934988316576264000000; 0; 0; 0;
  939997774585955000000; 0; 0; 0; 0; 0; 0; 0; 0; 0; 0; 0;
  0; 0; 0; 1835933153488193000; 0; -165233983813937400000; 0; 1762495827348666000000; 0; -4934988316576264000000; 0; 4229989985636798000000;
  0; -939997774585955000000; 0; 0; 0; 0; 0; 0; 0; 0; 0; 0;
  0; 0; 0; 0; 0; 0; 0; 0; 0; 0; 0; 0;
  -19375402043482540000; 0; 0; 0; 0; 0; 0; -90418542869585170000; 0; 516677387826201000000; 0; 0;
  0; 0; 0; 0; 0; 0; -161461683695687800000; 0; 1894483755362737000000; 0; -2893393371826726000000; 0;
  0; 0; 0; 0; 0; 0; 0; 0; 0; -129169346956550200000; 0; 2411161143188938000000;
  0; -7715715658204601000000; 0; 4960102923131530000000; 0; 0; 0; 0; 0; 0; 0; 0;
  0; 0; 0; 0; -32292336739137560000; 0; 1033354775652402000000; 0; -5786786743653451000000; 0; 8266838205219216000000; 0;
  -2755612735073072000000; 0; 0; 0; 0; 0; 0; 0; 0; 0; 0; 0;
  0; 0; 0; 12916934695655020000; 0; -172225795942067000000; 0; 0; 0; 1653367641043843000000; 0; -1837075156715381000000;
  0; 400816397828810500000; 0; 0; 0; 0; 0; 0; 0; 0; 0; 0;
  0; 0; 0; 0; 0; 0; 6458467347827512000; 0; -172225795942067000000; 0; 964464457275575200000; 0;
  -1653367641043843000000; 0; 918537578357690700000; 0; -133605465942936800000; 0; 0; 0; 0; 904366320050806700; 0; 0;
  0; 0; 5426197920304840000; 0; -86819166724877440000; 0; 0; 0; 0; 0; 0; 13565494800762100000;
  0; -434095833624387200000; 0; 1012890278456903000000; 0; 0; 0; 0; 0; 0; 0; 0;
  18087326401016130000; 0; -868191667248774400000; 0; 4051561113827614000000; 0; -3241248891062091000000; 0; 0; 0; 0; 0;
  0; 0; 0; 0; 0; 13565494800762100000; 0; -868191667248774400000; 0; 6077341670741421000000; 0; -9723746673186273000000;
  0; 3472766668995098000000; 0; 0; 0; 0; 0; 0; 0; 0; 0; 0;
  0; 0; 5426197920304840000; 0; -434095833624387200000; 0; 4051561113827614000000; 0; -9723746673186273000000; 0; 6945533337990195000000; 0;
  -1234761482309368000000; 0; 0; 0].
Definition g_trans_cart2sph_dec_13 : list Z := [
  0; 0; 0; 0; 0; 0; 0; 0; 0; 0; 0; 904366320050806700;
  0; -86819166724877440000; 0; 1012890278456903000000; 0; -3241248891062091000000; 0; 3472766668995098000000; 0; -1234761482309368000000; 0; 112251043846306200000;
  0; 0; 0; 0; 0; 0; 0; 0; 0; 0; 0; 0;
  0; 0; 0; 0; 0; 0; 0; 0; 6521478277491721000; 0; 0; 0;
  0; 0; 0; 39128869664950320000; 0; -182601391769768200000; 0; 0; 0; 0; 0; 0;
  0; 0; 97822174162375810000; 0; -913006958848840900000; 0; 1095608350618609000000; 0; 0; 0; 0; 0;
  0; 0; 0; 0; 0; 130429565549834400000; 0; -1826013917697682000000; 0; 4382433402474436000000; 0; -2086873048797351000000;
  0; 0; 0; 0; 0; 0; 0; 0; 0; 0; 0; 0;
  97822174162375810000; 0; -1826013917697682000000; 0; 6573650103711654000000; 0; -6260619146392052000000; 0; 1391248699198234000000; 0; 0; 0;
  0; 0; 0; 0; 0; 0; 0; 0; 0; 0; 0; 39128869664950320000;
  0; -913006958848840900000; 0; 4382433402474436000000; 0; -6260619146392052000000; 0; 2782497398396467000000; 0; -303545170734160100000; 0; 0;
  0; 0; 0; 0; 0; 0; 0; 0; 0; 0; 0; 0;
  0; 0; 6521478277491721000; 0; -182601391769768200000; 0; 1095608350618609000000; 0; -2086873048797351000000; 0; 1391248699198234000000; 0;
  -303545170734160100000; 0; 15566419012008210000; 0; -318215556336822200; 0; 0; -2227508894357756000; 0; 31185124521008580000; 0; 0;
  0; 0; -6682526683073267000; 0; 187110747126051500000; 0; -374221494252102900000; 0; 0; 0; 0; 0;
  0; -11137544471788780000; 0; 467776867815128700000; 0; -1871107471260515000000; 0; 1247404980840343000000; 0; 0; 0; 0;
  0; 0; 0; 0; -11137544471788780000; 0; 623702490420171600000; 0; -3742214942521029000000; 0; 4989619923361373000000; 0;
  -1425605692388964000000; 0; 0; 0; 0; 0; 0; 0; 0; 0; 0; -6682526683073267000;
  0; 467776867815128700000; 0; -3742214942521029000000; 0; 7484429885042059000000; 0; -4276817077166891000000; 0; 570242276955585400000; 0; 0;
  0; 0; 0; 0; 0; 0; 0; 0; 0; 0; -2227508894357756000; 0;
  187110747126051500000; 0; -1871107471260515000000; 0; 4989619923361373000000; 0; -4276817077166891000000; 0; 1140484553911171000000; 0; -69120275994616420000; 0;
  0; 0; 0; 0; 0; 0; 0; 0; 0; 0; 0; 0;
  0; -318215556336822200; 0; 31185124521008580000; 0; -374221494252102900000; 0; 1247404980840343000000; 0; -1425605692388964000000; 0; 570242276955585400000;
  0; -69120275994616420000; 0; 1519126944936625000; 0; 0; 6521478277491721000; 0; 0; 0; 0; 39128869664950320000;
  0; -182601391769768200000; 0; 0; 0; 0; 0; 0; 97822174162375810000; 0; -913006958848840900000; 0;
  1095608350618609000000; 0; 0; 0; 0; 0; 0; 0; 0; 130429565549834400000; 0; -1826013917697682000000;
  0; 4382433402474436000000; 0; -2086873048797351000000; 0; 0; 0; 0; 0; 0; 0; 0;
  0; 0; 97822174162375810000; 0; -1826013917697682000000; 0; 6573650103711654000000; 0; -6260619146392052000000; 0; 1391248699198234000000; 0;
  0; 0; 0; 0; 0; 0; 0; 0; 0; 0; 0; 39128869664950320000;
  0; -913006958848840900000; 0; 4382433402474436000000; 0; -6260619146392052000000; 0; 2782497398396467000000; 0; -303545170734160100000; 0; 0;
  0; 0; 0; 0; 0; 0; 0; 0; 0; 0; 0; 0;
  6521478277491721000; 0; -182601391769768200000; 0; 1095608350618609000000; 0; -2086873048797351000000; 0; 1391248699198234000000; 0; -303545170734160100000; 0;
  15566419012008210000; 0; 0; 0; 0; 0; 0; 0; 0; 0; 0; 0;
  0; 0; 0; 0; 452183160025403300; 0; 0; 2260915800127017000; 0; -43409583362438720000; 0; 0;
  0; 0; 4069648440228630000; 0; -173638333449754900000; 0; 506445139228451700000; 0; 0; 0; 0; 0;
  0; 2260915800127017000; 0; -217047916812193600000; 0; 1519335417685355000000; 0; -1620624445531046000000; 0; 0; 0; 0;
  0; 0; 0; 0; -2260915800127017000; 0; 0; 0; 1012890278456903000000; 0; -3241248891062091000000; 0;
  1736383334497549000000; 0; 0; 0; 0; 0; 0; 0; 0; 0; 0; -4069648440228630000;
  0; 217047916812193600000; 0; -1012890278456903000000; 0; 0; 0; 1736383334497549000000; 0; -617380741154684000000; 0; 0;
  0; 0; 0; 0; 0; 0; 0; 0; 0; 0; -2260915800127017000; 0;
  173638333449754900000; 0; -1519335417685355000000; 0; 3241248891062091000000; 0; -1736383334497549000000; 0; 0; 0; 56125521923153090000; 0;
  0; 0; 0; 0; 0; 0; 0; 0; 0; 0; 0; 0;
  0; -452183160025403300; 0; 43409583362438720000; 0; -506445139228451700000; 0; 1620624445531046000000; 0; -1736383334497549000000; 0; 617380741154684000000;
  0; -56125521923153090000; 0; 0; 0; 0; -6458467347827512000; 0; 0; 0; 0; -12916934695655020000;
  0; 172225795942067000000; 0; 0; 0; 0; 0; 0; 32292336739137560000; 0; 172225795942067000000; 0;
  -964464457275575200000; 0; 0; 0; 0; 0; 0; 0; 0; 129169346956550200000; 0; -1033354775652402000000;
  0; 0; 0; 1653367641043843000000; 0; 0; 0; 0; 0; 0; 0; 0;
  0; 0; 161461683695687800000; 0; -2411161143188938000000; 0; 5786786743653451000000; 0; -1653367641043843000000; 0; -918537578357690700000; 0;
  0; 0; 0; 0; 0; 0; 0; 0; 0; 0; 0; 90418542869585170000;
  0; -1894483755362737000000; 0; 7715715658204601000000; 0; -8266838205219216000000; 0; 1837075156715381000000; 0; 133605465942936800000; 0; 0;
  0; 0; 0; 0; 0; 0; 0; 0; 0; 0; 0; 0;
  19375402043482540000; 0; -516677387826201000000; 0; 2893393371826726000000; 0; -4960102923131530000000; 0; 2755612735073072000000; 0; -400816397828810500000; 0;
  0; 0; 0; 0; 0; 0; 0; 0; 0; 0; 0; 0;
  0; 0; 0; 0; -458983288372048400; 0; 0; 458983288372048400; 0; 41308495953484350000; 0; 0;
  0; 0; 8720682479068919000; 0; -82616991906968700000; 0; -440623956837166400000; 0; 0; 0; 0; 0;
  0; 20654247976742180000; 0; -702244431209234000000; 0; 1321871870511499000000; 0; 1233747079144066000000; 0; 0; 0; 0;
  0; 0; 0; 0; 20654247976742180000; 0; -1156637886697562000000; 0; 6168735395720330000000; 0; -4934988316576264000000; 0;
  -1057497496409199000000; 0; 0; 0; 0; 0; 0; 0; 0; 0; 0; 8720682479068919000;
  0; -702244431209234000000; 0; 6168735395720330000000; 0; -12337470791440660000000; 0; 5287487482045997000000; 0; 234999443646488800000; 0; 0;
  0; 0; 0; 0; 0; 0; 0; 0; 0; 0; 458983288372048400; 0;
  -82616991906968700000; 0; 1321871870511499000000; 0; -4934988316576264000000; 0; 5287487482045997000000; 0; -1409996661878933000000; 0; 0; 0;
  0; 0; 0; 0; 0; 0; 0; 0; 0; 0; 0; 0;
  0; -458983288372048400; 0; 41308495953484350000; 0; -440623956837166400000; 0; 1233747079144066000000; 0; -1057497496409199000000; 0; 234999443646488800000;
  0; 0; 0; 0; 0; 0; 6326648023315000000; 0; 0; 0; 0; -37959888139890000000;
  0; -151839552559560000000; 0; 0; 0; 0; 0; 0; -183472792676135000000; 0; 1062876867916920000000; 0;
  728829852285887900000; 0; 0; 0; 0; 0; 0; 0; 0; -227759328839340000000; 0; 3340470156310320000000;
  0; -5830638818287104000000; 0; -971773136381183900000; 0; 0; 0; 0; 0; 0; 0; 0;
  0; 0; -56939832209835000000; 0; 2125753735833840000000; 0; -10203617932002430000000; 0; 8745958227430655000000; 0; 323924378793728000000; 0;
  0; 0; 0; 0; 0; 0; 0; 0; 0; 0; 0; 63266480233150000000;
  0; -759197762797799900000; 0; 0; 0; 4858865681905920000000; 0; -3239243787937280000000; 0; 0; 0; 0;
  0; 0; 0; 0; 0; 0; 0; 0; 0; 0; 0; 0;
  31633240116575000000; 0; -759197762797799900000; 0; 3644149261429440000000; 0; -4858865681905920000000; 0; 1619621893968640000000; 0; 0; 0;
  0; 0; 0; 0; 0; 0; 0; 0; 0; 0; 0; 0;
  0; 0; 0; 0; 471560501661567100; 0; 0; -5187165518277238000; 0; -37724840132925370000; 0; 0;
  0; 0; -18390859564801120000; 0; 452698081595104400000; 0; 339523561196328300000; 0; 0; 0; 0; 0;
  0; -12732133544862310000; 0; 1018570683588985000000; 0; -4413806295552268000000; 0; -724316930552167100000; 0; 0; 0; 0;
  0; 0; 0; 0; 12732133544862310000; 0; 0; 0; -4753329856748596000000; 0; 10140437027730340000000; 0;
  362158465276083500000; 0; 0; 0; 0; 0; 0; 0; 0; 0; 0; 18390859564801120000;
  0; -1018570683588985000000; 0; 4753329856748596000000; 0; 0; 0; -5432376979141253000000; 0; 0; 0; 0;
  0; 0; 0; 0; 0; 0; 0; 0; 0; 0; 5187165518277238000; 0;
  -452698081595104400000; 0; 4413806295552268000000; 0; -10140437027730340000000; 0; 5432376979141253000000; 0; 0; 0; 0; 0;
  0; 0; 0; 0; 0; 0; 0; 0; 0; 0; 0; 0;
  0; -471560501661567100; 0; 37724840132925370000; 0; -339523561196328300000; 0; 724316930552167100000; 0; -362158465276083500000; 0; 0;
  0; 0; 0; 0].
Definition g_trans_cart2sph_dec_14 : list Z := [
  0; 0; -6112122669759491000; 0; 0; 0; 0; 110018208055670800000; 0; 122242453395189800000; 0; 0;
  0; 0; 0; 0; 152803066743987300000; 0; -2322606614508606000000; 0; -440072832222683300000; 0; 0; 0;
  0; 0; 0; 0; 0; -220036416111341700000; 0; -733454720371138900000; 0; 8801456644453667000000; 0; 335293586455377800000;
  0; 0; 0; 0; 0; 0; 0; 0; 0; 0; -385063728194847900000; 0;
  5134183042597972000000; 0; -6161019651117567000000; 0; -7041165315562933000000; 0; 0; 0; 0; 0; 0; 0;
  0; 0; 0; 0; 0; 0; 0; -85569717376632870000; 0; 2567091521298986000000; 0; -12322039302235130000000;
  0; 11735275525938220000000; 0; 0; 0; 0; 0; 0; 0; 0; 0; 0;
  0; 0; 0; 0; 0; 0; 0; 0; 42784858688316440000; 0; -855697173766328700000; 0;
  3080509825558783000000; 0; -2347055105187644000000; 0; 0; 0; 0; 0; 0; 0; 0; 0;
  0; 0; 0; 0; 0; 0; 0; 0; 0; 0; 0; 0;
  -492528880623231400; 0; 0; 12313222015580780000; 0; 32506906121133270000; 0; 0; 0; 0; 5417817686855545000; 0;
  -845179559149465000000; 0; -216712707474221800000; 0; 0; 0; 0; 0; 0; -48760359181699900000; 0; 487603591816999000000;
  0; 5851243101803988000000; 0; 260055248969066200000; 0; 0; 0; 0; 0; 0; 0; 0;
  -48760359181699900000; 0; 2730580114175195000000; 0; -9101933713917315000000; 0; -7281546971133852000000; 0; 0; 0; 0; 0;
  0; 0; 0; 0; 0; 0; 0; 5417817686855545000; 0; 487603591816999000000; 0; -9101933713917315000000;
  0; 18203867427834630000000; 0; 0; 0; 0; 0; 0; 0; 0; 0; 0;
  0; 0; 0; 0; 0; 0; 12313222015580780000; 0; -845179559149465000000; 0; 5851243101803988000000; 0;
  -7281546971133852000000; 0; 0; 0; 0; 0; 0; 0; 0; 0; 0; 0;
  0; 0; 0; 0; 0; 0; 0; 0; 0; -492528880623231400; 0; 32506906121133270000;
  0; -216712707474221800000; 0; 260055248969066200000; 0; 0; 0; 0; 0; 0; 0; 0;
  0; 0; 5785904281805940000; 0; 0; 0; 0; -196720745581402000000; 0; -84859929466487120000; 0; 0;
  0; 0; 0; 0; 318224735499326700000; 0; 2970097531327049000000; 0; 169719858932974200000; 0; 0; 0;
  0; 0; 0; 0; 0; 763739365198384100000; 0; -7637393651983841000000; 0; -6109914921587073000000; 0; 0;
  0; 0; 0; 0; 0; 0; 0; 0; 0; 0; -190934841299596000000; 0;
  -3564117037592459000000; 0; 21384702225554750000000; 0; 0; 0; 0; 0; 0; 0; 0; 0;
  0; 0; 0; 0; 0; 0; 0; -381869682599192100000; 0; 6364494709986534000000; 0; -14256468150369840000000;
  0; 0; 0; 0; 0; 0; 0; 0; 0; 0; 0; 0;
  0; 0; 0; 0; 0; 0; 0; 0; 52073138536253460000; 0; -763739365198384100000; 0;
  1527478730396768000000; 0; 0; 0; 0; 0; 0; 0; 0; 0; 0; 0;
  0; 0; 0; 0; 0; 0; 0; 0; 0; 0; 0; 0;
  528178381785140200; 0; 0; -22711670416761030000; 0; -25352562325686730000; 0; 0; 0; 0; 63909584196001960000; 0;
  1115512742330216000000; 0; 92959395194184670000; 0; 0; 0; 0; 0; 0; 87149432994548130000; 0; -4183172783738310000000;
  0; -4183172783738310000000; 0; 0; 0; 0; 0; 0; 0; 0; 0; 0;
  -87149432994548130000; 0; 0; 0; 19521472990778780000000; 0; 0; 0; 0; 0; 0; 0;
  0; 0; 0; 0; 0; 0; 0; -63909584196001960000; 0; 4183172783738310000000; 0; -19521472990778780000000;
  0; 0; 0; 0; 0; 0; 0; 0; 0; 0; 0; 0;
  0; 0; 0; 0; 0; 0; 22711670416761030000; 0; -1115512742330216000000; 0; 4183172783738310000000; 0;
  0; 0; 0; 0; 0; 0; 0; 0; 0; 0; 0; 0;
  0; 0; 0; 0; 0; 0; 0; 0; 0; -528178381785140200; 0; 25352562325686730000;
  0; -92959395194184670000; 0; 0; 0; 0; 0; 0; 0; 0; 0; 0;
  0; 0; -5281783817851402000; 0; 0; 0; 0; 285216326163975700000; 0; 42254270542811210000; 0; 0;
  0; 0; 0; 0; -1452490549909135000000; 0; -2323984879854617000000; 0; 0; 0; 0; 0;
  0; 0; 0; 0; 0; 697195463956385000000; 0; 13943909279127700000000; 0; 0; 0; 0;
  0; 0; 0; 0; 0; 0; 0; 0; 0; 0; 1568689793901866000000; 0;
  -19521472990778780000000; 0; 0; 0; 0; 0; 0; 0; 0; 0; 0; 0;
  0; 0; 0; 0; 0; 0; 0; -813394707949115800000; 0; 6971954639563850000000; 0; 0;
  0; 0; 0; 0; 0; 0; 0; 0; 0; 0; 0; 0;
  0; 0; 0; 0; 0; 0; 0; 0; 58099621996365420000; 0; -464796975970923300000; 0;
  0; 0; 0; 0; 0; 0; 0; 0; 0; 0; 0; 0;
  0; 0; 0; 0; 0; 0; 0; 0; 0; 0; 0; 0;
  -598044251626970500; 0; 0; 38872876355753080000; 0; 15549150542301230000; 0; 0; 0; 0; -256560983947970300000; 0;
  -1026243935791881000000; 0; 0; 0; 0; 0; 0; 0; 0; 256560983947970300000; 0; 7696829518439110000000;
  0; 0; 0; 0; 0; 0; 0; 0; 0; 0; 0; 0;
  256560983947970300000; 0; -14367415101086340000000; 0; 0; 0; 0; 0; 0; 0; 0; 0;
  0; 0; 0; 0; 0; 0; 0; -256560983947970300000; 0; 7696829518439110000000; 0; 0;
  0; 0; 0; 0; 0; 0; 0; 0; 0; 0; 0; 0;
  0; 0; 0; 0; 0; 0; 38872876355753080000; 0; -1026243935791881000000; 0; 0; 0;
  0; 0; 0; 0; 0; 0; 0; 0; 0; 0; 0; 0;
  0; 0; 0; 0; 0; 0; 0; 0; 0; -598044251626970500; 0; 15549150542301230000;
  0; 0; 0; 0; 0; 0; 0; 0; 0; 0; 0; 0;
  0; 0; 4394709780272118000; 0; 0; 0; 0; -342787362861225200000; 0; 0; 0; 0;
  0; 0; 0; 0; 3142217492894565000000; 0; 0; 0; 0; 0; 0; 0;
  0; 0; 0; 0; 0; -7541321982946955000000; 0; 0; 0; 0; 0; 0;
  0; 0; 0; 0; 0; 0; 0; 0; 0; 0; 5655991487210216000000; 0;
  0; 0; 0; 0; 0; 0; 0; 0; 0; 0; 0; 0;
  0; 0; 0; 0; 0; 0; 0; -1256886997157826000000; 0; 0; 0; 0;
  0; 0; 0; 0; 0; 0; 0; 0; 0; 0; 0; 0;
  0; 0; 0; 0; 0; 0; 0; 0; 57131227143537540000; 0; 0; 0;
  0; 0; 0; 0; 0; 0; 0; 0; 0; 0; 0; 0;
  0; 0; 0; 0; 0; 0; 0; 0; 0; 0; 0; 0;
  830522083064524000; 0; 0; -75577509558871680000; 0; 0; 0; 0; 0; 0; 831352605147588500000; 0;
  0; 0; 0; 0; 0; 0; 0; 0; 0; -2494057815442766000000; 0; 0;
  0; 0; 0; 0; 0; 0; 0; 0; 0; 0; 0; 0;
  2494057815442766000000; 0; 0; 0; 0; 0; 0; 0; 0; 0; 0; 0;
  0; 0; 0; 0; 0; 0; 0; -831352605147588500000; 0; 0; 0; 0;
  0; 0; 0; 0; 0; 0; 0; 0; 0; 0; 0; 0;
  0; 0; 0; 0; 0; 0; 75577509558871680000; 0; 0; 0; 0; 0;
  0; 0; 0; 0; 0; 0; 0; 0; 0; 0; 0; 0;
  0; 0; 0; 0; 0; 0; 0; 0; 0; -830522083064524000; 0; 0;
  0; 0; 0; 0; 0; 0; 0; 0; 0; 0; 0; 0;
  0; 12663759762860590000; 0; 0; 0; 0; -384134046140104500000; 0; 0; 0; 0; 0;
  0; 0; 0; 2535284704524690000000; 0; 0; 0; 0; 0; 0; 0; 0;
  0; 0; 0; 0; -5432752938267193000000; 0; 0; 0; 0; 0; 0; 0;
  0; 0; 0; 0].
Definition g_trans_cart2sph_dec_15 : list Z := [
  0; 0; 0; 0; 0; 4225474507541150000000; 0; 0; 0; 0; 0; 0;
  0; 0; 0; 0; 0; 0; 0; 0; 0; 0; 0; 0;
  0; 0; -1152402138420314000000; 0; 0; 0; 0; 0; 0; 0; 0; 0;
  0; 0; 0; 0; 0; 0; 0; 0; 0; 0; 0; 0;
  0; 0; 0; 88646318340024130000; 0; 0; 0; 0; 0; 0; 0; 0;
  0; 0; 0; 0; 0; 0; 0; 0; 0; 0; 0; 0;
  0; 0; 0; 0; 0; 0; 0; 0; -844250650857372600; 0; 0; 0;
  0; 0; 0; 0; 0; 0; 0; 0; 0; 0; 0; 0;
  0; 0; 0; 0; 64738117592820170000; 0; 0; 0; 0; 0; 0; -1683191057413324000000;
  0; 0; 0; 0; 0; 0; 0; 0; 0; 0; 9257550815773284000000; 0;
  0; 0; 0; 0; 0; 0; 0; 0; 0; 0; 0; 0;
  0; -15870087112754200000000; 0; 0; 0; 0; 0; 0; 0; 0; 0; 0;
  0; 0; 0; 0; 0; 0; 0; 0; 9257550815773284000000; 0; 0; 0;
  0; 0; 0; 0; 0; 0; 0; 0; 0; 0; 0; 0;
  0; 0; 0; 0; 0; 0; 0; -1683191057413324000000; 0; 0; 0; 0;
  0; 0; 0; 0; 0; 0; 0; 0; 0; 0; 0; 0;
  0; 0; 0; 0; 0; 0; 0; 0; 0; 0; 64738117592820170000; 0;
  0; 0; 0; 0; 0; 0; 0; 0; 0; 0; 0; 0;
  0; 0; 0; 0; 0; 0; 0; 0; 0; 0; 0; 0;
  0; 0; 0; 0; 0; -7893350484654575000; 0; 0; 0; 0; 165760360177746100000; 0;
  221013813570328100000; 0; 0; 0; 0; 0; 0; -607787987318402300000; 0; -4862303898547218000000; 0; 0;
  0; 0; 0; 0; 0; 0; 0; 0; 260480565993601000000; 0; 21880367543462480000000; 0;
  0; 0; 0; 0; 0; 0; 0; 0; 0; 0; 0; 0;
  0; 607787987318402300000; 0; -29173823391283310000000; 0; 0; 0; 0; 0; 0; 0; 0;
  0; 0; 0; 0; 0; 0; 0; 0; 0; 0; -386774173748074200000; 0;
  12155759746368050000000; 0; 0; 0; 0; 0; 0; 0; 0; 0; 0; 0;
  0; 0; 0; 0; 0; 0; 0; 0; 0; 0; 0; 46752922101415560000;
  0; -1326082881421969000000; 0; 0; 0; 0; 0; 0; 0; 0; 0; 0;
  0; 0; 0; 0; 0; 0; 0; 0; 0; 0; 0; 0;
  0; 0; 0; 0; -607180806511890400; 0; 17001062582332930000; 0; 0; 0; 0; 0;
  0; 0; 0; 0; 0; 0; 0; 0; 0; 0; 0; 0;
  -66778848152761760000; 0; 0; 0; 0; 0; 0; 1157500034647871000000; 0; 578750017323935300000; 0; 0;
  0; 0; 0; 0; 0; 0; -3183125095281644000000; 0; -10610416984272150000000; 0; 0; 0;
  0; 0; 0; 0; 0; 0; 0; 0; 0; 0; 0; 38197501143379730000000;
  0; 0; 0; 0; 0; 0; 0; 0; 0; 0; 0; 0;
  0; 0; 0; 0; 3183125095281644000000; 0; -38197501143379730000000; 0; 0; 0; 0; 0;
  0; 0; 0; 0; 0; 0; 0; 0; 0; 0; 0; 0;
  0; 0; 0; -1157500034647871000000; 0; 10610416984272150000000; 0; 0; 0; 0; 0; 0;
  0; 0; 0; 0; 0; 0; 0; 0; 0; 0; 0; 0;
  0; 0; 0; 0; 0; 0; 66778848152761760000; 0; -578750017323935300000; 0; 0; 0;
  0; 0; 0; 0; 0; 0; 0; 0; 0; 0; 0; 0;
  0; 0; 0; 0; 0; 0; 0; 0; 0; 0; 0; 0;
  0; 5890314521234328000; 0; 0; 0; 0; -76574088776046260000; 0; -306296355104185100000; 0; 0; 0;
  0; 0; 0; 76574088776046260000; 0; 4288148971458591000000; 0; 1225185420416740000000; 0; 0; 0; 0;
  0; 0; 0; 0; 229722266328138800000; 0; -8270001587812996000000; 0; -18377781306251100000000; 0; 0; 0;
  0; 0; 0; 0; 0; 0; 0; 0; 0; -76574088776046260000; 0; -3675556261250221000000;
  0; 51457787657503090000000; 0; 0; 0; 0; 0; 0; 0; 0; 0; 0;
  0; 0; 0; 0; 0; 0; -118341773562980600000; 0; 7657408877604626000000; 0; -36755562612502210000000; 0;
  0; 0; 0; 0; 0; 0; 0; 0; 0; 0; 0; 0;
  0; 0; 0; 0; 0; 0; 0; 28380606329583580000; 0; -1503636652329636000000; 0; 6125927102083701000000;
  0; 0; 0; 0; 0; 0; 0; 0; 0; 0; 0; 0;
  0; 0; 0; 0; 0; 0; 0; 0; 0; 0; 0; 0;
  -535483138294029800; 0; 27845123191289550000; 0; -111380492765158200000; 0; 0; 0; 0; 0; 0; 0;
  0; 0; 0; 0; 0; 0; 0; 0; 61054471483781590000; 0; 0; 0;
  0; 0; 0; -610544714837815900000; 0; -976871543740505500000; 0; 0; 0; 0; 0; 0;
  0; 0; 134319837264319500000; 0; 10745586981145560000000; 0; 2149117396229112000000; 0; 0; 0; 0; 0;
  0; 0; 0; 0; 0; 1611838047171834000000; 0; -12894704377374670000000; 0; -25789408754749340000000; 0; 0;
  0; 0; 0; 0; 0; 0; 0; 0; 0; 0; 0; 0;
  134319837264319500000; 0; -12894704377374670000000; 0; 54157758384973620000000; 0; 0; 0; 0; 0; 0; 0;
  0; 0; 0; 0; 0; 0; 0; 0; 0; 0; 0; -610544714837815900000;
  0; 10745586981145560000000; 0; -25789408754749340000000; 0; 0; 0; 0; 0; 0; 0; 0;
  0; 0; 0; 0; 0; 0; 0; 0; 0; 0; 0; 0;
  0; 0; 61054471483781590000; 0; -976871543740505500000; 0; 2149117396229112000000; 0; 0; 0; 0; 0;
  0; 0; 0; 0; 0; 0; 0; 0; 0; 0; 0; 0;
  0; 0; 0; 0; 0; 0; 0; 0; 0; -4486569049517132000; 0; 0;
  0; 0; 28414937313608500000; 0; 323032971565233500000; 0; 0; 0; 0; 0; 0; 49352259544688450000;
  0; -2368908458145046000000; 0; -2368908458145046000000; 0; 0; 0; 0; 0; 0; 0; 0;
  -49352259544688450000; 0; -1184454229072523000000; 0; 19740903817875380000000; 0; 3158544610860061000000; 0; 0; 0; 0; 0;
  0; 0; 0; 0; 0; -93220934695522630000; 0; 4737816916290091000000; 0; -11054906138010210000000; 0; -29479749701360570000000;
  0; 0; 0; 0; 0; 0; 0; 0; 0; 0; 0; 0;
  0; 0; -10468661115539970000; 0; 1974090381787538000000; 0; -23689084581450460000000; 0; 44219624552040850000000; 0; 0; 0;
  0; 0; 0; 0; 0; 0; 0; 0; 0; 0; 0; 0;
  0; 0; 0; 16450753181562820000; 0; -1220346781468660000000; 0; 9212421781675177000000; 0; -12634178443440240000000; 0; 0;
  0; 0; 0; 0; 0; 0; 0; 0; 0; 0; 0; 0;
  0; 0; 0; 0; 0; 0; 0; 0; -498507672168570200; 0; 35892552396137050000; 0;
  -263212050905005100000; 0; 350949401206673400000; 0; 0; 0; 0; 0; 0; 0; 0; 0;
  0; 0; 0; 0; -51691183351862660000; 0; 0; 0; 0; 0; 0; 206764733407450600000;
  0; 1137206033740979000000; 0; 0; 0; 0; 0; 0; 0; 0; 568603016870489300000; 0;
  -5686030168704893000000; 0; -4548824134963914000000; 0; 0; 0; 0; 0; 0; 0; 0; 0;
  0; 0; 0; -6823236202445871000000; 0; 27292944809783480000000; 0; 3898992115683355000000; 0; 0; 0; 0;
  0; 0; 0; 0; 0; 0; 0; 0; -568603016870489300000; 0; 6823236202445871000000; 0;
  0; 0; -27292944809783480000000; 0; 0; 0; 0; 0; 0; 0; 0; 0;
  0; 0; 0; 0; 0; 0; 0; -206764733407450600000; 0; 5686030168704893000000; 0; -27292944809783480000000;
  0; 27292944809783480000000; 0; 0].
Definition g_trans_cart2sph_dec_16 : list Z := [
  0; 0; 0; 0; 0; 0; 0; 0; 0; 0; 0; 0;
  0; 0; 0; 0; 0; 0; 51691183351862660000; 0; -1137206033740979000000; 0; 4548824134963914000000; 0;
  -3898992115683355000000; 0; 0; 0; 0; 0; 0; 0; 0; 0; 0; 0;
  0; 0; 0; 0; 0; 0; 0; 0; 0; 0; 0; 0;
  0; 3334384020345036000; 0; 0; 0; 0; -3334384020345036000; 0; -293425793790363200000; 0; 0; 0;
  0; 0; 0; -36678224223795400000; 0; 586851587580726400000; 0; 2934257937903632000000; 0; 0; 0; 0;
  0; 0; 0; 0; -47157716859165510000; 0; 2640832144113269000000; 0; -8802773813710896000000; 0; -7042219050968717000000; 0;
  0; 0; 0; 0; 0; 0; 0; 0; 0; -5239746317685057000; 0; 1509046939493296000000;
  0; -17605547627421790000000; 0; 28168876203874870000000; 0; 4024125171982124000000; 0; 0; 0; 0; 0; 0;
  0; 0; 0; 0; 0; 0; 20482644696405220000; 0; -1047949263537011000000; 0; 2515078232488827000000; 0;
  14084438101937430000000; 0; -20120625859910620000000; 0; 0; 0; 0; 0; 0; 0; 0; 0;
  0; 0; 0; 0; 0; 0; 0; 8097789763695088000; 0; -754523469746648200000; 0; 7964414402881287000000;
  0; -20120625859910620000000; 0; 12072375515946370000000; 0; 0; 0; 0; 0; 0; 0; 0;
  0; 0; 0; 0; 0; 0; 0; 0; 0; 0; 0; 0;
  -476340574335005200; 0; 41917970541480460000; 0; -419179705414804600000; 0; 1006031292995531000000; 0; -574875024568874800000; 0; 0; 0;
  0; 0; 0; 0; 0; 0; 0; 0; 40216236064276540000; 0; 0; 0;
  0; 0; 0; 26810824042851030000; 0; -1072432961714041000000; 0; 0; 0; 0; 0; 0;
  0; 0; -254702828407084700000; 0; 357477653904680300000; 0; 5791137993255822000000; 0; 0; 0; 0; 0;
  0; 0; 0; 0; 0; -482594832771318500000; 0; 6434597770284246000000; 0; -7721517324341095000000; 0; -8824591227818395000000;
  0; 0; 0; 0; 0; 0; 0; 0; 0; 0; 0; 0;
  -254702828407084700000; 0; 6434597770284246000000; 0; -27025310635193830000000; 0; 20590712864909590000000; 0; 3431785477484931000000; 0; 0; 0;
  0; 0; 0; 0; 0; 0; 0; 0; 0; 0; 0; 26810824042851030000;
  0; 357477653904680300000; 0; -7721517324341095000000; 0; 20590712864909590000000; 0; -11439284924949770000000; 0; 0; 0; 0;
  0; 0; 0; 0; 0; 0; 0; 0; 0; 0; 0; 0;
  0; 0; 40216236064276540000; 0; -1072432961714041000000; 0; 5791137993255822000000; 0; -8824591227818395000000; 0; 3431785477484931000000; 0;
  0; 0; 0; 0; 0; 0; 0; 0; 0; 0; 0; 0;
  0; 0; 0; 0; 0; 0; 0; 0; 0; -2312653286194929000; 0; 0;
  0; 0; -6937959858584787000; 0; 231265328619492900000; 0; 0; 0; 0; 0; 0; -462530657238985800;
  0; 462530657238985800000; 0; -2775183943433915000000; 0; 0; 0; 0; 0; 0; 0; 0;
  20813879575754360000; 0; -416277591515087200000; 0; -2775183943433915000000; 0; 8880588618988527000000; 0; 0; 0; 0; 0;
  0; 0; 0; 0; 0; 30064492720534080000; 0; -1665110366060349000000; 0; 7770515041614961000000; 0; 0;
  0; -8880588618988527000000; 0; 0; 0; 0; 0; 0; 0; 0; 0; 0;
  0; 0; 16188573003364500000; 0; -1341338905993059000000; 0; 12210809351109220000000; 0; -24865648133167880000000; 0; 8880588618988527000000; 0;
  2368156965063607000000; 0; 0; 0; 0; 0; 0; 0; 0; 0; 0; 0;
  0; 0; 0; 2312653286194929000; 0; -277518394343391500000; 0; 3885257520807481000000; 0; -14208941790381640000000; 0; 15985059514179350000000;
  0; -4736313930127214000000; 0; 0; 0; 0; 0; 0; 0; 0; 0; 0;
  0; 0; 0; 0; 0; 0; 0; 0; -462530657238985800; 0; 46253065723898580000; 0;
  -555036788686782900000; 0; 1776117723797705000000; 0; -1776117723797705000000; 0; 473631393012721400000; 0; 0; 0; 0; 0;
  0; 0; 0; 0; -27441753283609030000; 0; 0; 0; 0; 0; 0; -109767013134436100000;
  0; 823252598508271000000; 0; 0; 0; 0; 0; 0; 0; 0; -137208766418045200000; 0;
  2469757795524813000000; 0; -5268816630452934000000; 0; 0; 0; 0; 0; 0; 0; 0; 0;
  0; 0; 0; 1646505197016542000000; 0; -10537633260905870000000; 0; 10537633260905870000000; 0; 0; 0; 0;
  0; 0; 0; 0; 0; 0; 0; 0; 137208766418045200000; 0; -1646505197016542000000; 0;
  0; 0; 10537633260905870000000; 0; -7025088840603912000000; 0; 0; 0; 0; 0; 0; 0;
  0; 0; 0; 0; 0; 0; 0; 109767013134436100000; 0; -2469757795524813000000; 0; 10537633260905870000000;
  0; -10537633260905870000000; 0; 0; 0; 1277288880109802000000; 0; 0; 0; 0; 0; 0;
  0; 0; 0; 0; 0; 0; 0; 0; 0; 0; 27441753283609030000; 0;
  -823252598508271000000; 0; 5268816630452934000000; 0; -10537633260905870000000; 0; 7025088840603912000000; 0; -1277288880109802000000; 0; 0; 0;
  0; 0; 0; 0; 0; 0; 0; 0; 0; 0; 0; 0;
  0; 0; 0; 0; 0; 1363030880952603000; 0; 0; 0; 0; 7723841658731416000; 0;
  -147207335142881100000; 0; 0; 0; 0; 0; 0; 17719401452383840000; 0; -686967564000111900000; 0; 1962764468571748000000;
  0; 0; 0; 0; 0; 0; 0; 0; 20445463214289040000; 0; -1226727792857343000000; 0;
  7196803051429743000000; 0; -7327654016001193000000; 0; 0; 0; 0; 0; 0; 0; 0; 0;
  0; 11358590674605020000; 0; -981382234285874100000; 0; 9159567520001492000000; 0; -19540410709336520000000; 0; 9421269449144391000000; 0; 0;
  0; 0; 0; 0; 0; 0; 0; 0; 0; 0; 1363030880952603000; 0;
  -245345558571468500000; 0; 3925528937143496000000; 0; -14655308032002390000000; 0; 15702115748573990000000; 0; -4187230866286396000000; 0; 0; 0;
  0; 0; 0; 0; 0; 0; 0; 0; 0; 0; 0; -1363030880952603000;
  0; 98138223428587410000; 0; -654254822857249400000; 0; 0; 0; 3140423149714797000000; 0; -2791487244190931000000; 0; 507543135307442000000;
  0; 0; 0; 0; 0; 0; 0; 0; 0; 0; 0; 0;
  0; 0; 0; 0; -454343626984201000; 0; 49069111714293700000; 0; -654254822857249400000; 0; 2442551338667064000000; 0;
  -3140423149714797000000; 0; 1395743622095465000000; 0; -169181045102480700000; 0; 0; 0; 0; 0; 0; 0;
  13900242119213770000; 0; 0; 0; 0; 0; 0; 83401452715282640000; 0; -444807747814840700000; 0; 0;
  0; 0; 0; 0; 0; 0; 208503631788206600000; 0; -2224038739074204000000; 0; 3113654234703885000000; 0;
  0; 0; 0; 0; 0; 0; 0; 0; 0; 278004842384275500000; 0; -4448077478148407000000;
  0; 12454616938815540000000; 0; -7116923965037452000000; 0; 0; 0; 0; 0; 0; 0; 0;
  0; 0; 0; 0; 208503631788206600000; 0; -4448077478148407000000; 0; 18681925408223310000000; 0; -21350771895112350000000; 0;
  5930769970864543000000; 0; 0; 0; 0; 0; 0; 0; 0; 0; 0; 0;
  0; 0; 0; 83401452715282640000; 0; -2224038739074204000000; 0; 12454616938815540000000; 0; -21350771895112350000000; 0; 11861539941729090000000;
  0; -1725314900615140000000; 0; 0; 0; 0; 0; 0; 0; 0; 0; 0;
  0; 0; 0; 0; 0; 0; 13900242119213770000; 0; -444807747814840700000; 0; 3113654234703885000000; 0;
  -7116923965037452000000; 0; 5930769970864543000000; 0; -1725314900615140000000; 0; 132716530816549200000; 0; 0; 0; 0; 0;
  0; 0; 0; 0; 0; 0; 0; 0; 0; 0; 0; 0;
  0; -450509434997549800; 0; 0; 0; 0; -3153566044982849000; 0; 50457056719725580000; 0; 0; 0;
  0; 0; 0; -9460698134948546000; 0; 302742340318353500000; 0; -706398794076158100000; 0; 0; 0; 0;
  0; 0; 0; 0; -15767830224914240000; 0; 756855850795883700000; 0; -3531993970380790000000; 0; 2825595176304632000000; 0;
  0; 0; 0; 0; 0; 0; 0; 0; 0; -15767830224914240000; 0; 1009141134394512000000;
  0; -7063987940761581000000; 0; 11302380705218530000000; 0; -4036564537578046000000; 0; 0; 0; 0; 0; 0;
  0; 0; 0; 0; 0; 0; -9460698134948546000; 0; 756855850795883700000; 0; -7063987940761581000000; 0;
  16953571057827790000000; 0; -12109693612734140000000; 0; 2152834420041625000000; 0; 0; 0; 0; 0; 0; 0;
  0; 0; 0; 0; 0; 0; 0; -3153566044982849000; 0; 302742340318353500000; 0; -3531993970380790000000;
  0; 11302380705218530000000; 0; -12109693612734140000000; 0; 4305668840083249000000; 0; -391424440007568100000; 0; 0; 0; 0;
  0; 0; 0; 0; 0; 0; 0; 0; 0; 0; 0; 0;
  -450509434997549800; 0; 50457056719725580000; 0; -706398794076158100000; 0; 2825595176304632000000; 0; -4036564537578046000000; 0; 2152834420041625000000; 0;
  -391424440007568100000; 0; 17205469890442550000; 0].
Definition g_trans_cart2sph_dec_17 : list Z := [
  0; 0; -4935083598341307000; 0; 0; 0; 0; -34545585188389150000; 0; 161212730879149400000; 0; 0;
  0; 0; 0; 0; -103636755565167500000; 0; 967276385274896200000; 0; -1160731662329875000000; 0; 0; 0;
  0; 0; 0; 0; 0; -172727925941945800000; 0; 2418190963187241000000; 0; -5803658311649377000000; 0; 2763646815071132000000;
  0; 0; 0; 0; 0; 0; 0; 0; 0; 0; -172727925941945800000; 0;
  3224254617582987000000; 0; -11607316623298750000000; 0; 11054587260284530000000; 0; -2456574946729895000000; 0; 0; 0; 0; 0;
  0; 0; 0; 0; 0; 0; 0; -103636755565167500000; 0; 2418190963187241000000; 0; -11607316623298750000000;
  0; 16581880890426790000000; 0; -7369724840189685000000; 0; 803969982566147500000; 0; 0; 0; 0; 0; 0;
  0; 0; 0; 0; 0; 0; 0; 0; -34545585188389150000; 0; 967276385274896200000; 0;
  -5803658311649377000000; 0; 11054587260284530000000; 0; -7369724840189685000000; 0; 1607939965132295000000; 0; -82458459750374100000; 0; 0; 0;
  0; 0; 0; 0; 0; 0; 0; 0; 0; 0; 0; 0;
  0; -4935083598341307000; 0; 161212730879149400000; 0; -1160731662329875000000; 0; 2763646815071132000000; 0; -2456574946729895000000; 0; 803969982566147500000;
  0; -82458459750374100000; 0; 1570637328578554000; -450509434997549800; 0; 0; -3153566044982849000; 0; 50457056719725580000; 0; 0;
  0; 0; -9460698134948546000; 0; 302742340318353500000; 0; -706398794076158100000; 0; 0; 0; 0; 0;
  0; -15767830224914240000; 0; 756855850795883700000; 0; -3531993970380790000000; 0; 2825595176304632000000; 0; 0; 0; 0;
  0; 0; 0; 0; -15767830224914240000; 0; 1009141134394512000000; 0; -7063987940761581000000; 0; 11302380705218530000000; 0;
  -4036564537578046000000; 0; 0; 0; 0; 0; 0; 0; 0; 0; 0; -9460698134948546000;
  0; 756855850795883700000; 0; -7063987940761581000000; 0; 16953571057827790000000; 0; -12109693612734140000000; 0; 2152834420041625000000; 0; 0;
  0; 0; 0; 0; 0; 0; 0; 0; 0; 0; -3153566044982849000; 0;
  302742340318353500000; 0; -3531993970380790000000; 0; 11302380705218530000000; 0; -12109693612734140000000; 0; 4305668840083249000000; 0; -391424440007568100000; 0;
  0; 0; 0; 0; 0; 0; 0; 0; 0; 0; 0; 0;
  0; -450509434997549800; 0; 50457056719725580000; 0; -706398794076158100000; 0; 2825595176304632000000; 0; -4036564537578046000000; 0; 2152834420041625000000;
  0; -391424440007568100000; 0; 17205469890442550000; 0; 0; 0; 0; 0; 0; 0; 0;
  0; 0; 0; 0; 0; 0; 0; 0; 0; 0; 6950121059606886000; 0;
  0; 0; 0; 34750605298034430000; 0; -222403873907420400000; 0; 0; 0; 0; 0; 0;
  62551089536461980000; 0; -889615495629681400000; 0; 1556827117351943000000; 0; 0; 0; 0; 0; 0; 0;
  0; 34750605298034430000; 0; -1112019369537102000000; 0; 4670481352055828000000; 0; -3558461982518726000000; 0; 0; 0; 0;
  0; 0; 0; 0; 0; 0; -34750605298034430000; 0; 0; 0; 3113654234703885000000; 0;
  -7116923965037452000000; 0; 2965384985432271000000; 0; 0; 0; 0; 0; 0; 0; 0; 0;
  0; 0; 0; -62551089536461980000; 0; 1112019369537102000000; 0; -3113654234703885000000; 0; 0; 0; 2965384985432271000000;
  0; -862657450307569900000; 0; 0; 0; 0; 0; 0; 0; 0; 0; 0;
  0; 0; 0; 0; -34750605298034430000; 0; 889615495629681400000; 0; -4670481352055828000000; 0; 7116923965037452000000; 0;
  -2965384985432271000000; 0; 0; 0; 66358265408274610000; 0; 0; 0; 0; 0; 0; 0;
  0; 0; 0; 0; 0; 0; 0; 0; 0; -6950121059606886000; 0; 222403873907420400000;
  0; -1556827117351943000000; 0; 3558461982518726000000; 0; -2965384985432271000000; 0; 862657450307569900000; 0; -66358265408274610000; 0; 0;
  454343626984201000; 0; 0; 1363030880952603000; 0; -49069111714293700000; 0; 0; 0; 0; -1363030880952603000; 0;
  -98138223428587410000; 0; 654254822857249400000; 0; 0; 0; 0; 0; 0; -11358590674605020000; 0; 245345558571468500000;
  0; 654254822857249400000; 0; -2442551338667064000000; 0; 0; 0; 0; 0; 0; 0; 0;
  -20445463214289040000; 0; 981382234285874100000; 0; -3925528937143496000000; 0; 0; 0; 3140423149714797000000; 0; 0; 0;
  0; 0; 0; 0; 0; 0; 0; -17719401452383840000; 0; 1226727792857343000000; 0; -9159567520001492000000;
  0; 14655308032002390000000; 0; -3140423149714797000000; 0; -1395743622095465000000; 0; 0; 0; 0; 0; 0;
  0; 0; 0; 0; 0; 0; -7723841658731416000; 0; 686967564000111900000; 0; -7196803051429743000000; 0;
  19540410709336520000000; 0; -15702115748573990000000; 0; 2791487244190931000000; 0; 169181045102480700000; 0; 0; 0; 0; 0;
  0; 0; 0; 0; 0; 0; 0; 0; 0; -1363030880952603000; 0; 147207335142881100000;
  0; -1962764468571748000000; 0; 7327654016001193000000; 0; -9421269449144391000000; 0; 4187230866286396000000; 0; -507543135307442000000; 0; 0;
  0; 0; 0; 0; 0; 0; 0; 0; 0; 0; 0; 0;
  0; 0; 0; 0; 0; 0; -6860438320902258000; 0; 0; 0; 0; 6860438320902258000;
  0; 205813149627067700000; 0; 0; 0; 0; 0; 0; 130348328097142900000; 0; -411626299254135500000; 0;
  -1317204157613234000000; 0; 0; 0; 0; 0; 0; 0; 0; 308719724440601600000; 0; -3498823543660152000000;
  0; 3951612472839701000000; 0; 2634408315226467000000; 0; 0; 0; 0; 0; 0; 0; 0;
  0; 0; 308719724440601600000; 0; -5762768189557897000000; 0; 18440858206585270000000; 0; -10537633260905870000000; 0; -1756272210150978000000; 0;
  0; 0; 0; 0; 0; 0; 0; 0; 0; 0; 0; 130348328097142900000;
  0; -3498823543660152000000; 0; 18440858206585270000000; 0; -26344083152264670000000; 0; 8781361050754890000000; 0; 319322220027450600000; 0; 0;
  0; 0; 0; 0; 0; 0; 0; 0; 0; 0; 0; 0;
  6860438320902258000; 0; -411626299254135500000; 0; 3951612472839701000000; 0; -10537633260905870000000; 0; 8781361050754890000000; 0; -1915933320164703000000; 0;
  0; 0; 0; 0; 0; 0; 0; 0; 0; 0; 0; 0;
  0; 0; 0; 0; 0; -6860438320902258000; 0; 205813149627067700000; 0; -1317204157613234000000; 0; 2634408315226467000000;
  0; -1756272210150978000000; 0; 319322220027450600000; 0; 0; 0; 0; -462530657238985800; 0; 0; 2312653286194929000;
  0; 46253065723898580000; 0; 0; 0; 0; 16188573003364500000; 0; -277518394343391500000; 0; -555036788686782900000; 0;
  0; 0; 0; 0; 0; 30064492720534080000; 0; -1341338905993059000000; 0; 3885257520807481000000; 0; 1776117723797705000000;
  0; 0; 0; 0; 0; 0; 0; 0; 20813879575754360000; 0; -1665110366060349000000; 0;
  12210809351109220000000; 0; -14208941790381640000000; 0; -1776117723797705000000; 0; 0; 0; 0; 0; 0; 0;
  0; 0; 0; -462530657238985800; 0; -416277591515087200000; 0; 7770515041614961000000; 0; -24865648133167880000000; 0; 15985059514179350000000;
  0; 473631393012721400000; 0; 0; 0; 0; 0; 0; 0; 0; 0; 0;
  0; 0; -6937959858584787000; 0; 462530657238985800000; 0; -2775183943433915000000; 0; 0; 0; 8880588618988527000000; 0;
  -4736313930127214000000; 0; 0; 0; 0; 0; 0; 0; 0; 0; 0; 0;
  0; 0; 0; 0; 0; -2312653286194929000; 0; 231265328619492900000; 0; -2775183943433915000000; 0; 8880588618988527000000;
  0; -8880588618988527000000; 0; 2368156965063607000000; 0; 0; 0; 0; 0; 0; 0; 0;
  0; 0; 0; 0; 0; 0; 0; 0; 0; 0; 0; 0;
  0; 0; 6702706010712756000; 0; 0; 0; 0; -73729766117840320000; 0; -178738826952340200000; 0; 0;
  0; 0; 0; 0; -261405534417797500000; 0; 2144865923428082000000; 0; 965189665542636900000; 0; 0; 0;
  0; 0; 0; 0; 0; -180973062289244400000; 0; 4825948327713185000000; 0; -12547465652054280000000; 0; -1470765204636399000000;
  0; 0; 0; 0; 0; 0; 0; 0; 0; 0; 180973062289244400000; 0;
  0; 0; -13512655317596920000000; 0; 20590712864909590000000; 0; 571964246247488500000; 0; 0; 0; 0; 0;
  0; 0; 0; 0; 0; 0; 0; 261405534417797500000; 0; -4825948327713185000000; 0; 13512655317596920000000;
  0; 0; 0; -8579463693712328000000; 0; 0; 0; 0; 0; 0; 0; 0;
  0; 0; 0; 0; 0; 0; 0; 0; 73729766117840320000; 0; -2144865923428082000000; 0;
  12547465652054280000000; 0; -20590712864909590000000; 0; 8579463693712328000000; 0; 0; 0; 0; 0; 0; 0;
  0; 0; 0; 0; 0; 0; 0; 0; 0; 0; 0; 0;
  0; -6702706010712756000; 0; 178738826952340200000; 0; -965189665542636900000; 0; 1470765204636399000000; 0; -571964246247488500000; 0; 0;
  0; 0; 0; 0; 476340574335005200; 0; 0; -8097789763695088000; 0; -41917970541480460000; 0; 0;
  0; 0; -20482644696405220000; 0; 754523469746648200000; 0; 419179705414804600000; 0; 0; 0; 0; 0;
  0; 5239746317685057000; 0; 1047949263537011000000; 0; -7964414402881287000000; 0; -1006031292995531000000; 0; 0; 0; 0;
  0; 0; 0; 0; 47157716859165510000; 0; -1509046939493296000000; 0; -2515078232488827000000; 0; 20120625859910620000000; 0;
  574875024568874800000; 0; 0; 0].
Definition g_trans_cart2sph_dec_18 : list Z := [
  0; 0; 0; 0; 0; 0; 0; 36678224223795400000; 0; -2640832144113269000000; 0; 17605547627421790000000;
  0; -14084438101937430000000; 0; -12072375515946370000000; 0; 0; 0; 0; 0; 0; 0; 0;
  0; 0; 0; 0; 0; 0; 3334384020345036000; 0; -586851587580726400000; 0; 8802773813710896000000; 0;
  -28168876203874870000000; 0; 20120625859910620000000; 0; 0; 0; 0; 0; 0; 0; 0; 0;
  0; 0; 0; 0; 0; 0; 0; 0; 0; -3334384020345036000; 0; 293425793790363200000;
  0; -2934257937903632000000; 0; 7042219050968717000000; 0; -4024125171982124000000; 0; 0; 0; 0; 0; 0;
  0; 0; 0; 0; 0; 0; 0; 0; 0; 0; 0; 0;
  0; 0; 0; 0; 0; 0; -6461397918982832000; 0; 0; 0; 0; 161534947974570800000;
  0; 142150754217622300000; 0; 0; 0; 0; 0; 0; 71075377108811160000; 0; -3695919609658180000000; 0;
  -568603016870489300000; 0; 0; 0; 0; 0; 0; 0; 0; -639678393979300400000; 0; 2132261313264335000000;
  0; 15352281455503210000000; 0; 487374014460419400000; 0; 0; 0; 0; 0; 0; 0; 0;
  0; 0; -639678393979300400000; 0; 11940663354280270000000; 0; -23881326708560550000000; 0; -13646472404891740000000; 0; 0; 0;
  0; 0; 0; 0; 0; 0; 0; 0; 0; 0; 0; 71075377108811160000;
  0; 2132261313264335000000; 0; -23881326708560550000000; 0; 34116181012229360000000; 0; 0; 0; 0; 0; 0;
  0; 0; 0; 0; 0; 0; 0; 0; 0; 0; 0; 0;
  161534947974570800000; 0; -3695919609658180000000; 0; 15352281455503210000000; 0; -13646472404891740000000; 0; 0; 0; 0; 0;
  0; 0; 0; 0; 0; 0; 0; 0; 0; 0; 0; 0;
  0; 0; 0; 0; 0; -6461397918982832000; 0; 142150754217622300000; 0; -568603016870489300000; 0; 487374014460419400000;
  0; 0; 0; 0; 0; 0; 0; 0; -498507672168570200; 0; 0; 16450753181562820000;
  0; 35892552396137050000; 0; 0; 0; 0; -10468661115539970000; 0; -1220346781468660000000; 0; -263212050905005100000; 0;
  0; 0; 0; 0; 0; -93220934695522630000; 0; 1974090381787538000000; 0; 9212421781675177000000; 0; 350949401206673400000;
  0; 0; 0; 0; 0; 0; 0; 0; -49352259544688450000; 0; 4737816916290091000000; 0;
  -23689084581450460000000; 0; -12634178443440240000000; 0; 0; 0; 0; 0; 0; 0; 0; 0;
  0; 0; 0; 49352259544688450000; 0; -1184454229072523000000; 0; -11054906138010210000000; 0; 44219624552040850000000; 0; 0;
  0; 0; 0; 0; 0; 0; 0; 0; 0; 0; 0; 0;
  0; 0; 28414937313608500000; 0; -2368908458145046000000; 0; 19740903817875380000000; 0; -29479749701360570000000; 0; 0; 0;
  0; 0; 0; 0; 0; 0; 0; 0; 0; 0; 0; 0;
  0; 0; 0; 0; 0; -4486569049517132000; 0; 323032971565233500000; 0; -2368908458145046000000; 0; 3158544610860061000000;
  0; 0; 0; 0; 0; 0; 0; 0; 0; 0; 0; 0;
  0; 0; 0; 0; 0; 0; 0; 0; 0; 0; 0; 0;
  0; 0; 6105447148378159000; 0; 0; 0; 0; -262534227380260900000; 0; -97687154374050550000; 0; 0;
  0; 0; 0; 0; 738759104953757300000; 0; 4298234792458224000000; 0; 214911739622911200000; 0; 0; 0;
  0; 0; 0; 0; 0; 1007398779482396000000; 0; -16118380471718340000000; 0; -9671028283031004000000; 0; 0;
  0; 0; 0; 0; 0; 0; 0; 0; 0; 0; -1007398779482396000000; 0;
  0; 0; 45131465320811350000000; 0; 0; 0; 0; 0; 0; 0; 0; 0;
  0; 0; 0; 0; 0; 0; 0; -738759104953757300000; 0; 16118380471718340000000; 0; -45131465320811350000000;
  0; 0; 0; 0; 0; 0; 0; 0; 0; 0; 0; 0;
  0; 0; 0; 0; 0; 0; 0; 0; 262534227380260900000; 0; -4298234792458224000000; 0;
  9671028283031004000000; 0; 0; 0; 0; 0; 0; 0; 0; 0; 0; 0;
  0; 0; 0; 0; 0; 0; 0; 0; 0; 0; 0; 0;
  0; -6105447148378159000; 0; 97687154374050550000; 0; -214911739622911200000; 0; 0; 0; 0; 0; 0;
  0; 0; 0; 0; 535483138294029800; 0; 0; -28380606329583580000; 0; -27845123191289550000; 0; 0;
  0; 0; 118341773562980600000; 0; 1503636652329636000000; 0; 111380492765158200000; 0; 0; 0; 0; 0;
  0; 76574088776046260000; 0; -7657408877604626000000; 0; -6125927102083701000000; 0; 0; 0; 0; 0; 0;
  0; 0; 0; 0; -229722266328138800000; 0; 3675556261250221000000; 0; 36755562612502210000000; 0; 0; 0;
  0; 0; 0; 0; 0; 0; 0; 0; 0; 0; 0; -76574088776046260000;
  0; 8270001587812996000000; 0; -51457787657503090000000; 0; 0; 0; 0; 0; 0; 0; 0;
  0; 0; 0; 0; 0; 0; 0; 0; 0; 0; 76574088776046260000; 0;
  -4288148971458591000000; 0; 18377781306251100000000; 0; 0; 0; 0; 0; 0; 0; 0; 0;
  0; 0; 0; 0; 0; 0; 0; 0; 0; 0; 0; 0;
  0; -5890314521234328000; 0; 306296355104185100000; 0; -1225185420416740000000; 0; 0; 0; 0; 0; 0;
  0; 0; 0; 0; 0; 0; 0; 0; 0; 0; 0; 0;
  0; 0; 0; 0; 0; 0; 0; 0; 0; 0; -5564904012730147000; 0;
  0; 0; 0; 361718760827459500000; 0; 48229168110327940000; 0; 0; 0; 0; 0; 0;
  -2387343821461233000000; 0; -3183125095281644000000; 0; 0; 0; 0; 0; 0; 0; 0; 0;
  0; 2387343821461233000000; 0; 23873438214612330000000; 0; 0; 0; 0; 0; 0; 0; 0;
  0; 0; 0; 0; 0; 0; 2387343821461233000000; 0; -44563751333943020000000; 0; 0; 0;
  0; 0; 0; 0; 0; 0; 0; 0; 0; 0; 0; 0;
  0; 0; 0; -2387343821461233000000; 0; 23873438214612330000000; 0; 0; 0; 0; 0; 0;
  0; 0; 0; 0; 0; 0; 0; 0; 0; 0; 0; 0;
  0; 0; 0; 0; 361718760827459500000; 0; -3183125095281644000000; 0; 0; 0; 0; 0;
  0; 0; 0; 0; 0; 0; 0; 0; 0; 0; 0; 0;
  0; 0; 0; 0; 0; 0; 0; 0; 0; -5564904012730147000; 0; 48229168110327940000;
  0; 0; 0; 0; 0; 0; 0; 0; 0; 0; 0; 0;
  -607180806511890400; 0; 0; 46752922101415560000; 0; 17001062582332930000; 0; 0; 0; 0; -386774173748074200000; 0;
  -1326082881421969000000; 0; 0; 0; 0; 0; 0; 0; 0; 607787987318402300000; 0; 12155759746368050000000;
  0; 0; 0; 0; 0; 0; 0; 0; 0; 0; 0; 0;
  260480565993601000000; 0; -29173823391283310000000; 0; 0; 0; 0; 0; 0; 0; 0; 0;
  0; 0; 0; 0; 0; 0; 0; -607787987318402300000; 0; 21880367543462480000000; 0; 0;
  0; 0; 0; 0; 0; 0; 0; 0; 0; 0; 0; 0;
  0; 0; 0; 0; 0; 0; 165760360177746100000; 0; -4862303898547218000000; 0; 0; 0;
  0; 0; 0; 0; 0; 0; 0; 0; 0; 0; 0; 0;
  0; 0; 0; 0; 0; 0; 0; 0; 0; -7893350484654575000; 0; 221013813570328100000;
  0; 0; 0; 0; 0; 0; 0; 0; 0; 0; 0; 0;
  0; 0; 0; 0; 0; 0; 0; 0; 0; 0; 0; 0;
  0; 0; 0; 0; 0; 0; 4624151256630012000; 0; 0; 0; 0; -420797764353331100000;
  0; 0; 0; 0; 0; 0; 0; 0; 4628775407886642000000; 0; 0; 0;
  0; 0; 0; 0; 0; 0; 0; 0; 0; -13886326223659930000000; 0; 0;
  0; 0; 0; 0; 0; 0; 0; 0; 0; 0; 0; 0;
  0; 0; 13886326223659930000000; 0; 0; 0; 0; 0; 0; 0; 0; 0;
  0; 0; 0; 0; 0; 0; 0; 0; 0; 0; 0; -4628775407886642000000;
  0; 0; 0; 0; 0; 0; 0; 0; 0; 0; 0; 0;
  0; 0; 0; 0; 0; 0; 0; 0; 0; 0; 0; 0;
  420797764353331100000; 0; 0; 0].
Definition g_trans_cart2sph_dec_19 : list Z := [
  0; 0; 0; 0; 0; 0; 0; 0; 0; 0; 0; 0;
  0; 0; 0; 0; 0; 0; 0; 0; 0; 0; 0; 0;
  0; -4624151256630012000; 0; 0; 0; 0; 0; 0; 0; 0; 0; 0;
  0; 0; 0; 0; 844250650857372600; 0; 0; -88646318340024130000; 0; 0; 0; 0;
  0; 0; 1152402138420314000000; 0; 0; 0; 0; 0; 0; 0; 0; 0;
  0; -4225474507541150000000; 0; 0; 0; 0; 0; 0; 0; 0; 0; 0;
  0; 0; 0; 0; 5432752938267193000000; 0; 0; 0; 0; 0; 0; 0;
  0; 0; 0; 0; 0; 0; 0; 0; 0; 0; 0; -2535284704524690000000;
  0; 0; 0; 0; 0; 0; 0; 0; 0; 0; 0; 0;
  0; 0; 0; 0; 0; 0; 0; 0; 0; 0; 384134046140104500000; 0;
  0; 0; 0; 0; 0; 0; 0; 0; 0; 0; 0; 0;
  0; 0; 0; 0; 0; 0; 0; 0; 0; 0; 0; 0;
  0; -12663759762860590000; 0; 0; 0; 0; 0; 0; 0; 0; 0; 0;
  0; 0; 0; 0; 0; 0; 0; 0; 0; 0; 0; 0;
  0; 0; 0; 0; 0; 0; 0; 0].

(** cart2sph.c:21-806 (without PYPZPX) *)
Definition g_trans_cart2sph_dec : list Z :=
  g_trans_cart2sph_dec_0 ++
  g_trans_cart2sph_dec_1 ++
  g_trans_cart2sph_dec_2 ++
  g_trans_cart2sph_dec_3 ++
  g_trans_cart2sph_dec_4 ++
  g_trans_cart2sph_dec_5 ++
  g_trans_cart2sph_dec_6 ++
  g_trans_cart2sph_dec_7 ++
  g_trans_cart2sph_dec_8 ++
  g_trans_cart2sph_dec_9 ++
  g_trans_cart2sph_dec_10 ++
  g_trans_cart2sph_dec_11 ++
  g_trans_cart2sph_dec_12 ++
  g_trans_cart2sph_dec_13 ++
  g_trans_cart2sph_dec_14 ++
  g_trans_cart2sph_dec_15 ++
  g_trans_cart2sph_dec_16 ++
  g_trans_cart2sph_dec_17 ++
  g_trans_cart2sph_dec_18 ++
  g_trans_cart2sph_dec_19.
