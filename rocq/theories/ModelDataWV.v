(** * The table of modepy/quadrature/witherden_vincent_quad_data.py

    Generated from the text of the file.  Decimal literals are written as integers, over
    the power of ten given at each table. *)
From Coq Require Import List ZArith.
From Verif Require Import ModelTables.
Import ListNotations.
Local Open Scope Z_scope.

(** Points over 10^17, weights over 10^19. *)
(** witherden_vincent_quad_data.py:31-31 *)
Definition wv_quad_data_1 : list (list Z) * list Z * nat :=
  ([[0];
   [0]],
   [40000000000000000000], 1%nat).
(** witherden_vincent_quad_data.py:32-49 *)
Definition wv_quad_data_3 : list (list Z) * list Z * nat :=
  ([[57735026918962570; 57735026918962570; (-57735026918962570); (-57735026918962570)];
   [57735026918962570; (-57735026918962570); 57735026918962570; (-57735026918962570)]],
   [10000000000000000000; 10000000000000000000; 10000000000000000000; 10000000000000000000], 3%nat).
(** witherden_vincent_quad_data.py:50-84 *)
Definition wv_quad_data_5 : list (list Z) * list Z * nat :=
  ([[68313005106397320; 0; (-68313005106397320); 0; 88191710368819690; 88191710368819690; (-88191710368819690); (-88191710368819690)];
   [0; 68313005106397320; 0; (-68313005106397320); 88191710368819690; (-88191710368819690); 88191710368819690; (-88191710368819690)]],
   [8163265306122449000; 8163265306122449000; 8163265306122449000; 8163265306122449000; 1836734693877551000; 1836734693877551000; 1836734693877551000; 
    1836734693877551000], 5%nat).
(** witherden_vincent_quad_data.py:85-131 *)
Definition wv_quad_data_7 : list (list Z) * list Z * nat :=
  ([[92582009977255140; 0; (-92582009977255140); 0; 80597978291859870; 80597978291859870; (-80597978291859870); (-80597978291859870); 38055443320831567; 
    38055443320831567; (-38055443320831567); (-38055443320831567)];
   [0; 92582009977255140; 0; (-92582009977255140); 80597978291859870; (-80597978291859870); 80597978291859870; (-80597978291859870); 38055443320831567; 
    (-38055443320831567); 38055443320831567; (-38055443320831567)]],
   [2419753086419753000; 2419753086419753000; 2419753086419753000; 2419753086419753000; 2374317746906302300; 2374317746906302300; 2374317746906302300; 
    2374317746906302300; 5205929166673945000; 5205929166673945000; 5205929166673945000; 5205929166673945000], 7%nat).
(** witherden_vincent_quad_data.py:132-202 *)
Definition wv_quad_data_9 : list (list Z) * list Z * nat :=
  ([[48892685697436905; 0; (-48892685697436905); 0; 93965525809683770; 93965525809683770; (-93965525809683770); (-93965525809683770); 69088055048634390; 
    69088055048634390; (-69088055048634390); (-69088055048634390); 91862044105672220; 34487202536440360; 91862044105672220; (-34487202536440360); 
    (-91862044105672220); 34487202536440360; (-91862044105672220); (-34487202536440360)];
   [0; 48892685697436905; 0; (-48892685697436905); 93965525809683770; (-93965525809683770); 93965525809683770; (-93965525809683770); 69088055048634390; 
    (-69088055048634390); 69088055048634390; (-69088055048634390); 34487202536440360; 91862044105672220; (-34487202536440360); 91862044105672220; 
    34487202536440360; (-91862044105672220); (-34487202536440360); (-91862044105672220)]],
   [4541639606867490000; 4541639606867490000; 4541639606867490000; 4541639606867490000; 427312318657757650; 427312318657757650; 427312318657757650; 
    427312318657757650; 2142003609268616200; 2142003609268616200; 2142003609268616200; 2142003609268616200; 1444522232603068000; 1444522232603068000; 
    1444522232603068000; 1444522232603068000; 1444522232603068000; 1444522232603068000; 1444522232603068000; 1444522232603068000], 9%nat).
(** witherden_vincent_quad_data.py:203-297 *)
Definition wv_quad_data_11 : list (list Z) * list Z * nat :=
  ([[71461782966460600; 0; (-71461782966460600); 0; 27365721017145960; 27365721017145960; (-27365721017145960); (-27365721017145960); 63660393221230100; 
    63660393221230100; (-63660393221230100); (-63660393221230100); 95163038878403350; 81556543368963840; 95163038878403350; (-81556543368963840); 
    (-95163038878403350); 81556543368963840; (-95163038878403350); (-81556543368963840); 34620720004764544; 93556787148759110; 34620720004764544; 
    (-93556787148759110); (-34620720004764544); 93556787148759110; (-34620720004764544); (-93556787148759110)];
   [0; 71461782966460600; 0; (-71461782966460600); 27365721017145960; (-27365721017145960); 27365721017145960; (-27365721017145960); 63660393221230100; 
    (-63660393221230100); 63660393221230100; (-63660393221230100); 81556543368963840; 95163038878403350; (-81556543368963840); 95163038878403350; 
    81556543368963840; (-95163038878403350); (-81556543368963840); (-95163038878403350); 93556787148759110; 34620720004764544; (-93556787148759110); 
    34620720004764544; 93556787148759110; (-34620720004764544); (-93556787148759110); (-34620720004764544)]],
   [2174004398687120000; 2174004398687120000; 2174004398687120000; 2174004398687120000; 2772741029838511000; 2772741029838511000; 2772741029838511000; 
    2772741029838511000; 2139336378782481000; 2139336378782481000; 2139336378782481000; 2139336378782481000; 440745691149830900; 440745691149830900; 
    440745691149830900; 440745691149830900; 440745691149830900; 440745691149830900; 440745691149830900; 440745691149830900; 1016213405196113000; 
    1016213405196113000; 1016213405196113000; 1016213405196113000; 1016213405196113000; 1016213405196113000; 1016213405196113000; 1016213405196113000], 11%nat).
(** witherden_vincent_quad_data.py:298-419 *)
Definition wv_quad_data_13 : list (list Z) * list Z * nat :=
  ([[0; 98346133261324550; 0; (-98346133261324550); 0; 63986141836710970; 0; (-63986141836710970); 0; 91877848807971140; 91877848807971140; 
    (-91877848807971140); (-91877848807971140); 37962850518674385; 37962850518674385; (-37962850518674385); (-37962850518674385); 69955421651335110; 
    69955421651335110; (-69955421651335110); (-69955421651335110); 64359737499661810; 97506888390598360; 64359737499661810; (-97506888390598360); 
    (-64359737499661810); 97506888390598360; (-64359737499661810); (-97506888390598360); 33353988116478310; 86442760926706190; 33353988116478310; 
    (-86442760926706190); (-33353988116478310); 86442760926706190; (-33353988116478310); (-86442760926706190)];
   [0; 0; 98346133261324550; 0; (-98346133261324550); 0; 63986141836710970; 0; (-63986141836710970); 91877848807971140; (-91877848807971140); 
    91877848807971140; (-91877848807971140); 37962850518674385; (-37962850518674385); 37962850518674385; (-37962850518674385); 69955421651335110; 
    (-69955421651335110); 69955421651335110; (-69955421651335110); 97506888390598360; 64359737499661810; (-97506888390598360); 64359737499661810; 
    97506888390598360; (-64359737499661810); (-97506888390598360); (-64359737499661810); 86442760926706190; 33353988116478310; (-86442760926706190); 
    33353988116478310; 86442760926706190; (-33353988116478310); (-86442760926706190); (-33353988116478310)]],
   [2999933443589096000; 381286253498527360; 381286253498527360; 381286253498527360; 381286253498527360; 1845354689698072100; 1845354689698072100; 
    1845354689698072100; 1845354689698072100; 395071406474524350; 395071406474524350; 395071406474524350; 395071406474524350; 2313985194006854000; 
    2313985194006854000; 2313985194006854000; 2313985194006854000; 1372420967130035000; 1372420967130035000; 1372420967130035000; 1372420967130035000; 
    335197800503814300; 335197800503814300; 335197800503814300; 335197800503814300; 335197800503814300; 335197800503814300; 335197800503814300; 
    335197800503814300; 1135751263643542400; 1135751263643542400; 1135751263643542400; 1135751263643542400; 1135751263643542400; 1135751263643542400; 
    1135751263643542400; 1135751263643542400], 13%nat).
(** witherden_vincent_quad_data.py:420-574 *)
Definition wv_quad_data_15 : list (list Z) * list Z * nat :=
  ([[79809898789700710; 0; (-79809898789700710); 0; 30385302639845974; 0; (-30385302639845974); 0; 88242227010688530; 88242227010688530; 
    (-88242227010688530); (-88242227010688530); 97778979953990270; 97778979953990270; (-97778979953990270); (-97778979953990270); 80871213581950350; 
    56721357339659070; 80871213581950350; (-56721357339659070); (-80871213581950350); 56721357339659070; (-80871213581950350); (-56721357339659070); 
    30465479903705256; 57873619403580660; 30465479903705256; (-57873619403580660); (-30465479903705256); 57873619403580660; (-30465479903705256); 
    (-57873619403580660); 98050484372453200; 69746363199096710; 98050484372453200; (-69746363199096710); (-98050484372453200); 69746363199096710; 
    (-98050484372453200); (-69746363199096710); 26484415587231620; 95574251980951170; 26484415587231620; (-95574251980951170); (-26484415587231620); 
    95574251980951170; (-26484415587231620); (-95574251980951170)];
   [0; 79809898789700710; 0; (-79809898789700710); 0; 30385302639845974; 0; (-30385302639845974); 88242227010688530; (-88242227010688530); 
    88242227010688530; (-88242227010688530); 97778979953990270; (-97778979953990270); 97778979953990270; (-97778979953990270); 56721357339659070; 
    80871213581950350; (-56721357339659070); 80871213581950350; 56721357339659070; (-80871213581950350); (-56721357339659070); (-80871213581950350); 
    57873619403580660; 30465479903705256; (-57873619403580660); 30465479903705256; 57873619403580660; (-30465479903705256); (-57873619403580660); 
    (-30465479903705256); 69746363199096710; 98050484372453200; (-69746363199096710); 98050484372453200; 69746363199096710; (-98050484372453200); 
    (-69746363199096710); (-98050484372453200); 95574251980951170; 26484415587231620; (-95574251980951170); 26484415587231620; 95574251980951170; 
    (-26484415587231620); (-95574251980951170); (-26484415587231620)]],
   [1149329272635253700; 1149329272635253700; 1149329272635253700; 1149329272635253700; 1816857589672718500; 1816857589672718500; 1816857589672718500; 
    1816857589672718500; 412384837887658100; 412384837887658100; 412384837887658100; 412384837887658100; 59337464858392214; 59337464858392214; 
    59337464858392214; 59337464858392214; 1011491434774324200; 1011491434774324200; 1011491434774324200; 1011491434774324200; 1011491434774324200; 
    1011491434774324200; 1011491434774324200; 1011491434774324200; 1478367216328812200; 1478367216328812200; 1478367216328812200; 1478367216328812200; 
    1478367216328812200; 1478367216328812200; 1478367216328812200; 1478367216328812200; 232731941446732150; 232731941446732150; 232731941446732150; 
    232731941446732150; 232731941446732150; 232731941446732150; 232731941446732150; 232731941446732150; 558454824923120200; 558454824923120200; 
    558454824923120200; 558454824923120200; 558454824923120200; 558454824923120200; 558454824923120200; 558454824923120200], 15%nat).
(** witherden_vincent_quad_data.py:575-765 *)
Definition wv_quad_data_17 : list (list Z) * list Z * nat :=
  ([[54504298720914830; 0; (-54504298720914830); 0; 91749718821915320; 0; (-91749718821915320); 0; 19255424261404688; 19255424261404688; 
    (-19255424261404688); (-19255424261404688); 87132868469544320; 87132868469544320; (-87132868469544320); (-87132868469544320); 69438809008955070; 
    69438809008955070; (-69438809008955070); (-69438809008955070); 45768299288315550; 45768299288315550; (-45768299288315550); (-45768299288315550); 
    96920425609150870; 96920425609150870; (-96920425609150870); (-96920425609150870); 76208827608019820; 27947776671519214; 76208827608019820; 
    (-27947776671519214); (-76208827608019820); 27947776671519214; (-76208827608019820); (-27947776671519214); 90739435219822360; 54689867041431010; 
    90739435219822360; (-54689867041431010); (-90739435219822360); 54689867041431010; (-90739435219822360); (-54689867041431010); 76124866643908270; 
    98378797150154950; 76124866643908270; (-98378797150154950); (-76124866643908270); 98378797150154950; (-76124866643908270); (-98378797150154950); 
    98709470704476790; 30280748178886140; 98709470704476790; (-30280748178886140); (-98709470704476790); 30280748178886140; (-98709470704476790); 
    (-30280748178886140)];
   [0; 54504298720914830; 0; (-54504298720914830); 0; 91749718821915320; 0; (-91749718821915320); 19255424261404688; (-19255424261404688); 
    19255424261404688; (-19255424261404688); 87132868469544320; (-87132868469544320); 87132868469544320; (-87132868469544320); 69438809008955070; 
    (-69438809008955070); 69438809008955070; (-69438809008955070); 45768299288315550; (-45768299288315550); 45768299288315550; (-45768299288315550); 
    96920425609150870; (-96920425609150870); 96920425609150870; (-96920425609150870); 27947776671519214; 76208827608019820; (-27947776671519214); 
    76208827608019820; 27947776671519214; (-76208827608019820); (-27947776671519214); (-76208827608019820); 54689867041431010; 90739435219822360; 
    (-54689867041431010); 90739435219822360; 54689867041431010; (-90739435219822360); (-54689867041431010); (-90739435219822360); 98378797150154950; 
    76124866643908270; (-98378797150154950); 76124866643908270; 98378797150154950; (-76124866643908270); (-98378797150154950); (-76124866643908270); 
    30280748178886140; 98709470704476790; (-30280748178886140); 98709470704476790; 30280748178886140; (-98709470704476790); (-30280748178886140); 
    (-98709470704476790)]],
   [1388043776872199300; 1388043776872199300; 1388043776872199300; 1388043776872199300; 653478238074649100; 653478238074649100; 653478238074649100; 
    653478238074649100; 1428564196221995800; 1428564196221995800; 1428564196221995800; 1428564196221995800; 367159084852515100; 367159084852515100; 
    367159084852515100; 367159084852515100; 862556996381438000; 862556996381438000; 862556996381438000; 862556996381438000; 1345562732119169300; 
    1345562732119169300; 1345562732119169300; 1345562732119169300; 76556334149099365; 76556334149099365; 76556334149099365; 76556334149099365; 
    1031767247849353500; 1031767247849353500; 1031767247849353500; 1031767247849353500; 1031767247849353500; 1031767247849353500; 1031767247849353500; 
    1031767247849353500; 548264002372914400; 548264002372914400; 548264002372914400; 548264002372914400; 548264002372914400; 548264002372914400; 
    548264002372914400; 548264002372914400; 151198103882568620; 151198103882568620; 151198103882568620; 151198103882568620; 151198103882568620; 
    151198103882568620; 151198103882568620; 151198103882568620; 207809966559630440; 207809966559630440; 207809966559630440; 207809966559630440; 
    207809966559630440; 207809966559630440; 207809966559630440; 207809966559630440], 17%nat).
(** witherden_vincent_quad_data.py:766-992 *)
Definition wv_quad_data_19 : list (list Z) * list Z * nat :=
  ([[71434425957279420; 0; (-71434425957279420); 0; 26567205212096373; 0; (-26567205212096373); 0; 96443426925796730; 0; (-96443426925796730); 0; 
    80337972946768500; 80337972946768500; (-80337972946768500); (-80337972946768500); 99216540589713480; 99216540589713480; (-99216540589713480); 
    (-99216540589713480); 92944960279960940; 92944960279960940; (-92944960279960940); (-92944960279960940); 51027825736934340; 26664031459456217; 
    51027825736934340; (-26664031459456217); (-51027825736934340); 26664031459456217; (-51027825736934340); (-26664031459456217); 39073420577524975; 
    98789293314173530; 39073420577524975; (-98789293314173530); (-39073420577524975); 98789293314173530; (-39073420577524975); (-98789293314173530); 
    71716792130974520; 51249187721609770; 71716792130974520; (-51249187721609770); (-71716792130974520); 51249187721609770; (-71716792130974520); 
    (-51249187721609770); 26544000781129600; 86890243415450420; 26544000781129600; (-86890243415450420); (-26544000781129600); 86890243415450420; 
    (-26544000781129600); (-86890243415450420); 62003539869325640; 92630295580712930; 62003539869325640; (-92630295580712930); (-62003539869325640); 
    92630295580712930; (-62003539869325640); (-92630295580712930); 80167158471859690; 98844653068397370; 80167158471859690; (-98844653068397370); 
    (-80167158471859690); 98844653068397370; (-80167158471859690); (-98844653068397370)];
   [0; 71434425957279420; 0; (-71434425957279420); 0; 26567205212096373; 0; (-26567205212096373); 0; 96443426925796730; 0; (-96443426925796730); 
    80337972946768500; (-80337972946768500); 80337972946768500; (-80337972946768500); 99216540589713480; (-99216540589713480); 99216540589713480; 
    (-99216540589713480); 92944960279960940; (-92944960279960940); 92944960279960940; (-92944960279960940); 26664031459456217; 51027825736934340; 
    (-26664031459456217); 51027825736934340; 26664031459456217; (-51027825736934340); (-26664031459456217); (-51027825736934340); 98789293314173530; 
    39073420577524975; (-98789293314173530); 39073420577524975; 98789293314173530; (-39073420577524975); (-98789293314173530); (-39073420577524975); 
    51249187721609770; 71716792130974520; (-51249187721609770); 71716792130974520; 51249187721609770; (-71716792130974520); (-51249187721609770); 
    (-71716792130974520); 86890243415450420; 26544000781129600; (-86890243415450420); 26544000781129600; 86890243415450420; (-26544000781129600); 
    (-86890243415450420); (-26544000781129600); 92630295580712930; 62003539869325640; (-92630295580712930); 62003539869325640; 92630295580712930; 
    (-62003539869325640); (-92630295580712930); (-62003539869325640); 98844653068397370; 80167158471859690; (-98844653068397370); 80167158471859690; 
    98844653068397370; (-80167158471859690); (-98844653068397370); (-80167158471859690)]],
   [977373646928287500; 977373646928287500; 977373646928287500; 977373646928287500; 1393076129224822500; 1393076129224822500; 1393076129224822500; 
    1393076129224822500; 348695834918879100; 348695834918879100; 348695834918879100; 348695834918879100; 478045471627957940; 478045471627957940; 
    478045471627957940; 478045471627957940; 16177151779117609; 16177151779117609; 16177151779117609; 16177151779117609; 174410480343557620; 
    174410480343557620; 174410480343557620; 174410480343557620; 1177258328400560800; 1177258328400560800; 1177258328400560800; 1177258328400560800; 
    1177258328400560800; 1177258328400560800; 1177258328400560800; 1177258328400560800; 161795776116578500; 161795776116578500; 161795776116578500; 
    161795776116578500; 161795776116578500; 161795776116578500; 161795776116578500; 161795776116578500; 828466189834049000; 828466189834049000; 
    828466189834049000; 828466189834049000; 828466189834049000; 828466189834049000; 828466189834049000; 828466189834049000; 649890814925960500; 
    649890814925960500; 649890814925960500; 649890814925960500; 649890814925960500; 649890814925960500; 649890814925960500; 649890814925960500; 
    389805523964105400; 389805523964105400; 389805523964105400; 389805523964105400; 389805523964105400; 389805523964105400; 389805523964105400; 
    389805523964105400; 98894009347434840; 98894009347434840; 98894009347434840; 98894009347434840; 98894009347434840; 98894009347434840; 
    98894009347434840; 98894009347434840], 19%nat).
(** witherden_vincent_quad_data.py:993-1258 *)
Definition wv_quad_data_21 : list (list Z) * list Z * nat :=
  ([[0; 47335107435822416; 0; (-47335107435822416); 0; 83527842975586830; 0; (-83527842975586830); 0; 25737190060722900; 25737190060722900; 
    (-25737190060722900); (-25737190060722900); 96333783211562340; 96333783211562340; (-96333783211562340); (-96333783211562340); 86245192537965150; 
    86245192537965150; (-86245192537965150); (-86245192537965150); 49689796251934570; 49689796251934570; (-49689796251934570); (-49689796251934570); 
    70433217519540060; 70433217519540060; (-70433217519540060); (-70433217519540060); 24187818547670198; 67414621995531780; 24187818547670198; 
    (-67414621995531780); (-24187818547670198); 67414621995531780; (-24187818547670198); (-67414621995531780); 48015696631279514; 82464737527092070; 
    48015696631279514; (-82464737527092070); (-48015696631279514); 82464737527092070; (-48015696631279514); (-82464737527092070); 93224193592175400; 
    27069918410166494; 93224193592175400; (-27069918410166494); (-93224193592175400); 27069918410166494; (-93224193592175400); (-27069918410166494); 
    93490232582401060; 67503956743707530; 93490232582401060; (-67503956743707530); (-93490232582401060); 67503956743707530; (-93490232582401060); 
    (-67503956743707530); 99045546752952420; 48891625117716686; 99045546752952420; (-48891625117716686); (-99045546752952420); 48891625117716686; 
    (-99045546752952420); (-48891625117716686); 83113524597590140; 98896061138657240; 83113524597590140; (-98896061138657240); (-83113524597590140); 
    98896061138657240; (-83113524597590140); (-98896061138657240); 9146960092229130; 98401714848959900; 9146960092229130; (-98401714848959900); 
    (-9146960092229130); 98401714848959900; (-9146960092229130); (-98401714848959900)];
   [0; 0; 47335107435822416; 0; (-47335107435822416); 0; 83527842975586830; 0; (-83527842975586830); 25737190060722900; (-25737190060722900); 
    25737190060722900; (-25737190060722900); 96333783211562340; (-96333783211562340); 96333783211562340; (-96333783211562340); 86245192537965150; 
    (-86245192537965150); 86245192537965150; (-86245192537965150); 49689796251934570; (-49689796251934570); 49689796251934570; (-49689796251934570); 
    70433217519540060; (-70433217519540060); 70433217519540060; (-70433217519540060); 67414621995531780; 24187818547670198; (-67414621995531780); 
    24187818547670198; 67414621995531780; (-24187818547670198); (-67414621995531780); (-24187818547670198); 82464737527092070; 48015696631279514; 
    (-82464737527092070); 48015696631279514; 82464737527092070; (-48015696631279514); (-82464737527092070); (-48015696631279514); 27069918410166494; 
    93224193592175400; (-27069918410166494); 93224193592175400; 27069918410166494; (-93224193592175400); (-27069918410166494); (-93224193592175400); 
    67503956743707530; 93490232582401060; (-67503956743707530); 93490232582401060; 67503956743707530; (-93490232582401060); (-67503956743707530); 
    (-93490232582401060); 48891625117716686; 99045546752952420; (-48891625117716686); 99045546752952420; 48891625117716686; (-99045546752952420); 
    (-48891625117716686); (-99045546752952420); 98896061138657240; 83113524597590140; (-98896061138657240); 83113524597590140; 98896061138657240; 
    (-83113524597590140); (-98896061138657240); (-83113524597590140); 98401714848959900; 9146960092229130; (-98401714848959900); 9146960092229130; 
    98401714848959900; (-9146960092229130); (-98401714848959900); (-9146960092229130)]],
   [1351928403561428200; 1067941587859403800; 1067941587859403800; 1067941587859403800; 1067941587859403800; 662572080049443900; 662572080049443900; 
    662572080049443900; 662572080049443900; 1198844836463404700; 1198844836463404700; 1198844836463404700; 1198844836463404700; 82294612892200100; 
    82294612892200100; 82294612892200100; 82294612892200100; 306036409287756500; 306036409287756500; 306036409287756500; 306036409287756500; 
    967917918935952100; 967917918935952100; 967917918935952100; 967917918935952100; 615163414813165600; 615163414813165600; 615163414813165600; 
    615163414813165600; 867284995132082300; 867284995132082300; 867284995132082300; 867284995132082300; 867284995132082300; 867284995132082300; 
    867284995132082300; 867284995132082300; 558791174041273500; 558791174041273500; 558791174041273500; 558791174041273500; 558791174041273500; 
    558791174041273500; 558791174041273500; 558791174041273500; 371288274409138160; 371288274409138160; 371288274409138160; 371288274409138160; 
    371288274409138160; 371288274409138160; 371288274409138160; 371288274409138160; 287756008510205300; 287756008510205300; 287756008510205300; 
    287756008510205300; 287756008510205300; 287756008510205300; 287756008510205300; 287756008510205300; 115095204424931680; 115095204424931680; 
    115095204424931680; 115095204424931680; 115095204424931680; 115095204424931680; 115095204424931680; 115095204424931680; 75284821304016460; 
    75284821304016460; 75284821304016460; 75284821304016460; 75284821304016460; 75284821304016460; 75284821304016460; 75284821304016460; 
    105123041582510770; 105123041582510770; 105123041582510770; 105123041582510770; 105123041582510770; 105123041582510770; 105123041582510770; 
    105123041582510770], 21%nat).
(** witherden_vincent_quad_data.py: the dictionary quad_data *)
Definition wv_quad_data : dec_table :=
  [(1%nat, wv_quad_data_1); (3%nat, wv_quad_data_3); (5%nat, wv_quad_data_5); (7%nat, wv_quad_data_7); (9%nat, wv_quad_data_9); 
    (11%nat, wv_quad_data_11); (13%nat, wv_quad_data_13); (15%nat, wv_quad_data_15); (17%nat, wv_quad_data_17); (19%nat, wv_quad_data_19); 
    (21%nat, wv_quad_data_21)].

(** Points over 10^17, weights over 10^18. *)
(** witherden_vincent_quad_data.py:1264-1264 *)
Definition wv_hex_data_1 : list (list Z) * list Z * nat :=
  ([[0];
   [0];
   [0]],
   [8000000000000000000], 1%nat).
(** witherden_vincent_quad_data.py:1265-1280 *)
Definition wv_hex_data_3 : list (list Z) * list Z * nat :=
  ([[(-100000000000000000); 0; 0; 0; 100000000000000000; 0];
   [0; 0; 100000000000000000; 0; 0; (-100000000000000000)];
   [0; 100000000000000000; 0; (-100000000000000000); 0; 0]],
   [1333333333333333300; 1333333333333333300; 1333333333333333300; 1333333333333333300; 1333333333333333300; 1333333333333333300], 3%nat).
(** witherden_vincent_quad_data.py:1281-1349 *)
Definition wv_hex_data_5 : list (list Z) * list Z * nat :=
  ([[(-79582242575422150); 0; 0; 0; 79582242575422150; 0; 75878691063932810; (-75878691063932810); (-75878691063932810); (-75878691063932810); 
    (-75878691063932810); 75878691063932810; 75878691063932810; 75878691063932810];
   [0; 0; 79582242575422150; 0; 0; (-79582242575422150); (-75878691063932810); 75878691063932810; 75878691063932810; (-75878691063932810); 
    (-75878691063932810); 75878691063932810; 75878691063932810; (-75878691063932810)];
   [0; 79582242575422150; 0; (-79582242575422150); 0; 0; (-75878691063932810); 75878691063932810; (-75878691063932810); (-75878691063932810); 
    75878691063932810; (-75878691063932810); 75878691063932810; 75878691063932810]],
   [886426592797783900; 886426592797783900; 886426592797783900; 886426592797783900; 886426592797783900; 886426592797783900; 335180055401662070; 
    335180055401662070; 335180055401662070; 335180055401662070; 335180055401662070; 335180055401662070; 335180055401662070; 335180055401662070], 5%nat).
(** witherden_vincent_quad_data.py:1350-1498 *)
Definition wv_hex_data_7 : list (list Z) * list Z * nat :=
  ([[(-98808616118867650); 0; 0; 0; 98808616118867650; 0; 40795516735831940; (-40795516735831940); (-40795516735831940); (-40795516735831940); 
    (-40795516735831940); 40795516735831940; 40795516735831940; 40795516735831940; 78110282100411850; (-78110282100411850); (-78110282100411850); 
    (-78110282100411850); (-78110282100411850); 78110282100411850; 78110282100411850; 78110282100411850; (-84805227568403870); 84805227568403870; 0; 
    84805227568403870; 84805227568403870; 0; 0; (-84805227568403870); (-84805227568403870); 84805227568403870; 0; (-84805227568403870)];
   [0; 0; 98808616118867650; 0; 0; (-98808616118867650); (-40795516735831940); 40795516735831940; 40795516735831940; (-40795516735831940); 
    (-40795516735831940); 40795516735831940; 40795516735831940; (-40795516735831940); (-78110282100411850); 78110282100411850; 78110282100411850; 
    (-78110282100411850); (-78110282100411850); 78110282100411850; 78110282100411850; (-78110282100411850); (-84805227568403870); 0; 84805227568403870; 
    84805227568403870; 0; (-84805227568403870); (-84805227568403870); 0; 84805227568403870; (-84805227568403870); 84805227568403870; 0];
   [0; 98808616118867650; 0; (-98808616118867650); 0; 0; (-40795516735831940); 40795516735831940; (-40795516735831940); (-40795516735831940); 
    40795516735831940; (-40795516735831940); 40795516735831940; 40795516735831940; (-78110282100411850); 78110282100411850; (-78110282100411850); 
    (-78110282100411850); 78110282100411850; (-78110282100411850); 78110282100411850; 78110282100411850; 0; (-84805227568403870); (-84805227568403870); 
    0; 84805227568403870; 84805227568403870; (-84805227568403870); 84805227568403870; 0; 0; 84805227568403870; (-84805227568403870)]],
   [200129890983567000; 200129890983567000; 200129890983567000; 200129890983567000; 200129890983567000; 200129890983567000; 457153856069852760; 
    457153856069852760; 457153856069852760; 457153856069852760; 457153856069852760; 457153856069852760; 457153856069852760; 457153856069852760; 
    153796140065958680; 153796140065958680; 153796140065958680; 153796140065958680; 153796140065958680; 153796140065958680; 153796140065958680; 
    153796140065958680; 159301723751008870; 159301723751008870; 159301723751008870; 159301723751008870; 159301723751008870; 159301723751008870; 
    159301723751008870; 159301723751008870; 159301723751008870; 159301723751008870; 159301723751008870; 159301723751008870], 7%nat).
(** witherden_vincent_quad_data.py:1499-1743 *)
Definition wv_hex_data_9 : list (list Z) * list Z * nat :=
  ([[(-61368146959170900); 0; 0; 0; 61368146959170900; 0; 87009978466197590; (-87009978466197590); (-87009978466197590); (-87009978466197590); 
    (-87009978466197590); 87009978466197590; 87009978466197590; 87009978466197590; 56411080702003000; (-56411080702003000); (-56411080702003000); 
    (-56411080702003000); (-56411080702003000); 56411080702003000; 56411080702003000; 56411080702003000; (-87768712325767830); 87768712325767830; 0; 
    87768712325767830; 87768712325767830; 0; 0; (-87768712325767830); (-87768712325767830); 87768712325767830; 0; (-87768712325767830); 
    43226790263086220; (-43226790263086220); (-43226790263086220); (-93853042186467170); (-43226790263086220); 93853042186467170; 43226790263086220; 
    43226790263086220; (-43226790263086220); 43226790263086220; (-93853042186467170); (-43226790263086220); (-43226790263086220); (-43226790263086220); 
    43226790263086220; 93853042186467170; 43226790263086220; 93853042186467170; 93853042186467170; (-93853042186467170); 43226790263086220; 
    (-43226790263086220); 43226790263086220; (-93853042186467170)];
   [0; 0; 61368146959170900; 0; 0; (-61368146959170900); (-87009978466197590); 87009978466197590; 87009978466197590; (-87009978466197590); 
    (-87009978466197590); 87009978466197590; 87009978466197590; (-87009978466197590); (-56411080702003000); 56411080702003000; 56411080702003000; 
    (-56411080702003000); (-56411080702003000); 56411080702003000; 56411080702003000; (-56411080702003000); (-87768712325767830); 0; 87768712325767830; 
    87768712325767830; 0; (-87768712325767830); (-87768712325767830); 0; 87768712325767830; (-87768712325767830); 87768712325767830; 0; 
    93853042186467170; (-93853042186467170); 93853042186467170; (-43226790263086220); (-43226790263086220); 43226790263086220; (-93853042186467170); 
    (-93853042186467170); (-93853042186467170); 43226790263086220; 43226790263086220; 43226790263086220; 43226790263086220; (-43226790263086220); 
    (-43226790263086220); (-43226790263086220); 93853042186467170; 43226790263086220; (-43226790263086220); 43226790263086220; 43226790263086220; 
    93853042186467170; (-43226790263086220); (-43226790263086220)];
   [0; 61368146959170900; 0; (-61368146959170900); 0; 0; (-87009978466197590); 87009978466197590; (-87009978466197590); (-87009978466197590); 
    87009978466197590; (-87009978466197590); 87009978466197590; 87009978466197590; (-56411080702003000); 56411080702003000; (-56411080702003000); 
    (-56411080702003000); 56411080702003000; (-56411080702003000); 56411080702003000; 56411080702003000; 0; (-87768712325767830); (-87768712325767830); 
    0; 87768712325767830; 87768712325767830; (-87768712325767830); 87768712325767830; 0; 0; 87768712325767830; (-87768712325767830); 
    (-43226790263086220); 43226790263086220; (-43226790263086220); 43226790263086220; 93853042186467170; (-43226790263086220); (-43226790263086220); 
    43226790263086220; (-43226790263086220); (-93853042186467170); (-43226790263086220); (-93853042186467170); 93853042186467170; (-93853042186467170); 
    93853042186467170; (-43226790263086220); 43226790263086220; 43226790263086220; 43226790263086220; 43226790263086220; 93853042186467170; 
    43226790263086220; (-93853042186467170); (-43226790263086220)]],
   [433274995749654560; 433274995749654560; 433274995749654560; 433274995749654560; 433274995749654560; 433274995749654560; 50148795299349030; 
    50148795299349030; 50148795299349030; 50148795299349030; 50148795299349030; 50148795299349030; 50148795299349030; 50148795299349030; 
    198859838144023500; 198859838144023500; 198859838144023500; 198859838144023500; 198859838144023500; 198859838144023500; 198859838144023500; 
    198859838144023500; 91789806136177640; 91789806136177640; 91789806136177640; 91789806136177640; 91789806136177640; 91789806136177640; 
    91789806136177640; 91789806136177640; 91789806136177640; 91789806136177640; 91789806136177640; 91789806136177640; 96116803513373370; 
    96116803513373370; 96116803513373370; 96116803513373370; 96116803513373370; 96116803513373370; 96116803513373370; 96116803513373370; 
    96116803513373370; 96116803513373370; 96116803513373370; 96116803513373370; 96116803513373370; 96116803513373370; 96116803513373370; 
    96116803513373370; 96116803513373370; 96116803513373370; 96116803513373370; 96116803513373370; 96116803513373370; 96116803513373370; 
    96116803513373370; 96116803513373370], 9%nat).
(** witherden_vincent_quad_data.py:1744-2116 *)
Definition wv_hex_data_11 : list (list Z) * list Z * nat :=
  ([[(-81261433409962650); 0; 0; 0; 81261433409962650; 0; 60167526419826270; (-60167526419826270); (-60167526419826270); (-60167526419826270); 
    (-60167526419826270); 60167526419826270; 60167526419826270; 60167526419826270; 85545576101776000; (-85545576101776000); (-85545576101776000); 
    (-85545576101776000); (-85545576101776000); 85545576101776000; 85545576101776000; 85545576101776000; 31339340451605474; (-31339340451605474); 
    (-31339340451605474); (-31339340451605474); (-31339340451605474); 31339340451605474; 31339340451605474; 31339340451605474; (-73466828699700800); 
    73466828699700800; 0; 73466828699700800; 73466828699700800; 0; 0; (-73466828699700800); (-73466828699700800); 73466828699700800; 0; 
    (-73466828699700800); 45079993511450944; (-45079993511450944); (-45079993511450944); (-96509966551271030); (-45079993511450944); 96509966551271030; 
    45079993511450944; 45079993511450944; (-45079993511450944); 45079993511450944; (-96509966551271030); (-45079993511450944); (-45079993511450944); 
    (-45079993511450944); 45079993511450944; 96509966551271030; 45079993511450944; 96509966551271030; 96509966551271030; (-96509966551271030); 
    45079993511450944; (-45079993511450944); 45079993511450944; (-96509966551271030); 94124485721060320; (-94124485721060320); (-94124485721060320); 
    (-35390281459663014); (-94124485721060320); 35390281459663014; 94124485721060320; 94124485721060320; (-94124485721060320); 94124485721060320; 
    (-35390281459663014); (-94124485721060320); (-94124485721060320); (-94124485721060320); 94124485721060320; 35390281459663014; 94124485721060320; 
    35390281459663014; 35390281459663014; (-35390281459663014); 94124485721060320; (-94124485721060320); 94124485721060320; (-35390281459663014)];
   [0; 0; 81261433409962650; 0; 0; (-81261433409962650); (-60167526419826270); 60167526419826270; 60167526419826270; (-60167526419826270); 
    (-60167526419826270); 60167526419826270; 60167526419826270; (-60167526419826270); (-85545576101776000); 85545576101776000; 85545576101776000; 
    (-85545576101776000); (-85545576101776000); 85545576101776000; 85545576101776000; (-85545576101776000); (-31339340451605474); 31339340451605474; 
    31339340451605474; (-31339340451605474); (-31339340451605474); 31339340451605474; 31339340451605474; (-31339340451605474); (-73466828699700800); 0; 
    73466828699700800; 73466828699700800; 0; (-73466828699700800); (-73466828699700800); 0; 73466828699700800; (-73466828699700800); 73466828699700800; 
    0; 96509966551271030; (-96509966551271030); 96509966551271030; (-45079993511450944); (-45079993511450944); 45079993511450944; (-96509966551271030); 
    (-96509966551271030); (-96509966551271030); 45079993511450944; 45079993511450944; 45079993511450944; 45079993511450944; (-45079993511450944); 
    (-45079993511450944); (-45079993511450944); 96509966551271030; 45079993511450944; (-45079993511450944); 45079993511450944; 45079993511450944; 
    96509966551271030; (-45079993511450944); (-45079993511450944); 35390281459663014; (-35390281459663014); 35390281459663014; (-94124485721060320); 
    (-94124485721060320); 94124485721060320; (-35390281459663014); (-35390281459663014); (-35390281459663014); 94124485721060320; 94124485721060320; 
    94124485721060320; 94124485721060320; (-94124485721060320); (-94124485721060320); (-94124485721060320); 35390281459663014; 94124485721060320; 
    (-94124485721060320); 94124485721060320; 94124485721060320; 35390281459663014; (-94124485721060320); (-94124485721060320)];
   [0; 81261433409962650; 0; (-81261433409962650); 0; 0; (-60167526419826270); 60167526419826270; (-60167526419826270); (-60167526419826270); 
    60167526419826270; (-60167526419826270); 60167526419826270; 60167526419826270; (-85545576101776000); 85545576101776000; (-85545576101776000); 
    (-85545576101776000); 85545576101776000; (-85545576101776000); 85545576101776000; 85545576101776000; (-31339340451605474); 31339340451605474; 
    (-31339340451605474); (-31339340451605474); 31339340451605474; (-31339340451605474); 31339340451605474; 31339340451605474; 0; (-73466828699700800); 
    (-73466828699700800); 0; 73466828699700800; 73466828699700800; (-73466828699700800); 73466828699700800; 0; 0; 73466828699700800; 
    (-73466828699700800); (-45079993511450944); 45079993511450944; (-45079993511450944); 45079993511450944; 96509966551271030; (-45079993511450944); 
    (-45079993511450944); 45079993511450944; (-45079993511450944); (-96509966551271030); (-45079993511450944); (-96509966551271030); 96509966551271030; 
    (-96509966551271030); 96509966551271030; (-45079993511450944); 45079993511450944; 45079993511450944; 45079993511450944; 45079993511450944; 
    96509966551271030; 45079993511450944; (-96509966551271030); (-45079993511450944); (-94124485721060320); 94124485721060320; (-94124485721060320); 
    94124485721060320; 35390281459663014; (-94124485721060320); (-94124485721060320); 94124485721060320; (-94124485721060320); (-35390281459663014); 
    (-94124485721060320); (-35390281459663014); 35390281459663014; (-35390281459663014); 35390281459663014; (-94124485721060320); 94124485721060320; 
    94124485721060320; 94124485721060320; 94124485721060320; 35390281459663014; 94124485721060320; (-35390281459663014); (-94124485721060320)]],
   [202477073612800180; 202477073612800180; 202477073612800180; 202477073612800180; 202477073612800180; 202477073612800180; 117538347956456280; 
    117538347956456280; 117538347956456280; 117538347956456280; 117538347956456280; 117538347956456280; 117538347956456280; 117538347956456280; 
    44643912078829240; 44643912078829240; 44643912078829240; 44643912078829240; 44643912078829240; 44643912078829240; 44643912078829240; 
    44643912078829240; 215992045254969120; 215992045254969120; 215992045254969120; 215992045254969120; 215992045254969120; 215992045254969120; 
    215992045254969120; 215992045254969120; 145199345860115700; 145199345860115700; 145199345860115700; 145199345860115700; 145199345860115700; 
    145199345860115700; 145199345860115700; 145199345860115700; 145199345860115700; 145199345860115700; 145199345860115700; 145199345860115700; 
    61441994097835340; 61441994097835340; 61441994097835340; 61441994097835340; 61441994097835340; 61441994097835340; 61441994097835340; 
    61441994097835340; 61441994097835340; 61441994097835340; 61441994097835340; 61441994097835340; 61441994097835340; 61441994097835340; 
    61441994097835340; 61441994097835340; 61441994097835340; 61441994097835340; 61441994097835340; 61441994097835340; 61441994097835340; 
    61441994097835340; 61441994097835340; 61441994097835340; 22614296138821884; 22614296138821884; 22614296138821884; 22614296138821884; 
    22614296138821884; 22614296138821884; 22614296138821884; 22614296138821884; 22614296138821884; 22614296138821884; 22614296138821884; 
    22614296138821884; 22614296138821884; 22614296138821884; 22614296138821884; 22614296138821884; 22614296138821884; 22614296138821884; 
    22614296138821884; 22614296138821884; 22614296138821884; 22614296138821884; 22614296138821884; 22614296138821884], 11%nat).
(** witherden_vincent_quad_data.py: the dictionary hex_data *)
Definition wv_hex_data : dec_table :=
  [(1%nat, wv_hex_data_1); (3%nat, wv_hex_data_3); (5%nat, wv_hex_data_5); (7%nat, wv_hex_data_7); (9%nat, wv_hex_data_9); (11%nat, wv_hex_data_11)].
