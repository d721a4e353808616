(** * The tables of modepy/quadrature/vr_quad_data_tri.py and vr_quad_data_tet.py

    Generated from the text of the file.  Decimal literals are written as integers, over
    the power of ten given at each table. *)
From Coq Require Import List ZArith.
From Verif Require Import ModelTables.
Import ListNotations.
Local Open Scope Z_scope.

(** Points over 10^35, weights over 10^34. *)
(** vr_quad_data_tri.py:29-37 *)
Definition vr_triangle_data_0 : list (list Z) * list Z * nat :=
  ([[0];
   [0];
   []],
   [45590141139095552839871265039273000], 1%nat).
(** vr_quad_data_tri.py:38-58 *)
Definition vr_triangle_data_1 : list (list Z) * list Z * nat :=
  ([[50000000000000000000000000000000000; 0; (-50000000000000000000000000000000000)];
   [(-28867513459481288225457439025098000); 57735026918962576450914878050196000; (-28867513459481288225457439025098000)];
   []],
   [15196713713031850946623755013091000; 15196713713031850946623755013091000; 15196713713031850946623755013091000], 2%nat).
(** vr_quad_data_tri.py:59-88 *)
Definition vr_triangle_data_2 : list (list Z) * list Z * nat :=
  ([[0; (-72527135947068776962128560979340000); 0; (-33784547274789465895498776164916000); 72527135947068776962128560979340000; 
    33784547274789465895498776164916000];
   [83747122925185483484415621413487000; (-41873561462592741742207810706744000); (-39011034927098671317419951524681000); 
    19505517463549335658709975762341000; (-41873561462592741742207810706744000); 19505517463549335658709975762340000];
   []],
   [5012715511735777915459437110105300; 5012715511735777915459437110105400; 10183998201296073031164317902986000; 10183998201296073031164317902986000; 
    5012715511735777915459437110105300; 10183998201296073031164317902986000], 4%nat).
(** vr_quad_data_tri.py:89-130 *)
Definition vr_triangle_data_3 : list (list Z) * list Z * nat :=
  ([[0; 78666101639967696838369807741827000; 0; 30094676896614446173661526090005000; (-78666101639967696838369807741827000); 
    24288496199708743989786878437904000; 54383173096323190163448404527909000; (-24288496199708743989786878437904000); 
    (-30094676896614446173661526090005000); (-54383173096323190163448404527909000)];
   [0; (-45417894957933810585376535186351000); 90835789915867621170753070372702000; (-45421109445661253251431660004936000); 
    (-45417894957933810585376535186351000); 48773309433983369328454581322934000; (-3352199988322116077022921317997500); 
    48773309433983369328454581322934000; (-45421109445661253251431660004936000); (-3352199988322116077022921317997500)];
   []],
   [9070859321047263024740778757025400; 2748127224482314196835852331672300; 2748127224482314196835852331672300; 4712483357433557870770488214538400; 
    2748127224482314196835852331672300; 4712483357433557870770488214538400; 4712483357433557870770488214538400; 4712483357433557870770488214538400; 
    4712483357433557870770488214538400; 4712483357433557870770488214538400], 5%nat).
(** vr_quad_data_tri.py:131-187 *)
Definition vr_triangle_data_4 : list (list Z) * list Z * nat :=
  ([[0; (-27344573096654179666874290539477000); 27344573096654179666874290539477000; (-42233238215340581924615566001252000); 
    42233238215340581924615566001252000; 0; (-18517708686734435661867105631915000); (-67031349478008169894818481229504000); 
    18517708686734435661867105631914000; (-48513640791273734232951375597590000); 67031349478008169894818481229504000; 
    48513640791273734232951375597590000; 0; (-84624076047564449367313431517587000); 84624076047564449367313431517587000];
   [31574793276457378418547105481567000; (-15787396638228689209273552740784000); (-15787396638228689209273552740784000); 
    24383371452376474985074290854059000; 24383371452376474985074290854059000; (-48766742904752949970148581708119000); 
    66709931235482596900014874899532000; (-17318159475149501708574603496963000); 66709931235482596900014874899532000; 
    (-49391771760333095191440271402570000); (-17318159475149501708574603496963000); (-49391771760333095191440271402570000); 
    97715466171969393506910087330460000; (-48857733085984696753455043665230000); (-48857733085984696753455043665230000)];
   []],
   [5790354848329459142354296423739900; 5790354848329459142354296423739900; 5790354848329459142354296423739900; 2957880950851678771185607689014000; 
    2957880950851678771185607689014100; 2957880950851678771185607689014100; 2494492732591194002401003806892600; 2494492732591194002401003806892600; 
    2494492732591194002401003806892600; 2494492732591194002401003806892600; 2494492732591194002401003806892600; 2494492732591194002401003806892600; 
    1459492448668325028281843286551700; 1459492448668325028281843286551700; 1459492448668325028281843286551700], 7%nat).
(** vr_quad_data_tri.py:188-262 *)
Definition vr_triangle_data_5 : list (list Z) * list Z * nat :=
  ([[41194192657853010982865870129986000; (-41194192657853010982865870129986000); 21338599921749440268499811887570000; 0; 0; 
    (-21338599921749440268499811887570000); 20857398496582545094850354093101000; (-20857398496582545094850354093101000); 
    54532428466503419131050832984425000; (-54532428466503419131050832984426000); 33675029969920874036200478891324000; 
    (-33675029969920874036200478891324000); 61651198554323269517089684287530000; 74641524507499706560581304184834000; 
    (-61651198554323269517089684287530000); (-74641524507499706560581304184834000); 12990325953176437043491619897304000; 
    (-12990325953176437043491619897303000); 90578275359714536457244798934681000; (-90578275359714536457244798934681000); 0];
   [(-23783478220060741129500105273301000); (-23783478220060741129500105273301000); 12319846408951766613334398575003000; 
    (-24639692817903533226668797150005000); 47566956440121482259000210546603000; 12319846408951766613334398575003000; 
    (-50926599872802291799663328816150000); (-50926599872802291799663328816149000); 7400262981505303709627287464998100; 
    7400262981505303709627287464998100; 43526336891296988090036041351151000; 43526336891296988090036041351151000; (-50594272453056402070651247697118000); 
    (-28094367895274208605804537200598000); (-50594272453056402070651247697118000); (-28094367895274208605804537200598000); 
    78688640348330610676455784897716000; 78688640348330610676455784897716000; (-52295391661663234099806653900769000); 
    (-52295391661663234099806653900769000); 104590783323326468199613307801540000];
   []],
   [3391797495625381729477659240661200; 3391797495625381729477659240661200; 3875824522534160824842134088767600; 3875824522534160824842134088767600; 
    3391797495625381729477659240661200; 3875824522534160824842134088767600; 1900994790877155747588053179523200; 1900994790877155747588053179523200; 
    1900994790877155747588053179523200; 1900994790877155747588053179523200; 1900994790877155747588053179523200; 1900994790877155747588053179523200; 
    1750927895853335819010593230111200; 1750927895853335819010593230111200; 1750927895853335819010593230111200; 1750927895853335819010593230111200; 
    1750927895853335819010593230111100; 1750927895853335819010593230111200; 625246321411325259106668864393330; 625246321411325259106668864393340; 
    625246321411325259106668864393330], 8%nat).
(** vr_quad_data_tri.py:263-358 *)
Definition vr_triangle_data_6 : list (list Z) * list Z * nat :=
  ([[0; 18198879794064935596162112438012000; (-18984606011787978345060759355777000); (-18198879794064935596162112438013000); 
    (-37183485805852913941222871793789000); 37183485805852913941222871793789000; 18984606011787978345060759355777000; 
    (-45604440912430706100423731491474000); 45604440912430706100423731491474000; 0; 27250079579468194023884839447403000; 0; 
    (-27250079579468194023884839447403000); (-53495344799133098730940442584470000); (-63663129948675283473474306980112000); 
    (-36413050369207089449589467532709000); 63663129948675283473474306980112000; 53495344799133098730940442584470000; 
    36413050369207089449589467532709000; 9865860841671666656952242644470600; (-9865860841671666656952242644470600); 
    (-80715686527894965687110506529034000); (-70849825686223299030158263884563000); 80715686527894965687110506529034000; 
    70849825686223299030158263884563000; 0; (-93188007906144489152796614894753000); 93188007906144489152796614894753000];
   [0; 32428662930782585458826097784001000; (-31975023687470840225520350665067000); 32428662930782585458826097784001000; 
    (-453639243311745233305747118934030); (-453639243311745233305747118933960); (-31975023687470840225520350665067000); 
    26329736237034250583971557607976000; 26329736237034250583971557607976000; (-52659472474068501167943115215952000); 
    57779009645998915719423059512945000; 61771103440342682348656306201350000; 57779009645998915719423059512945000; 
    (-30885551720171341174328153100675000); (-5290243652032429054972673348582200); (-52488765993966486664450386164363000); 
    (-5290243652032429054972673348582200); (-30885551720171341174328153100675000); (-52488765993966486664450386164363000); 
    87506389276684691859151236786929000; 87506389276684691859151236786929000; (-35209108519252559091506760612381000); 
    (-52297280757432132767644476174547000); (-35209108519252559091506760612381000); (-52297280757432132767644476174547000); 
    107604242899714989615043914689170000; (-53802121449857494807521957344584000); (-53802121449857494807521957344584000)];
   []],
   [3684424702051817122385208375600800; 2698213590707167797232212036724300; 2698213590707167797232212036724300; 2698213590707167797232212036724300; 
    2698213590707167797232212036724300; 2698213590707167797232212036724400; 2698213590707167797232212036724300; 1207176150014276286778965305210000; 
    1207176150014276286778965305210000; 1207176150014276286778965305210000; 1300509962123403003028769777711400; 2284490708168887122448175107745300; 
    1300509962123403003028769777711400; 2284490708168887122448175107745300; 1300509962123403003028769777711400; 1300509962123403003028769777711400; 
    1300509962123403003028769777711400; 2284490708168887122448175107745300; 1300509962123403003028769777711400; 1071464248131158585770062275015300; 
    1071464248131158585770062275015300; 1071464248131158585770062275015300; 1071464248131158585770062275015300; 1071464248131158585770062275015300; 
    1071464248131158585770062275015300; 336529685574623057872790296033340; 336529685574623057872790296033350; 336529685574623057872790296033340], 10%nat).
(** vr_quad_data_tri.py:359-478 *)
Definition vr_triangle_data_7 : list (list Z) * list Z * nat :=
  ([[0; (-18542610399850690980043697691631000); 18542610399850690980043697691631000; (-32001707063130681698349074886935000); 
    32001707063130681698349074886935000; 0; (-14963262045752818798418957602781000); (-50093564750874300428223517244129000); 
    14963262045752818798418957602781000; (-35130302705121481629804559641348000); 50093564750874300428223517244128000; 
    35130302705121481629804559641348000; (-39075754928485943925742379730586000); (-53872893815831736574837198749508000); 
    39075754928485943925742379730586000; (-14797138887345792649094819018922000); 53872893815831736574837198749508000; 
    14797138887345792649094819018922000; (-22913152507304476183051871327667000); (-70222079033847928511493675220401000); 0; 
    (-63870750529242832977965961630583000); 22913152507304476183051871327667000; (-47308926526543452328441803892734000); 
    70222079033847928511493675220401000; 47308926526543452328441803892735000; 63870750529242832977965961630582000; (-8218975968188965337689205648320800); 
    (-84515568016436411951015152604368000); 8218975968188965337689205648320800; (-76296592048247446613325946956047000); 
    84515568016436411951015152604368000; 76296592048247446613325946956047000; 0; (-94190436729271690210274071303830000); 
    94190436729271690210274071303830000];
   [21411162211664301340462165458887000; (-10705581105832150670231082729443000); (-10705581105832150670231082729443000); 
    18476194187426047228139197115937000; 18476194187426047228139197115937000; (-36952388374852094456278394231874000); 
    49204022817100151454837448537794000; (-11643446353444625358790649584804000); 49204022817100151454837448537794000; 
    (-37560576463655526096046798952990000); (-11643446353444625358790649584804000); (-37560576463655526096046798952990000); 
    39646661866439951102400799310888000; 14017265506903832534298446961604000; 39646661866439951102400799310889000; 
    (-53663927373343783636699246272493000); 14017265506903832534298446961605000; (-53663927373343783636699246272493000); 
    67856557698419366256136426691643000; (-14084906697096901352016080817778000); 73751590022803563770063020613881000; 
    (-36875795011401781885031510306941000); 67856557698419366256136426691643000; (-53771651001322464904120345873865000); 
    (-14084906697096901352016080817778000); (-53771651001322464904120345873865000); (-36875795011401781885031510306940000); 
    92844943902310411936713568924512000; (-39304629969609759695361745623513000); 92844943902310411936713568924512000; 
    (-53540313932700652241351823300998000); (-39304629969609759695361745623514000); (-53540313932700652241351823300998000); 
    108761748001466848182450306092680000; (-54380874000733424091225153046341000); (-54380874000733424091225153046342000)];
   []],
   [2847461081532310337164129014972900; 2847461081532310337164129014972900; 2847461081532310337164129014972900; 2130958838681680089321861312509300; 
    2130958838681680089321861312509300; 2130958838681680089321861312509300; 1893217328710339976508701458383700; 1893217328710339976508701458383700; 
    1893217328710339976508701458383700; 1893217328710339976508701458383700; 1893217328710339976508701458383700; 1893217328710339976508701458383700; 
    834724595477321612242817476996230; 834724595477321612242817476996230; 834724595477321612242817476996230; 834724595477321612242817476996230; 
    834724595477321612242817476996240; 834724595477321612242817476996240; 867391162680535113373162516929370; 867391162680535113373162516929360; 
    1442455773023004987555291923196200; 1442455773023004987555291923196200; 867391162680535113373162516929370; 867391162680535113373162516929360; 
    867391162680535113373162516929370; 867391162680535113373162516929370; 1442455773023004987555291923196200; 675388481948756411394795070148260; 
    675388481948756411394795070148260; 675388481948756411394795070148250; 675388481948756411394795070148250; 675388481948756411394795070148250; 
    675388481948756411394795070148250; 234394882160949305543519717497450; 234394882160949305543519717497460; 234394882160949305543519717497450], 12%nat).
(** vr_quad_data_tri.py:479-625 *)
Definition vr_triangle_data_8 : list (list Z) * list Z * nat :=
  ([[33840749330282616276614803727603000; (-33840749330282616276614803727604000); 0; (-15837256783487402385429961651910000); 0; 
    15837256783487402385429961651909000; (-18003748919109069233633444728547000); 18003748919109069233633444728547000; 
    (-44411215529327639172957918743676000); 44411215529327639172957918743676000; (-26407466610218569939324474015130000); 
    26407466610218569939324474015129000; 0; 47074732981511676359820069717112000; (-47074732981511676359820069717112000); 
    50691100281912485182864141364046000; (-50691100281912485182864141364047000); 61574805258036049546697922568789000; 
    (-61574805258036049546697922568789000); 28520479247065339231926648775766000; (-28520479247065339231926648775766000); 
    61484502537664123353119996207596000; (-61484502537664123353119996207596000); 10883704976123564363833781204742000; 
    (-10883704976123564363833781204743000); 32964023290598784121193347431830000; (-32964023290598784121193347431830000); 
    55280800592112062772924427272673000; (-55280800592112062772924427272674000); 75408237504506300730322177299697000; 
    (-75408237504506300730322177299698000); 74905048380485682434739851366433000; (-74905048380485682434739851366434000); 
    19624247788373619661815424093760000; (-19624247788373619661815424093760000); 0; 87243682719949148181118784089772000; 
    79103149889354115500914178391097000; (-79103149889354115500914178391098000); (-87243682719949148181118784089772000); 
    94352470249122517030426883532403000; 8140532830595032680204605698674200; (-8140532830595032680204605698674200); 
    (-94352470249122517030426883532403000); 0];
   [(-19537965735417316316644641041672000); (-19537965735417316316644641041672000); (-18287288934343356901271462559822000); 
    9143644467171678450635731279911200; 39075931470834632633289282083344000; 9143644467171678450635731279911300; (-40887185196921546111148340827586000); 
    (-40887185196921546111148340827586000); 4851888671155690532782103282581800; 4851888671155690532782103282582000; 36035296525765855578366237545005000; 
    36035296525765855578366237545005000; (-54357219517811041207332500874834000); 27178609758905520603666250437417000; 
    27178609758905520603666250437417000; (-41833940388771306478528118915117000); (-41833940388771306478528118915117000); 
    (-22982810395535078460065003265087000); (-22982810395535078460065003265087000); (-54529881811510911349963357908858000); 
    (-54529881811510911349963357908858000); 2565481349689992553699907459371800; 2565481349689992553699907459371500; 64816750784306384938593122180205000; 
    64816750784306384938593122180204000; 51964400461820918796263450449486000; 51964400461820918796263450449486000; 
    (-54576514589396777543130146294961000); (-54576514589396777543130146294961000); (-43536966222341946125925878404668000); 
    (-43536966222341946125925878404668000); (-20586320359612495421009714581709000); (-20586320359612495421009714581710000); 
    75162834949009272964139860876670000; 75162834949009272964139860876670000; 87073932444683892251851756809337000; 
    (-40970286061274885784067104473356000); (-55070102524547970712547088728629000); (-55070102524547970712547088728629000); 
    (-40970286061274885784067104473357000); (-54474424097037041525790615178450000); 96040388585822856496614193201986000; 
    96040388585822856496614193201986000; (-54474424097037041525790615178450000); 108948848194074083051581230356900000];
   []],
   [2069158147054460537189527169726000; 2069158147054460537189527169726000; 2379453998598061640079736178907600; 2379453998598061640079736178907600; 
    2069158147054460537189527169726000; 2379453998598061640079736178907600; 1711486303030304641920701504062700; 1711486303030304641920701504062700; 
    1711486303030304641920701504062700; 1711486303030304641920701504062700; 1711486303030304641920701504062700; 1711486303030304641920701504062700; 
    653894235216757111340613635899650; 653894235216757111340613635899640; 653894235216757111340613635899640; 1318978880520635337087319380462400; 
    1318978880520635337087319380462400; 1318978880520635337087319380462400; 1318978880520635337087319380462400; 598409389778019312239023872291580; 
    598409389778019312239023872291590; 598409389778019312239023872291580; 598409389778019312239023872291600; 1318978880520635337087319380462400; 
    1318978880520635337087319380462400; 598409389778019312239023872291580; 598409389778019312239023872291580; 542230534919642434715472658048640; 
    542230534919642434715472658048630; 793187439379496178524486390086590; 793187439379496178524486390086570; 542230534919642434715472658048640; 
    542230534919642434715472658048640; 542230534919642434715472658048640; 542230534919642434715472658048630; 793187439379496178524486390086570; 
    374025251759747356571816586218260; 374025251759747356571816586218260; 374025251759747356571816586218250; 374025251759747356571816586218240; 
    210759172766377314420723636303950; 374025251759747356571816586218260; 374025251759747356571816586218240; 210759172766377314420723636303950; 
    210759172766377314420723636303950], 14%nat).
(** vr_quad_data_tri.py:626-802 *)
Definition vr_triangle_data_9 : list (list Z) * list Z * nat :=
  ([[0; 37811539285214573105632000025031000; 0; 28060976678934036420039639714517000; (-28060976678934036420039639714517000); 
    (-37811539285214573105632000025031000); 13612645795137144022275064544358000; (-13612645795137144022275064544358000); 
    38523130723366368854885150368032000; 14448330883796892397764575170159000; (-14448330883796892397764575170159000); 
    50199922907959865394668431471380000; 25143652303055032384653087127271000; 0; (-38523130723366368854885150368032000); 
    25056270604904833010015344344108000; (-25143652303055032384653087127271000); (-25056270604904833010015344344109000); 
    (-50199922907959865394668431471380000); 54873803112611292080239030575457000; 14517136292570846629519516527345000; 
    40356666820040445450719514048112000; (-14517136292570846629519516527346000); (-40356666820040445450719514048112000); 
    (-54873803112611292080239030575457000); 62657493845800257036694631667822000; 42221236730845991783894824568658000; 
    68647162444028217694604041543579000; 52451761844040940597972356337355000; 26425925713182225910709216974921000; 
    (-42221236730845991783894824568658000); 10205732001759316438722275330467000; (-52451761844040940597972356337355000); 
    (-10205732001759316438722275330467000); (-62657493845800257036694631667822000); (-26425925713182225910709216974921000); 
    (-68647162444028217694604041543579000); 79151680103462485387156047337526000; 63964292679575040433963909286056000; 
    76848884734188719390457335364592000; (-63964292679575040433963909286056000); (-76848884734188719390457335364592000); 
    (-79151680103462485387156047337526000); 15187387423887444953192138051470000; (-15187387423887444953192138051470000); 0; 
    89037304390288533172340646363686000; 81991605544320127351297764941668000; (-81991605544320127351297764941668000); 
    (-89037304390288533172340646363685000); 7045698845968405821042881422017700; (-7045698845968405821042881422017800); 
    94704402112766222486169064973683000; 0; (-94704402112766222486169064973683000)];
   [0; 21830502384792743549483327074518000; (-43661004769585487098966654149036000); 482483010895461997887182532009500; 482483010895461997887182532009100; 
    21830502384792743549483327074518000; (-24542760164407296072916507862054000); (-24542760164407296072916507862054000); 
    (-22241339893162715758625388904021000); 24060277153511834075029325330045000; 24060277153511834075029325330045000; 
    (-50449846949264232666571801631269); (-43449183582839001813473460242920000); 44482679786325431517250777808043000; 
    (-22241339893162715758625388904022000); 43499633429788266046140032044551000; (-43449183582839001813473460242920000); 
    43499633429788266046140032044551000; (-50449846949264232666571801631078); 14918459905768125499570812591462000; 
    (-54981337450671043212360903474340000); 40062877544902917712790090882878000; (-54981337450671043212360903474340000); 
    40062877544902917712790090882878000; 14918459905768125499570812591461000; (-24390756701634258988418900167204000); 
    (-54890473040254470931193669006158000); (-9119427067982036905821002872285200); (-42067603057113017645503470382124000); 
    64009900108236507837014671878442000; (-54890473040254470931193669006158000); 66458359758747276633922370549328000; 
    (-42067603057113017645503470382124000); 66458359758747276633922370549328000; (-24390756701634258988418900167204000); 
    64009900108236507837014671878443000; (-9119427067982036905821002872285000); (-28161359379608104980286843915852000); 
    (-54466686032013764942085229009376000); (-44368724288206379156242047385715000); (-54466686032013764942085229009376000); 
    (-44368724288206379156242047385715000); (-28161359379608104980286843915852000); 82628045411621869922372072925228000; 
    82628045411621869922372072925228000; 88737448576412758312484094771430000; (-43270039406953943136612028373603000); 
    (-55473547783000627225956807468872000); (-55473547783000627225956807468872000); (-43270039406953943136612028373603000); 
    98743587189954570362568835842475000; 98743587189954570362568835842475000; (-54677612053248141539518698378250000); 
    109355224106496283079037396756500000; (-54677612053248141539518698378250000)];
   []],
   [2041312164145610492114601090576600; 939907793303577463276276116458080; 939907793303577463276276116458080; 1575265046620085067241382059488000; 
    1575265046620085067241382059488000; 939907793303577463276276116458070; 1575265046620085067241382059488000; 1575265046620085067241382059488000; 
    1457307039661836090560332905586400; 1575265046620085067241382059488000; 1575265046620085067241382059488000; 1149981827176044911800450016703700; 
    1149981827176044911800450016703700; 1457307039661836090560332905586400; 1457307039661836090560332905586300; 1149981827176044911800450016703700; 
    1149981827176044911800450016703700; 1149981827176044911800450016703700; 1149981827176044911800450016703700; 534479686473323079775655972338230; 
    534479686473323079775655972338230; 534479686473323079775655972338230; 534479686473323079775655972338220; 534479686473323079775655972338230; 
    534479686473323079775655972338230; 1177136310214107011291513021405100; 488571163167708110804790430115440; 488571163167708110804790430115450; 
    1177136310214107011291513021405100; 488571163167708110804790430115440; 488571163167708110804790430115430; 1177136310214107011291513021405100; 
    1177136310214107011291513021405100; 1177136310214107011291513021405100; 1177136310214107011291513021405100; 488571163167708110804790430115440; 
    488571163167708110804790430115440; 409357443873540112126568209726230; 409357443873540112126568209726230; 753774885353391088000125630519370; 
    409357443873540112126568209726230; 753774885353391088000125630519370; 409357443873540112126568209726220; 409357443873540112126568209726230; 
    409357443873540112126568209726230; 753774885353391088000125630519370; 258675220976730420362356395976990; 258675220976730420362356395976990; 
    258675220976730420362356395977000; 258675220976730420362356395977000; 258675220976730420362356395977000; 258675220976730420362356395977000; 
    178353209661432047276721118827540; 178353209661432047276721118827540; 178353209661432047276721118827540], 15%nat).
(** vr_quad_data_tri.py:803-1012 *)
Definition vr_triangle_data_10 : list (list Z) * list Z * nat :=
  ([[14053768755130206658828618391664000; (-14053768755130206658828618391664000); 0; 0; 25253108180892151157510287230937000; 
    (-25253108180892151157510287230937000); 27653066905149215797530175701768000; (-27653066905149215797530175701768000); 
    39639932929578666884731093942653000; (-39639932929578666884731093942653000); 11986866024429451087200918240886000; 
    (-11986866024429451087200918240886000); 10468787213559627193812897063098000; (-10468787213559627193812897063097000); 
    44730168313757441375993348512807000; 34261381100197814182180451449712000; (-34261381100197814182180451449712000); 
    (-44730168313757441375993348512808000); 47881252626134275156553235337071000; 0; 51015615497435863868326775030967000; 
    34878244540743420308578801206349000; 57391276258635003910951681880859000; 25702375453663387322606113059203000; 60931331831206290975267860508589000; 
    (-34878244540743420308578801206350000); (-51015615497435863868326775030966000); (-25702375453663387322606113059203000); 
    (-57391276258635003910951681880860000); (-47881252626134275156553235337071000); 22513031717891583602372880674511000; 0; 
    35228956377542903652661747449388000; (-22513031717891583602372880674511000); (-35228956377542903652661747449388000); 
    (-60931331831206290975267860508590000); 50029442031897347474165480909485000; (-50029442031897347474165480909484000); 
    59623504472920704718527558494493000; (-59623504472920704718527558494494000); 69154830009040688619749981905490000; 
    73005468624972210976461526427474000; (-69154830009040688619749981905490000); (-73005468624972210976461526427475000); 
    22976026593074863502296045517988000; 9531325536119983901222423410994900; (-9531325536119983901222423410995100); 
    (-22976026593074863502296045517989000); 69914099608928100469333013513085000; (-69914099608928100469333013513084000); 
    82853927736516455073423784206057000; 79419074530456794800392879888610000; (-79419074530456794800392879888610000); 
    (-82853927736516455073423784206057000); 12939828127588354604090770692968000; (-12939828127588354604090770692969000); 0; 
    90915805900265182902891027226230000; 85693828482943123575327237914906000; (-85693828482943123575327237914906000); 
    (-90915805900265182902891027226229000); 95985867197873597318174667753933000; (-95985867197873597318174667753933000); 
    5221977417322059327563789311320700; (-5221977417322059327563789311321400); 0];
   [(-8113947173903176588926647633615100); (-8113947173903176588926647633615600); 16227894347806353177853295267229000; 
    (-29159777612225648151622278604161000); 14579888806112824075811139302080000; 14579888806112824075811139302080000; 
    (-29806746273495276760092593645161000); (-29806746273495276760092593645161000); (-9044885295662308388085689200222300); 
    (-9044885295662308388085689200222700); 38851631569157585148178282845383000; 38851631569157585148178282845384000; 
    (-45605792317852692097858857208222000); (-45605792317852692097858857208222000); 13736660485170001568815773157590000; 
    31869131832682690529043084050633000; 31869131832682690529043084050632000; 13736660485170001568815773157588000; 27644254092835099326642427211329000; 
    (-55288508185670198653284854422657000); (-29453879340319039905231898288137000); (-46132773719658386474093306462279000); 
    (-7139058951860520204323671412069400); (-55518168282673343838972665057510000); 5500174060858592467596439487923900; 
    (-46132773719658386474093306462279000); (-29453879340319039905231898288138000); (-55518168282673343838972665057510000); 
    (-7139058951860520204323671412070700); 27644254092835099326642427211329000; 53271832671518906678416977874346000; 58907758680638079810463796576277000; 
    50017994221814751371376225569586000; 53271832671518906678416977874346000; 50017994221814751371376225569586000; 5500174060858592467596439487922700; 
    (-55414942101362256514427103275521000); (-55414942101362256514427103275522000); (-45429473085495278329741215518797000); 
    (-45429473085495278329741215518797000); (-28920732993456797890084935814631000); (-15619296686102938749577329218793000); 
    (-28920732993456797890084935814631000); (-15619296686102938749577329218794000); 71034238787465195264004432494313000; 
    74350206078952076219826151333427000; 74350206078952076219826151333426000; 71034238787465195264004432494311000; 
    (-55306550734826203502440460211451000); (-55306550734826203502440460211451000); (-32894110976634320542690088540335000); 
    (-45852624058950181895331566438166000); (-45852624058950181895331566438166000); (-32894110976634320542690088540335000); 
    88200661711460524045130548751787000; 88200661711460524045130548751784000; 91705248117900363790663132876330000; 
    (-46460444874923794375297262976920000); (-55505175077702907392533618901215000); (-55505175077702907392533618901215000); 
    (-46460444874923794375297262976919000); (-55417466265091991089116230312826000); (-55417466265091991089116230312826000); 
    101965619952626701767830881878140000; 101965619952626701767830881878130000; 110834932530183982178232460625650000];
   []],
   [1678293996179810849943873863466300; 1678293996179810849943873863466300; 1678293996179810849943873863466300; 1425406287691043690823975269987300; 
    1425406287691043690823975269987300; 1425406287691043690823975269987300; 1316686913548394729890360824179900; 1316686913548394729890360824179900; 
    1316686913548394729890360824179800; 1316686913548394729890360824179800; 1316686913548394729890360824179800; 1316686913548394729890360824179900; 
    767476378274682545387458333841540; 767476378274682545387458333841590; 767476378274682545387458333841540; 767476378274682545387458333841440; 
    767476378274682545387458333841480; 767476378274682545387458333841570; 419639491056320203438582792120350; 419639491056320203438582792120410; 
    1018679296514475959542581898443700; 884062742413156451089818127450720; 884062742413156451089818127450830; 383463822080190335489047783701610; 
    383463822080190335489047783701650; 884062742413156451089818127450730; 1018679296514475959542581898443700; 383463822080190335489047783701610; 
    884062742413156451089818127450800; 419639491056320203438582792120380; 884062742413156451089818127450820; 1018679296514475959542581898443700; 
    383463822080190335489047783701620; 884062742413156451089818127450780; 383463822080190335489047783701590; 383463822080190335489047783701670; 
    348567983351217148344334540271350; 348567983351217148344334540271330; 809705066472865955044664177927030; 809705066472865955044664177927020; 
    809705066472865955044664177926980; 348567983351217148344334540271430; 809705066472865955044664177926980; 348567983351217148344334540271400; 
    348567983351217148344334540271440; 809705066472865955044664177927010; 809705066472865955044664177927040; 348567983351217148344334540271400; 
    287729718088396192243597037536870; 287729718088396192243597037536860; 287729718088396192243597037536830; 549569469704229081062009150100500; 
    549569469704229081062009150100480; 287729718088396192243597037536810; 287729718088396192243597037536870; 287729718088396192243597037536890; 
    549569469704229081062009150100550; 203203223061186810056897650418460; 203203223061186810056897650418490; 203203223061186810056897650418490; 
    203203223061186810056897650418470; 103333477305790826720375088317770; 103333477305790826720375088317780; 203203223061186810056897650418470; 
    203203223061186810056897650418490; 103333477305790826720375088317740], 17%nat).
(** vr_quad_data_tri.py:1013-1258 *)
Definition vr_triangle_data_11 : list (list Z) * list Z * nat :=
  ([[26427360326405010146944426135061000; 12385718874820048153057341962848000; 0; 0; (-26427360326405010146944426135057000); 
    (-12385718874820048153057341962842000); (-22435291528717072984873190791939000); 35024091737596575505863208124883000; 
    22435291528717072984873190791942000; 12588800208879502520990017332938000; (-35024091737596575505863208124879000); 
    (-12588800208879502520990017332953000); 40024901695833349658264281308061000; (-40024901695833349658264281308072000); 0; 
    11848933195933342726862023439310000; (-11848933195933342726862023439310000); 32817940932664234478994293415356000; 
    (-32817940932664234478994293415350000); 49980478728492652297900636435619000; 47849651664057497478767011944564000; 
    36000718468124154751904988505254000; 42973424315451816610387061667737000; 53557483012590380926039063368404000; 17162537795828417818906343020262000; 
    (-36000718468124154751904988505260000); (-47849651664057497478767011944560000); (-17162537795828417818906343020264000); 
    (-49980478728492652297900636435616000); (-42973424315451816610387061667738000); (-53557483012590380926039063368409000); 
    19764779125324695357946027527752000; 10584058697138564315652001700665000; 31253435676428121474523260921346000; 
    (-10584058697138564315652001700661000); 0; (-19764779125324695357946027527739000); (-31253435676428121474523260921340000); 
    65510088708884485906819932175334000; 63127235592854168598776007870309000; 55151615620594722099419816509822000; 43362456467529473240829980342554000; 
    34256653032456364432296671253983000; (-63127235592854168598776007870304000); (-65510088708884485906819932175332000); 
    (-55151615620594722099419816509827000); (-43362456467529473240829980342556000); (-34256653032456364432296671253988000); 
    19683392048703377872521398434811000; 7517301474560340228253920632471500; (-7517301474560340228253920632463300); 
    (-19683392048703377872521398434815000); 76878478113352564525353333489535000; (-76878478113352564525353333489531000); 
    (-73313220231134685326138576176554000); 73313220231134685326138576176556000; (-65795918756574345097884655544085000); 
    65795918756574345097884655544079000; (-57195086064649186652831935054729000); 57195086064649186652831935054725000; 
    10867373265998159031179892326019000; (-10867373265998159031179892326038000); 0; 85272952548451568827878036327761000; 
    74405579282453409796698144001758000; 83674834256361682127180672571251000; (-74405579282453409796698144001756000); 
    (-85272952548451568827878036327764000); (-83674834256361682127180672571250000); 4756610968233581626836879049983500; 
    (-4756610968233581626836879049999100); 92442948739249250047565381868294000; 87686337771015668420728502818325000; 
    (-87686337771015668420728502818320000); (-92442948739249250047565381868299000); 0; 96428268978304975291755042105045000; 
    (-96428268978304975291755042105045000)];
   [(-15257843598421168817139391661751000); 7150898126484383538393755208960200; (-14301796252968767076787510417936000); 
    30515687196842337634278783323477000; (-15257843598421168817139391661739000); 7150898126484383538393755208968100; 27489315982194528286710718215879000; 
    5684874414081534787886301683959300; 27489315982194528286710718215877000; (-33174190396276063074597019899842000); 5684874414081534787886301683971800; 
    (-33174190396276063074597019899839000); 23108387768377693187845865320082000; 23108387768377693187845865320072000; 
    (-46216775536755386375691730640146000); 48411033767464833012932969998934000; 48411033767464833012932969998919000; 
    38765038664520260714181163494703000; 38765038664520260714181163494709000; 9038651215324270346057877416378000; (-13944039728309404288486973319682000); 
    (-34466994039155428724445996679253000); 37032136372349615335879411647920000; 18700008958614365755969143019232000; 
    (-47803689879844531060239040911093000); (-34466994039155428724445996679242000); (-13944039728309404288486973319677000); 
    (-47803689879844531060239040911090000); 9038651215324270346057877416384100; 37032136372349615335879411647919000; 18700008958614365755969143019223000; 
    61481852376982849128590251214206000; (-55732145330963981091848554667149000); 57600355200535013039266276234502000; 
    (-55732145330963981091848554667148000); 63683600249586264040100523908576000; 61481852376982849128590251214220000; 
    57600355200535013039266276234510000; (-1733908348937862230391834127453800); (-13624125365771861170424099745380000); 
    (-31841800124793132020050261954281000); (-47857727011210987958166151468851000); (-55866446851597150808874442107058000); 
    (-13624125365771861170424099745369000); (-1733908348937862230391834127450600); (-31841800124793132020050261954281000); 
    (-47857727011210987958166151468847000); (-55866446851597150808874442107057000); 77407408369381877032916337485145000; 
    80314698841290873239792756872275000; 80314698841290873239792756872292000; 77407408369381877032916337485141000; 
    (-21657386637865186644541835656385000); (-21657386637865186644541835656378000); (-33647175375769961929886610782473000); 
    (-33647175375769961929886610782481000); (-46667523465520911309906146089810000); (-46667523465520911309906146089810000); 
    (-55750021731516690388374501828760000); (-55750021731516690388374501828761000); 92190443336377215596472112861392000; 
    92190443336377215596472112861357000; 96619376164615473106918298349265000; (-36683800347426338347344542136154000); 
    (-55506642988950877249127570725207000); (-48309688082307736553459149174639000); (-55506642988950877249127570725207000); 
    (-36683800347426338347344542136155000); (-48309688082307736553459149174633000); 103997692055636675603929027861230000; 
    103997692055636675603929027861190000; (-47879500093408360604347076342275000); (-56118191962228314999581951518923000); 
    (-56118191962228314999581951518921000); (-47879500093408360604347076342282000); 111345774104228033748076085924750000; 
    (-55672887052114016874038042962369000); (-55672887052114016874038042962371000)];
   []],
   [1355521545137884465579855689604000; 1454314067571073037891149302887100; 1454314067571073037891149302887100; 1355521545137884465579855689603800; 
    1355521545137884465579855689603900; 1454314067571073037891149302887000; 1084962115053875706239459689686000; 1084962115053875706239459689686200; 
    1084962115053875706239459689686500; 1084962115053875706239459689686600; 1084962115053875706239459689686100; 1084962115053875706239459689686500; 
    328982799935717605624936727798190; 328982799935717605624936727798070; 328982799935717605624936727798270; 934079755441869742159444619611040; 
    934079755441869742159444619610740; 745950069347156616461801263641600; 745950069347156616461801263642200; 745950069347156616461801263642270; 
    934079755441869742159444619610420; 934079755441869742159444619610710; 295028250094032079447380126541770; 295028250094032079447380126541870; 
    745950069347156616461801263641770; 934079755441869742159444619610670; 934079755441869742159444619610800; 745950069347156616461801263642010; 
    745950069347156616461801263641840; 295028250094032079447380126542010; 295028250094032079447380126541760; 729615183769212636953884352425390; 
    295028250094032079447380126541640; 308513016433179096648528241456110; 295028250094032079447380126541890; 859963392079011480751949678506560; 
    729615183769212636953884352425840; 308513016433179096648528241456280; 308513016433179096648528241456270; 729615183769212636953884352425500; 
    859963392079011480751949678506810; 729615183769212636953884352425110; 308513016433179096648528241456100; 729615183769212636953884352425490; 
    308513016433179096648528241456080; 859963392079011480751949678506650; 729615183769212636953884352425480; 308513016433179096648528241456280; 
    273605806540592644450233322140540; 649909230401209823733719753683570; 649909230401209823733719753683160; 273605806540592644450233322140060; 
    273605806540592644450233322140020; 273605806540592644450233322140080; 649909230401209823733719753683260; 649909230401209823733719753683250; 
    649909230401209823733719753683520; 649909230401209823733719753683560; 273605806540592644450233322140420; 273605806540592644450233322140380; 
    217863291430330825416911030647400; 217863291430330825416911030647110; 380633206764609995920181458265030; 217863291430330825416911030647160; 
    217863291430330825416911030647400; 380633206764609995920181458264960; 217863291430330825416911030647280; 217863291430330825416911030647260; 
    380633206764609995920181458265000; 128422186062205114694716674006550; 128422186062205114694716674007160; 128422186062205114694716674007020; 
    128422186062205114694716674006530; 128422186062205114694716674006700; 128422186062205114694716674006940; 81400892396225788443524008349648; 
    81400892396225788443524008349700; 81400892396225788443524008349671], 19%nat).
(** vr_quad_data_tri.py:1259-1543 *)
Definition vr_triangle_data_12 : list (list Z) * list Z * nat :=
  ([[0; 31197743874682493316405952658346000; 0; 23159249092173243693844953226525000; (-23159249092173243693844953226523000); 
    (-31197743874682493316405952658347000); 10902548045336982508174156740459000; (-12256701046836261185670796486065000); 
    35428352696617444247363819061472000; 12256701046836261185670796486065000; (-10902548045336982508174156740459000); 0; 
    (-35428352696617444247363819061471000); 20192321888374872888245356280351000; 21511093020495858840316962954555000; 
    41703414908870731728562319234907000; (-21511093020495858840316962954556000); (-20192321888374872888245356280351000); 
    (-41703414908870731728562319234906000); 47168531101549306272128193341125000; 36955814642657920310176847152291000; 
    10212716458891385961951346188836000; (-10212716458891385961951346188834000); (-36955814642657920310176847152291000); 
    (-47168531101549306272128193341126000); 48397802124170036239897643758983000; 52558118038968623864706766090148000; 
    58170567905854028823342845906758000; 41108795785253488485424621903712000; 61194663749155227693925263160327000; 31091521248698760641177287694349000; 
    27079046657155268182165558212408000; 0; 11449322253715135379282144186437000; 36016658714765728409846176543126000; 
    (-11449322253715135379282144186437000); 25178005034389499284079086617200000; (-27079046657155268182165558212408000); 
    (-48397802124170036239897643758982000); (-31091521248698760641177287694350000); (-41108795785253488485424621903711000); 
    (-52558118038968623864706766090148000); (-58170567905854028823342845906757000); (-25178005034389499284079086617199000); 
    (-36016658714765728409846176543126000); (-61194663749155227693925263160326000); 71435255336334824271645194891381000; 
    68297991412123155511041213786393000; 60311801385665041051794124615185000; 52352900749669709543064960570673000; 45893184271021049643254223379124000; 
    25542071065313774628390971512255000; 15945090662453445967976253215718000; 0; (-15945090662453445967976253215718000); 
    (-25542071065313774628390971512256000); (-45893184271021049643254223379122000); (-52352900749669709543064960570675000); 
    (-60311801385665041051794124615185000); (-68297991412123155511041213786393000); (-71435255336334824271645194891379000); 
    78501366469091053184283119523698000; 60058594477866687376002099318240000; 76800049932334971818122874161051000; 70185198807733322953661687541315000; 
    18442771991224365808281020205458000; (-18442771991224365808281020205457000); 6614851124601648864461186619734400; 
    (-6614851124601648864461186619735100); (-60058594477866687376002099318238000); (-78501366469091053184283119523697000); 
    (-70185198807733322953661687541317000); (-76800049932334971818122874161051000); 86443598587491174965776690739321000; 
    76091705943256581163958252966516000; 84540837848462116186610531085402000; 10351892644234593801818437772806000; 0; 
    (-10351892644234593801818437772804000); (-76091705943256581163958252966517000); (-86443598587491174965776690739321000); 
    (-84540837848462116186610531085403000); 93343806211458257947747327243320000; 89678637617904398640856480325155000; 
    97428768284410257985451821378170000; 3665168593553859306890846918166600; (-3665168593553859306890846918165300); 
    (-89678637617904398640856480325155000); (-93343806211458257947747327243320000); 0; (-97428768284410257985451821378170000)];
   [0; 18012025824156935839014960181255000; (-36024051648313871678029920362507000); (-781820599939548245930308417717770); 
    (-781820599939548245930308417717190); 18012025824156935839014960181253000; 20447408346363501656672802075934000; 
    (-19665587746423953410742493658218000); (-20454568966337085291703849127819000); (-19665587746423953410742493658217000); 
    20447408346363501656672802075935000; 40909137932674170583407698255636000; (-20454568966337085291703849127817000); 
    (-36496913169709533458731103995580000); 35735520301579974694616303159691000; 761392868129558764114800835890050; 35735520301579974694616303159690000; 
    (-36496913169709533458731103995581000); 761392868129558764114800835889930; 15440134935362200477585689954436000; 33129078725456990357029327775675000; 
    (-48569213660819190834615017730109000); (-48569213660819190834615017730109000); 33129078725456990357029327775675000; 
    15440134935362200477585689954435000; 27942484084575812053202901075108000; (-17123905027456248493005168144362000); 
    (-2316603285544169058404862732402600); (-36954712883119866931222085606309000); 6257699620018343897358505759139200; 
    (-49218887916265258411252072976751000); 51535491201809427469656935709153000; (-55884968169151624106405802150218000); 
    54078617910576115424227253750670000; 49867283572805934245057526888441000; 54078617910576115424227253750670000; 
    (-56124983192824278142416032647581000); 51535491201809427469656935709154000; 27942484084575812053202901075109000; 
    (-49218887916265258411252072976751000); (-36954712883119866931222085606308000); (-17123905027456248493005168144361000); 
    (-2316603285544169058404862732402400); (-56124983192824278142416032647581000); 49867283572805934245057526888442000; 
    6257699620018343897358505759140200; (-11749720687623642965332753119146000); (-21020058954459082058144649610552000); 
    (-34821034765324955641830052962122000); (-48637766113120537768015087965347000); (-55989885503282020277374858682557000); 
    67739606190905663242707611801704000; 69657825067579619826159737575897000; 69642069530649911283660105924244000; 69657825067579619826159737575896000; 
    67739606190905663242707611801704000; (-55989885503282020277374858682557000); (-48637766113120537768015087965346000); 
    (-34821034765324955641830052962122000); (-21020058954459082058144649610551000); (-11749720687623642965332753119144000); 
    (-24026906315210625418614842033408000); (-55970724436419459350422699953710000); (-36702357347334174577346477812726000); 
    (-48159615579648356651417480452243000); 79997630751630084769037541987117000; 79997630751630084769037541987118000; 
    84861972926982531228763958264969000; 84861972926982531228763958264967000; (-55970724436419459350422699953709000); 
    (-24026906315210625418614842033406000); (-48159615579648356651417480452243000); (-36702357347334174577346477812726000); 
    (-37954898904666084195961773295668000); (-55884902918978932958057452189329000); (-48809675489326105025907453820491000); 
    93839801823645017154019225484994000; 97619350978652210051814907640982000; 93839801823645017154019225484997000; 
    (-55884902918978932958057452189329000); (-37954898904666084195961773295667000); (-48809675489326105025907453820491000); 
    (-49659899495142321256586597769787000); (-56008157717483369456874066333188000); (-56250525595817935625376010176970000); 
    105668057212625690713460664102970000; 105668057212625690713460664102980000; (-56008157717483369456874066333188000); 
    (-49659899495142321256586597769787000); 112501051191635871250752020353940000; (-56250525595817935625376010176970000)];
   []],
   [1273854944125656281403470774827900; 760142938234092870463423959516230; 760142938234092870463423959516200; 1166698868318833366177031992733300; 
    1166698868318833366177031992733200; 760142938234092870463423959516170; 1166698868318833366177031992733200; 1166698868318833366177031992733200; 
    1022390734473427097746658457495900; 1166698868318833366177031992733200; 1166698868318833366177031992733200; 1022390734473427097746658457495900; 
    1022390734473427097746658457495900; 805464435550112160949105235583690; 805464435550112160949105235583610; 805464435550112160949105235583720; 
    805464435550112160949105235583690; 805464435550112160949105235583670; 805464435550112160949105235583660; 540171643795177151202965789284110; 
    540171643795177151202965789284040; 540171643795177151202965789284060; 540171643795177151202965789284100; 540171643795177151202965789284090; 
    540171643795177151202965789284100; 317490290317049286914919658123130; 788723281755855489118902860204250; 551995808654923520767522550388010; 
    788723281755855489118902860204220; 263254733446941779516333986560740; 551995808654923520767522550387960; 551995808654923520767522550387970; 
    317490290317049286914919658123130; 788723281755855489118902860204200; 263254733446941779516333986560760; 788723281755855489118902860204260; 
    263254733446941779516333986560740; 551995808654923520767522550387970; 317490290317049286914919658123130; 551995808654923520767522550388010; 
    788723281755855489118902860204250; 788723281755855489118902860204250; 551995808654923520767522550388000; 263254733446941779516333986560730; 
    263254733446941779516333986560750; 263254733446941779516333986560740; 189483285573773003114985377866000; 526047814733301740096836043060440; 
    763700458793612571760184589583660; 526047814733301740096836043060410; 189483285573773003114985377866010; 189483285573773003114985377866040; 
    526047814733301740096836043060470; 763700458793612571760184589583670; 526047814733301740096836043060420; 189483285573773003114985377866030; 
    189483285573773003114985377865990; 526047814733301740096836043060460; 763700458793612571760184589583680; 526047814733301740096836043060450; 
    189483285573773003114985377865990; 176490237961931955814419847118360; 176490237961931955814419847118350; 455892219844173589832348816975210; 
    455892219844173589832348816975230; 176490237961931955814419847118300; 176490237961931955814419847118360; 455892219844173589832348816975230; 
    455892219844173589832348816975230; 176490237961931955814419847118400; 176490237961931955814419847118380; 455892219844173589832348816975220; 
    455892219844173589832348816975220; 196664435322116993461610389766310; 196664435322116993461610389766310; 292164130015631246402760332009420; 
    196664435322116993461610389766300; 292164130015631246402760332009410; 196664435322116993461610389766300; 196664435322116993461610389766320; 
    196664435322116993461610389766320; 292164130015631246402760332009400; 124636815222026347961953553125460; 124636815222026347961953553125450; 
    45159686131151583506618206088391; 124636815222026347961953553125480; 124636815222026347961953553125440; 124636815222026347961953553125450; 
    124636815222026347961953553125450; 45159686131151583506618206088404; 45159686131151583506618206088395], 20%nat).
(** vr_quad_data_tri.py:1544-1870 *)
Definition vr_triangle_data_13 : list (list Z) * list Z * nat :=
  ([[(-98254259598751560000000000000000000); (-92791596948068310000000000000000000); (-83312913839103570000000000000000000); 
    (-70216326910233380000000000000000000); (-53605693240966750000000000000000000); (-33625526460356820000000000000000000); 
    (-11442733222700780000000000000000000); 11442733222701530000000000000000000; 33625526460357050000000000000000000; 
    53605693240966540000000000000000000; 70216326910233290000000000000000000; 83312913839103600000000000000000000; 92791596948067170000000000000000000; 
    98254259598751290000000000000000000; (-95314544732376110000000000000000000); (-88892724129551390000000000000000000); 
    (-78037544793239560000000000000000000); (-62752126591859050000000000000000000); (-44013537581354590000000000000000000); 
    (-22671434280464060000000000000000000); 8938917188650806000; 22671434280463960000000000000000000; 44013537581354310000000000000000000; 
    62752126591858970000000000000000000; 78037544793240880000000000000000000; 88892724129552040000000000000000000; 95314544732377070000000000000000000; 
    (-90517996816433900000000000000000000); (-82918631984703160000000000000000000); (-69958010727004980000000000000000000); 
    (-53217912323348230000000000000000000); (-33531048539185890000000000000000000); (-11475314340442460000000000000000000); 
    11475314340442630000000000000000000; 33531048539185820000000000000000000; 53217912323347430000000000000000000; 69958010727004470000000000000000000; 
    82918631984701800000000000000000000; 90517996816433700000000000000000000; (-83862951973572040000000000000000000); 
    (-74848124222895560000000000000000000); (-60909187249881310000000000000000000); (-43647989833695780000000000000000000); 
    (-22915025601037720000000000000000000); 42151116727133490000; 22915025601037890000000000000000000; 43647989833695750000000000000000000; 
    60909187249881690000000000000000000; 74848124222895500000000000000000000; 83862951973572100000000000000000000; 
    (-75534562629807420000000000000000000); (-65396088558779950000000000000000000); (-50805778207433430000000000000000000); 
    (-32618955729251570000000000000000000); (-11254048993945930000000000000000000); 11254048993945960000000000000000000; 
    32618955729251220000000000000000000; 50805778207433360000000000000000000; 65396088558780110000000000000000000; 75534562629807720000000000000000000; 
    (-65530672445543730000000000000000000); (-54605056789089630000000000000000000); (-39473841604599050000000000000000000); 
    (-20827975916461600000000000000000000); 165088930848863900000; 20827975916461450000000000000000000; 39473841604598890000000000000000000; 
    54605056789089720000000000000000000; 65530672445543930000000000000000000; (-54413937064670220000000000000000000); 
    (-43185008433227870000000000000000000); (-27998527264156430000000000000000000); (-9703930128213939000000000000000000); 
    9703930128213846000000000000000000; 27998527264156430000000000000000000; 43185008433227860000000000000000000; 54413937064670170000000000000000000; 
    (-42971203841969060000000000000000000); (-31933622508625620000000000000000000); (-17274729668246970000000000000000000); (-391972169872459400000); 
    17274729668247280000000000000000000; 31933622508625640000000000000000000; 42971203841968970000000000000000000; 
    (-31905145985186720000000000000000000); (-21382550977425290000000000000000000); (-7691274926532071000000000000000000); 
    7691274926532407000000000000000000; 21382550977425260000000000000000000; 31905145985186880000000000000000000; (-21928869388840630000000000000000000); 
    (-12095997631036600000000000000000000); 795939096936500600000; 12095997631036120000000000000000000; 21928869388840990000000000000000000; 
    (-13646625063338810000000000000000000); (-4881087191464658000000000000000000); 4881087191464119000000000000000000; 
    13646625063338990000000000000000000; (-7205082977330277000000000000000000); (-1501836395852960000000); 7205082977330659000000000000000000; 
    (-2522947784306911000000000000000000); 2522947784307261000000000000000000; 537655885353770300000];
   [(-56727123228366770000000000000000000); (-56486502641344800000000000000000000); (-56420446424969300000000000000000000); 
    (-56297180550826980000000000000000000); (-56270538712111180000000000000000000); (-56254595999693700000000000000000000); 
    (-56225337317517800000000000000000000); (-56225337317517810000000000000000000); (-56254595999693730000000000000000000); 
    (-56270538712111200000000000000000000); (-56297180550826980000000000000000000); (-56420446424969420000000000000000000); 
    (-56486502641344310000000000000000000); (-56727123228367150000000000000000000); (-52116628894081810000000000000000000); 
    (-51322238205195310000000000000000000); (-50691191501134380000000000000000000); (-50197212156823010000000000000000000); 
    (-50101670896137430000000000000000000); (-49963129787850620000000000000000000); (-49865752487760850000000000000000000); 
    (-49963129787850760000000000000000000); (-50101670896137590000000000000000000); (-50197212156823000000000000000000000); 
    (-50691191501134880000000000000000000); (-51322238205194090000000000000000000); (-52116628894082470000000000000000000); 
    (-43940876635483140000000000000000000); (-42236900489343920000000000000000000); (-40390276325207310000000000000000000); 
    (-39606495304084570000000000000000000); (-39306299548590360000000000000000000); (-38955190329237740000000000000000000); 
    (-38955190329237910000000000000000000); (-39306299548590740000000000000000000); (-39606495304084550000000000000000000); 
    (-40390276325207860000000000000000000); (-42236900489342830000000000000000000); (-43940876635483130000000000000000000); 
    (-32660532589281400000000000000000000); (-29246329691635330000000000000000000); (-26284816356350450000000000000000000); 
    (-25200178680069800000000000000000000); (-24435129542689300000000000000000000); (-24050075004088410000000000000000000); 
    (-24435129542689750000000000000000000); (-25200178680069850000000000000000000); (-26284816356351070000000000000000000); 
    (-29246329691635280000000000000000000); (-32660532589281540000000000000000000); (-18288622778097390000000000000000000); 
    (-13066006207805240000000000000000000); (-9385590076168800000000000000000000); (-7627429527524318000000000000000000); 
    (-6497528216127921000000000000000000); (-6497528216128187000000000000000000); (-7627429527524277000000000000000000); 
    (-9385590076169102000000000000000000); (-13066006207805670000000000000000000); (-18288622778097940000000000000000000); 
    (-993262130448130600000000000000000); 5347526866814350000000000000000000; 9539681429383898000000000000000000; 12025037502043980000000000000000000; 
    12995056432255540000000000000000000; 12025037502044380000000000000000000; 9539681429383982000000000000000000; 5347526866814024000000000000000000; 
    (-993262130448511800000000000000000); 18202970999171490000000000000000000; 24932876243880510000000000000000000; 29415508899853900000000000000000000; 
    32062559070213390000000000000000000; 32062559070214220000000000000000000; 29415508899854210000000000000000000; 24932876243880560000000000000000000; 
    18202970999171560000000000000000000; 38022366318346220000000000000000000; 44615602921036450000000000000000000; 48691889624759500000000000000000000; 
    50400357360140140000000000000000000; 48691889624759290000000000000000000; 44615602921036650000000000000000000; 38022366318346410000000000000000000; 
    57247858130141800000000000000000000; 63167677103942830000000000000000000; 65891311660436190000000000000000000; 65891311660434220000000000000000000; 
    63167677103942840000000000000000000; 57247858130141560000000000000000000; 74559161490208570000000000000000000; 79443541848458340000000000000000000; 
    80780552650414300000000000000000000; 79443541848458600000000000000000000; 74559161490207880000000000000000000; 88957713140108350000000000000000000; 
    92928091990476400000000000000000000; 92928091990480190000000000000000000; 88957713140107980000000000000000000; 100361323060452400000000000000000000; 
    102644476410391300000000000000000000; 100361323060452500000000000000000000; 108603131535428100000000000000000000; 
    108603131535425300000000000000000000; 113454246456733400000000000000000000];
   []],
   [21365228525727690000000000000000; 62569615791119990000000000000000; 100285034463118400000000000000000; 143057977253251200000000000000000; 
    181462786311650300000000000000000; 212678181796411200000000000000000; 231448249640911100000000000000000; 231448249640905300000000000000000; 
    212678181796399900000000000000000; 181462786311645700000000000000000; 143057977253254400000000000000000; 100285034463105300000000000000000; 
    62569615791138270000000000000000; 21365228525728350000000000000000; 62569615791111850000000000000000; 152228895879871300000000000000000; 
    268356716288199700000000000000000; 375854101642902500000000000000000; 452521226414906700000000000000000; 506734110931608700000000000000000; 
    527928551828132900000000000000000; 506734110931595300000000000000000; 452521226414897000000000000000000; 375854101642919800000000000000000; 
    268356716288208500000000000000000; 152228895879874100000000000000000; 62569615791093480000000000000000; 100285034463133700000000000000000; 
    268356716288201900000000000000000; 460210650566931700000000000000000; 597577177182868000000000000000000; 708035594252172600000000000000000; 
    781195920138859700000000000000000; 781195920138851200000000000000000; 708035594252147100000000000000000; 597577177182856600000000000000000; 
    460210650566930500000000000000000; 268356716288197500000000000000000; 100285034463148900000000000000000; 143057977253246800000000000000000; 
    375854101642888200000000000000000; 597577177182866000000000000000000; 787365800075233100000000000000000; 948982854074713700000000000000000; 
    1009624272742807000000000000000000; 948982854074714000000000000000000; 787365800075236300000000000000000; 597577177182871700000000000000000; 
    375854101642867000000000000000000; 143057977253242700000000000000000; 181462786311640800000000000000000; 452521226414898500000000000000000; 
    708035594252174100000000000000000; 948982854074697000000000000000000; 1096471221047843000000000000000000; 1096471221047845000000000000000000; 
    948982854074706000000000000000000; 708035594252196000000000000000000; 452521226414898900000000000000000; 181462786311640200000000000000000; 
    212678181796404100000000000000000; 506734110931601800000000000000000; 781195920138854400000000000000000; 1009624272742783000000000000000000; 
    1096471221047841000000000000000000; 1009624272742795000000000000000000; 781195920138866600000000000000000; 506734110931614700000000000000000; 
    212678181796411600000000000000000; 231448249640907900000000000000000; 527928551828130300000000000000000; 781195920138860300000000000000000; 
    948982854074697500000000000000000; 948982854074705000000000000000000; 781195920138850400000000000000000; 527928551828136600000000000000000; 
    231448249640913700000000000000000; 231448249640910900000000000000000; 506734110931608400000000000000000; 708035594252193200000000000000000; 
    787365800075232200000000000000000; 708035594252152400000000000000000; 506734110931600000000000000000000; 231448249640906300000000000000000; 
    212678181796410100000000000000000; 452521226414903200000000000000000; 597577177182872900000000000000000; 597577177182861900000000000000000; 
    452521226414904300000000000000000; 212678181796400800000000000000000; 181462786311644400000000000000000; 375854101642875400000000000000000; 
    460210650566929900000000000000000; 375854101642919800000000000000000; 181462786311647000000000000000000; 143057977253247600000000000000000; 
    268356716288199200000000000000000; 268356716288204400000000000000000; 143057977253257500000000000000000; 100285034463147000000000000000000; 
    152228895879870900000000000000000; 100285034463110500000000000000000; 62569615791093500000000000000000; 62569615791134950000000000000000; 
    21365228525725170000000000000000], 22%nat).
(** vr_quad_data_tri.py:1871-2242 *)
Definition vr_triangle_data_14 : list (list Z) * list Z * nat :=
  ([[(-98595865678458760000000000000000000); (-93394807083824100000000000000000000); (-85153646724845030000000000000000000); 
    (-73739043422810850000000000000000000); (-59377250104845970000000000000000000); (-41381203952580840000000000000000000); 
    (-21098507893382380000000000000000000); (-62898097436180280000); 21098507893382260000000000000000000; 41381203952580790000000000000000000; 
    59377250104846090000000000000000000; 73739043422810830000000000000000000; 85153646724844440000000000000000000; 93394807083823830000000000000000000; 
    98595865678458700000000000000000000; (-95582665496859450000000000000000000); (-89244527521478270000000000000000000); 
    (-81926387129565460000000000000000000); (-68241084510236070000000000000000000); (-51388892622060810000000000000000000); 
    (-31798227563569840000000000000000000); (-10728997547997160000000000000000000); 10728997547996720000000000000000000; 
    31798227563569360000000000000000000; 51388892622060460000000000000000000; 68241084510236090000000000000000000; 81926387129565480000000000000000000; 
    89244527521478260000000000000000000; 95582665496859410000000000000000000; (-91882922184633350000000000000000000); 
    (-86569727999214480000000000000000000); (-75670809363478050000000000000000000); (-59675899805671390000000000000000000); 
    (-41790739001118590000000000000000000); (-21552725356194420000000000000000000); 134635447778607800000; 21552725356194530000000000000000000; 
    41790739001118470000000000000000000; 59675899805671360000000000000000000; 75670809363478070000000000000000000; 86569727999214620000000000000000000; 
    91882922184633810000000000000000000; (-85779611521307680000000000000000000); (-78363624721320900000000000000000000); 
    (-65926121723868210000000000000000000); (-49815162125075520000000000000000000); (-31655358588322760000000000000000000); 
    (-10875268964211050000000000000000000); 10875268964211190000000000000000000; 31655358588322580000000000000000000; 
    49815162125075110000000000000000000; 65926121723867710000000000000000000; 78363624721320380000000000000000000; 85779611521307660000000000000000000; 
    (-78567556583883990000000000000000000); (-69867935854309780000000000000000000); (-56856483684449790000000000000000000); 
    (-40437305172214300000000000000000000); (-21242457146481650000000000000000000); 320872747519673600000; 21242457146482220000000000000000000; 
    40437305172214790000000000000000000; 56856483684450140000000000000000000; 69867935854309810000000000000000000; 78567556583883880000000000000000000; 
    (-69569054173646650000000000000000000); (-60021597038403000000000000000000000); (-46523691007063870000000000000000000); 
    (-29608148962566220000000000000000000); (-10195658010900900000000000000000000); 10195658010901050000000000000000000; 
    29608148962566390000000000000000000; 46523691007064150000000000000000000; 60021597038403230000000000000000000; 69569054173646590000000000000000000; 
    (-59409423617231130000000000000000000); (-49389679921327400000000000000000000); (-35591306666639060000000000000000000); 
    (-18732879998355360000000000000000000); (-89124569481418170000); 18732879998355240000000000000000000; 35591306666639090000000000000000000; 
    49389679921327590000000000000000000; 59409423617231130000000000000000000; (-48849137999318870000000000000000000); 
    (-38660682373330560000000000000000000); (-24970965650869770000000000000000000); (-8781946583892241000000000000000000); 
    8781946583891979000000000000000000; 24970965650869660000000000000000000; 38660682373330670000000000000000000; 48849137999318900000000000000000000; 
    (-38310915723848910000000000000000000); (-28223369474833560000000000000000000); (-15065744683331630000000000000000000); (-101907195913247600000); 
    15065744683331440000000000000000000; 28223369474833570000000000000000000; 38310915723848910000000000000000000; 
    (-28187850221065770000000000000000000); (-18479043232248860000000000000000000); (-6250221918196253000000000000000000); 
    6250221918196113000000000000000000; 18479043232248800000000000000000000; 28187850221065720000000000000000000; (-19190306479037520000000000000000000); 
    (-10122540211083770000000000000000000); (-80606447398792290000); 10122540211083710000000000000000000; 19190306479037430000000000000000000; 
    (-12040568098496470000000000000000000); (-4643340869648831000000000000000000); 4643340869648813000000000000000000; 
    12040568098496380000000000000000000; (-6729275459789318000000000000000000); 191253815515147900000; 6729275459789113000000000000000000; 
    (-2187858413035581000000000000000000); 2187858413035478000000000000000000; (-53867328776015180000)];
   [(-56924349590442350000000000000000000); (-56447838298188530000000000000000000); (-56933778855388290000000000000000000); 
    (-56476507035671430000000000000000000); (-56440528554780300000000000000000000); (-56439975067431760000000000000000000); 
    (-56418864223874110000000000000000000); (-56406125947175790000000000000000000); (-56418864223874110000000000000000000); 
    (-56439975067431750000000000000000000); (-56440528554780300000000000000000000); (-56476507035671430000000000000000000); 
    (-56933778855388210000000000000000000); (-56447838298188610000000000000000000); (-56924349590442320000000000000000000); 
    (-52658356367043920000000000000000000); (-51525351988226650000000000000000000); (-52661889865050370000000000000000000); 
    (-51087511143280990000000000000000000); (-51007152157714870000000000000000000); (-50948255171046790000000000000000000); 
    (-50835900373064930000000000000000000); (-50835900373064920000000000000000000); (-50948255171046740000000000000000000); 
    (-51007152157714820000000000000000000); (-51087511143281030000000000000000000); (-52661889865050210000000000000000000); 
    (-51525351988226680000000000000000000); (-52658356367044060000000000000000000); (-45278331860906520000000000000000000); 
    (-44619387561957750000000000000000000); (-43688562155801100000000000000000000); (-41671031430868200000000000000000000); 
    (-41524317908856500000000000000000000); (-41277459267078030000000000000000000); (-41097300969589220000000000000000000); 
    (-41277459267077970000000000000000000); (-41524317908856360000000000000000000); (-41671031430868230000000000000000000); 
    (-43688562155801000000000000000000000); (-44619387561957590000000000000000000); (-45278331860906990000000000000000000); 
    (-35621631337082560000000000000000000); (-33554757196025460000000000000000000); (-30845329509972250000000000000000000); 
    (-28760797262636760000000000000000000); (-28416748250700520000000000000000000); (-27909706083491870000000000000000000); 
    (-27909706083491810000000000000000000); (-28416748250700340000000000000000000); (-28760797262636670000000000000000000); 
    (-30845329509972140000000000000000000); (-33554757196025100000000000000000000); (-35621631337082640000000000000000000); 
    (-23201942720269070000000000000000000); (-19000510404198030000000000000000000); (-15429682663465330000000000000000000); 
    (-13205970578042730000000000000000000); (-12264338351770650000000000000000000); (-11772931794318220000000000000000000); 
    (-12264338351770470000000000000000000); (-13205970578042590000000000000000000); (-15429682663465390000000000000000000); 
    (-19000510404197940000000000000000000); (-23201942720268870000000000000000000); (-7617186328404182000000000000000000); 
    (-2063945279846321000000000000000000); 1973521954285725000000000000000000; 4536593845750682000000000000000000; 5886465897158658000000000000000000; 
    5886465897158809000000000000000000; 4536593845750900000000000000000000; 1973521954285707000000000000000000; (-2063945279846460000000000000000000); 
    (-7617186328404025000000000000000000); 9937588294321486000000000000000000; 16126365752826260000000000000000000; 20548650484794460000000000000000000; 
    23373112237740970000000000000000000; 24528676703540370000000000000000000; 23373112237741190000000000000000000; 20548650484794530000000000000000000; 
    16126365752826040000000000000000000; 9937588294321524000000000000000000; 28203062973587790000000000000000000; 34709534620238700000000000000000000; 
    39303937312792040000000000000000000; 41622718828743230000000000000000000; 41622718828743280000000000000000000; 39303937312792130000000000000000000; 
    34709534620238500000000000000000000; 28203062973587750000000000000000000; 46481275929552500000000000000000000; 53012200450893150000000000000000000; 
    56954000572321760000000000000000000; 57521594525274570000000000000000000; 56954000572321770000000000000000000; 53012200450893040000000000000000000; 
    46481275929552480000000000000000000; 64057161395835960000000000000000000; 70007662561912950000000000000000000; 72516360940840960000000000000000000; 
    72516360940841070000000000000000000; 70007662561912900000000000000000000; 64057161395836030000000000000000000; 79642471275049450000000000000000000; 
    84642268339306540000000000000000000; 87377124311602110000000000000000000; 84642268339306610000000000000000000; 79642471275049580000000000000000000; 
    92098138372754080000000000000000000; 97281277427007820000000000000000000; 97281277427007500000000000000000000; 92098138372754280000000000000000000; 
    102212110716295000000000000000000000; 103050703976452700000000000000000000; 102212110716295100000000000000000000; 
    109106194665232400000000000000000000; 109106194665232800000000000000000000; 113848699180884700000000000000000000];
   []],
   [15405561435609550000000000000000; 59617832470212580000000000000000; 57468198998753960000000000000000; 105854922977657900000000000000000; 
    142064824939086600000000000000000; 169496373115382000000000000000000; 185081682688002300000000000000000; 189756633644825500000000000000000; 
    185081682688002900000000000000000; 169496373115384800000000000000000; 142064824939087900000000000000000; 105854922977654200000000000000000; 
    57468198998756480000000000000000; 59617832470212460000000000000000; 15405561435610470000000000000000; 59617832470212530000000000000000; 
    110556495394546400000000000000000; 173095828298737500000000000000000; 292708162074474500000000000000000; 363963694295680800000000000000000; 
    409938356543011200000000000000000; 434040547428018200000000000000000; 434040547428017800000000000000000; 409938356543013900000000000000000; 
    363963694295689000000000000000000; 292708162074478400000000000000000; 173095828298736800000000000000000; 110556495394545600000000000000000; 
    59617832470213380000000000000000; 57468198998765350000000000000000; 173095828298730900000000000000000; 356914107073396700000000000000000; 
    483670677150240600000000000000000; 570327053834538700000000000000000; 638271331011104300000000000000000; 665462803502688800000000000000000; 
    638271331011099000000000000000000; 570327053834539100000000000000000; 483670677150244400000000000000000; 356914107073399700000000000000000; 
    173095828298738300000000000000000; 57468198998757870000000000000000; 105854922977645800000000000000000; 292708162074468000000000000000000; 
    483670677150241000000000000000000; 620854072879927900000000000000000; 750304460281558800000000000000000; 839166370330528300000000000000000; 
    839166370330523500000000000000000; 750304460281548200000000000000000; 620854072879925900000000000000000; 483670677150241100000000000000000; 
    292708162074475500000000000000000; 105854922977654900000000000000000; 142064824939086500000000000000000; 363963694295697200000000000000000; 
    570327053834550700000000000000000; 750304460281551300000000000000000; 914621535762504700000000000000000; 973001870464373400000000000000000; 
    914621535762503100000000000000000; 750304460281546200000000000000000; 570327053834538800000000000000000; 363963694295685900000000000000000; 
    142064824939087500000000000000000; 169496373115387900000000000000000; 409938356543021300000000000000000; 638271331011099200000000000000000; 
    839166370330516000000000000000000; 973001870464371900000000000000000; 973001870464372200000000000000000; 839166370330517600000000000000000; 
    638271331011096800000000000000000; 409938356543010800000000000000000; 169496373115383400000000000000000; 185081682688003800000000000000000; 
    434040547428017600000000000000000; 665462803502682300000000000000000; 839166370330520700000000000000000; 914621535762505200000000000000000; 
    839166370330521300000000000000000; 665462803502684500000000000000000; 434040547428014200000000000000000; 185081682688000200000000000000000; 
    189756633644825200000000000000000; 434040547428018300000000000000000; 638271331011103400000000000000000; 750304460281560000000000000000000; 
    750304460281559200000000000000000; 638271331011105900000000000000000; 434040547428020700000000000000000; 189756633644824400000000000000000; 
    185081682688005000000000000000000; 409938356543019400000000000000000; 570327053834548700000000000000000; 620854072879927100000000000000000; 
    570327053834552900000000000000000; 409938356543024400000000000000000; 185081682688006500000000000000000; 169496373115387600000000000000000; 
    363963694295690600000000000000000; 483670677150238400000000000000000; 483670677150241700000000000000000; 363963694295696100000000000000000; 
    169496373115389900000000000000000; 142064824939086600000000000000000; 292708162074467400000000000000000; 356914107073396200000000000000000; 
    292708162074468100000000000000000; 142064824939088900000000000000000; 105854922977647600000000000000000; 173095828298732200000000000000000; 
    173095828298725400000000000000000; 105854922977646700000000000000000; 57468198998753560000000000000000; 110556495394547200000000000000000; 
    57468198998759020000000000000000; 59617832470216130000000000000000; 59617832470212320000000000000000; 15405561435610090000000000000000], 24%nat).
(** vr_quad_data_tri.py:2243-2662 *)
Definition vr_triangle_data_15 : list (list Z) * list Z * nat :=
  ([[(-98285698342529440000000000000000000); (-94229971386126650000000000000000000); (-87767240003996180000000000000000000); 
    (-77777974669156310000000000000000000); (-64053561403129890000000000000000000); (-47487182140828830000000000000000000); 
    (-29024776297360290000000000000000000); (-9724225887213769000000000000000000); 9724225887213799000000000000000000; 
    29024776297360130000000000000000000; 47487182140828800000000000000000000; 64053561403130120000000000000000000; 77777974669156030000000000000000000; 
    87767240003995370000000000000000000; 94229971386126510000000000000000000; 98285698342529440000000000000000000; 
    (-96391572968354770000000000000000000); (-91825171419876180000000000000000000); (-83044441924867290000000000000000000); 
    (-70730430918284050000000000000000000); (-55492600240819610000000000000000000); (-38076151760795540000000000000000000); 
    (-19291889125477990000000000000000000); (-258943929555778100000); 19291889125477310000000000000000000; 38076151760795040000000000000000000; 
    55492600240819970000000000000000000; 70730430918284630000000000000000000; 83044441924867700000000000000000000; 91825171419876080000000000000000000; 
    96391572968354770000000000000000000; (-93007099673532430000000000000000000); (-86857450484043470000000000000000000); 
    (-77003300268688250000000000000000000); (-63521320920805580000000000000000000); (-47458648235265360000000000000000000); 
    (-29377718401559560000000000000000000); (-9947676468812618000000000000000000); 9947676468812877000000000000000000; 
    29377718401559240000000000000000000; 47458648235265030000000000000000000; 63521320920805270000000000000000000; 77003300268688290000000000000000000; 
    86857450484043060000000000000000000; 93007099673532880000000000000000000; (-87943251502400400000000000000000000); 
    (-80295992853584760000000000000000000); (-69394622919453840000000000000000000); (-55143022661390280000000000000000000); 
    (-38683844884271420000000000000000000); (-20026782533646350000000000000000000); 266934863073358600000; 20026782533646670000000000000000000; 
    38683844884271680000000000000000000; 55143022661390290000000000000000000; 69394622919454130000000000000000000; 80295992853584160000000000000000000; 
    87943251502400550000000000000000000; (-81028352252835730000000000000000000); (-72513046001786320000000000000000000); 
    (-61125706917139740000000000000000000); (-46597768365325200000000000000000000); (-29494700817334910000000000000000000); 
    (-10103140155057540000000000000000000); 10103140155057010000000000000000000; 29494700817334370000000000000000000; 
    46597768365324320000000000000000000; 61125706917139340000000000000000000; 72513046001785270000000000000000000; 81028352252835280000000000000000000; 
    (-72736297594037500000000000000000000); (-63787464531331680000000000000000000); (-51989255255318580000000000000000000); 
    (-36954356526239970000000000000000000); (-19289284465293710000000000000000000); 137032472286036800000; 19289284465294160000000000000000000; 
    36954356526240200000000000000000000; 51989255255319040000000000000000000; 63787464531331600000000000000000000; 72736297594037320000000000000000000; 
    (-63501317003755030000000000000000000); (-54338011593375770000000000000000000); (-42107691534528900000000000000000000); 
    (-26759109411866920000000000000000000); (-9186144310236617000000000000000000); 9186144310236670000000000000000000; 
    26759109411866950000000000000000000; 42107691534529110000000000000000000; 54338011593376210000000000000000000; 63501317003755330000000000000000000; 
    (-53836287901163540000000000000000000); (-44640705309445030000000000000000000); (-32160015065716410000000000000000000); 
    (-16927573992594170000000000000000000); (-98068440751651970000); 16927573992593860000000000000000000; 32160015065716070000000000000000000; 
    44640705309445260000000000000000000; 53836287901164020000000000000000000; (-44112062013949430000000000000000000); 
    (-35046122467898420000000000000000000); (-22611536853759750000000000000000000); (-7913923481054134000000000000000000); 
    7913923481054092000000000000000000; 22611536853759280000000000000000000; 35046122467898400000000000000000000; 44112062013949800000000000000000000; 
    (-34476540706394190000000000000000000); (-25711312770536840000000000000000000); (-13667058681874490000000000000000000); 221824665961738800000; 
    13667058681874290000000000000000000; 25711312770536770000000000000000000; 34476540706394460000000000000000000; 
    (-25249115453208240000000000000000000); (-17020445760966580000000000000000000); (-5873301998647497000000000000000000); 
    5873301998647471000000000000000000; 17020445760966560000000000000000000; 25249115453208460000000000000000000; (-16974790849705490000000000000000000); 
    (-9565561935300174000000000000000000); (-324755600750529400000); 9565561935300220000000000000000000; 16974790849705670000000000000000000; 
    (-10165276833244070000000000000000000); (-3813008559176926000000000000000000); 3813008559176809000000000000000000; 
    10165276833244330000000000000000000; (-5239859669536701000000000000000000); 344040455798088900000; 5239859669536901000000000000000000; 
    (-2161601582227183000000000000000000); 2161601582227079000000000000000000; (-188180506586266200000)];
   [(-56745274395549990000000000000000000); (-56899701856270220000000000000000000); (-56722908423783660000000000000000000); 
    (-56642985244382540000000000000000000); (-56582141051681530000000000000000000); (-56571904599483970000000000000000000); 
    (-56567542523577410000000000000000000); (-56550506190169930000000000000000000); (-56550506190169920000000000000000000); 
    (-56567542523577390000000000000000000); (-56571904599483980000000000000000000); (-56582141051681580000000000000000000); 
    (-56642985244382480000000000000000000); (-56722908423783640000000000000000000); (-56899701856270250000000000000000000); 
    (-56745274395549860000000000000000000); (-53155698090132050000000000000000000); (-53015287437648770000000000000000000); 
    (-52348613936150670000000000000000000); (-51881592847160550000000000000000000); (-51692185570712160000000000000000000); 
    (-51672143167376250000000000000000000); (-51605953861558430000000000000000000); (-51546646454445810000000000000000000); 
    (-51605953861558360000000000000000000); (-51672143167376200000000000000000000); (-51692185570712360000000000000000000); 
    (-51881592847160530000000000000000000); (-52348613936150560000000000000000000); (-53015287437648660000000000000000000); 
    (-53155698090132100000000000000000000); (-47647205251614100000000000000000000); (-45744289381961120000000000000000000); 
    (-44457876138616980000000000000000000); (-43455956712809660000000000000000000); (-43181623352027270000000000000000000); 
    (-43070787405935900000000000000000000); (-42878480397747830000000000000000000); (-42878480397747740000000000000000000); 
    (-43070787405935730000000000000000000); (-43181623352027510000000000000000000); (-43455956712809720000000000000000000); 
    (-44457876138617000000000000000000000); (-45744289381960280000000000000000000); (-47647205251614890000000000000000000); 
    (-39036209296200360000000000000000000); (-35313553572274370000000000000000000); (-33283099242956700000000000000000000); 
    (-31836838977482680000000000000000000); (-31472339961489080000000000000000000); (-31108747089505880000000000000000000); 
    (-30898758044432120000000000000000000); (-31108747089505620000000000000000000); (-31472339961489200000000000000000000); 
    (-31836838977482760000000000000000000); (-33283099242957140000000000000000000); (-35313553572273170000000000000000000); 
    (-39036209296200450000000000000000000); (-27180940852136320000000000000000000); (-22211908745248210000000000000000000); 
    (-19509583324995220000000000000000000); (-17765022405090630000000000000000000); (-17028773456555850000000000000000000); 
    (-16440296468842670000000000000000000); (-16440296468842440000000000000000000); (-17028773456555750000000000000000000); 
    (-17765022405090400000000000000000000); (-19509583324995790000000000000000000); (-22211908745247140000000000000000000); 
    (-27180940852135680000000000000000000); (-12839153788354900000000000000000000); (-7138843119511875000000000000000000); 
    (-3906456738007864000000000000000000); (-1789328885451292000000000000000000); (-529427797853178900000000000000000); 7305431074051443000; 
    (-529427797853063800000000000000000); (-1789328885450859000000000000000000); (-3906456738008296000000000000000000); 
    (-7138843119511754000000000000000000); (-12839153788354650000000000000000000); 3147577649113589000000000000000000; 
    9095710861123058000000000000000000; 12824299668253280000000000000000000; 15449379022215980000000000000000000; 16969724266695530000000000000000000; 
    16969724266695460000000000000000000; 15449379022216430000000000000000000; 12824299668253520000000000000000000; 9095710861122631000000000000000000; 
    3147577649113125000000000000000000; 19853826444618930000000000000000000; 25773323227223020000000000000000000; 30054180729494240000000000000000000; 
    32898075974957100000000000000000000; 34057546913111200000000000000000000; 32898075974957140000000000000000000; 30054180729494810000000000000000000; 
    25773323227222770000000000000000000; 19853826444618160000000000000000000; 36696679745550350000000000000000000; 42510243000435660000000000000000000; 
    46977244143943850000000000000000000; 49237362366579910000000000000000000; 49237362366579760000000000000000000; 46977244143944160000000000000000000; 
    42510243000435540000000000000000000; 36696679745549700000000000000000000; 53419964874463510000000000000000000; 58810986286888210000000000000000000; 
    62691206677022530000000000000000000; 63673677954966090000000000000000000; 62691206677023050000000000000000000; 58810986286888100000000000000000000; 
    53419964874462980000000000000000000; 69411058387838780000000000000000000; 73904094315959860000000000000000000; 76739055955766190000000000000000000; 
    76739055955767180000000000000000000; 73904094315960190000000000000000000; 69411058387838380000000000000000000; 83763081903817890000000000000000000; 
    87195146419434380000000000000000000; 88915752277233610000000000000000000; 87195146419434740000000000000000000; 83763081903817690000000000000000000; 
    95679194540583490000000000000000000; 98092903318111940000000000000000000; 98092903318110910000000000000000000; 95679194540583050000000000000000000; 
    104370113675398700000000000000000000; 106030574875297900000000000000000000; 104370113675397900000000000000000000; 
    110055399946401700000000000000000000; 110055399946402700000000000000000000; 113490548791099500000000000000000000];
   []],
   [18390011204406040000000000000000; 29906496523550810000000000000000; 53876294316516090000000000000000; 88065454475977180000000000000000; 
    118651567750257000000000000000000; 138587827910610500000000000000000; 149851639590235800000000000000000; 155085972524979000000000000000000; 
    155085972524978600000000000000000; 149851639590237300000000000000000; 138587827910611600000000000000000; 118651567750252400000000000000000; 
    88065454475975350000000000000000; 53876294316517440000000000000000; 29906496523554770000000000000000; 18390011204407010000000000000000; 
    29906496523546910000000000000000; 93411739947892620000000000000000; 163924194467108600000000000000000; 237204134220407500000000000000000; 
    291592899695151800000000000000000; 325753926945876700000000000000000; 345709588526881800000000000000000; 352240545053009400000000000000000; 
    345709588526883000000000000000000; 325753926945889000000000000000000; 291592899695156900000000000000000; 237204134220407900000000000000000; 
    163924194467102500000000000000000; 93411739947896580000000000000000; 29906496523542040000000000000000; 53876294316533370000000000000000; 
    163924194467105800000000000000000; 276073841138425600000000000000000; 384903658907285500000000000000000; 457922002316844600000000000000000; 
    510924109427808600000000000000000; 542376735972375200000000000000000; 542376735972366700000000000000000; 510924109427799600000000000000000; 
    457922002316844100000000000000000; 384903658907291300000000000000000; 276073841138423400000000000000000; 163924194467118600000000000000000; 
    53876294316532550000000000000000; 88065454475968830000000000000000; 237204134220391000000000000000000; 384903658907287100000000000000000; 
    508691502791586200000000000000000; 603399175372608900000000000000000; 682779747204358700000000000000000; 713054723312426100000000000000000; 
    682779747204352000000000000000000; 603399175372606300000000000000000; 508691502791588500000000000000000; 384903658907277900000000000000000; 
    237204134220394000000000000000000; 88065454475972120000000000000000; 118651567750244700000000000000000; 291592899695153300000000000000000; 
    457922002316851400000000000000000; 603399175372595400000000000000000; 739632914466317900000000000000000; 821710560138436800000000000000000; 
    821710560138433900000000000000000; 739632914466315800000000000000000; 603399175372602900000000000000000; 457922002316858900000000000000000; 
    291592899695155100000000000000000; 118651567750253100000000000000000; 138587827910607700000000000000000; 325753926945889700000000000000000; 
    510924109427801500000000000000000; 682779747204339900000000000000000; 821710560138437500000000000000000; 872299387629877200000000000000000; 
    821710560138439300000000000000000; 682779747204340000000000000000000; 510924109427808500000000000000000; 325753926945869200000000000000000; 
    138587827910605500000000000000000; 149851639590237900000000000000000; 345709588526883700000000000000000; 542376735972364900000000000000000; 
    713054723312417300000000000000000; 821710560138440400000000000000000; 821710560138440800000000000000000; 713054723312415000000000000000000; 
    542376735972379900000000000000000; 345709588526873500000000000000000; 149851639590229200000000000000000; 155085972524984400000000000000000; 
    352240545053008700000000000000000; 542376735972370400000000000000000; 682779747204350100000000000000000; 739632914466320800000000000000000; 
    682779747204338400000000000000000; 542376735972374900000000000000000; 352240545053012000000000000000000; 155085972524980700000000000000000; 
    155085972524984600000000000000000; 345709588526877200000000000000000; 510924109427803100000000000000000; 603399175372604500000000000000000; 
    603399175372594000000000000000000; 510924109427801300000000000000000; 345709588526882200000000000000000; 155085972524986400000000000000000; 
    149851639590236200000000000000000; 325753926945873400000000000000000; 457922002316845600000000000000000; 508691502791582800000000000000000; 
    457922002316848700000000000000000; 325753926945881500000000000000000; 149851639590240500000000000000000; 138587827910609200000000000000000; 
    291592899695155200000000000000000; 384903658907286900000000000000000; 384903658907285200000000000000000; 291592899695154000000000000000000; 
    138587827910611500000000000000000; 118651567750256800000000000000000; 237204134220411400000000000000000; 276073841138426700000000000000000; 
    237204134220397700000000000000000; 118651567750251700000000000000000; 88065454475977430000000000000000; 163924194467110700000000000000000; 
    163924194467111100000000000000000; 88065454475973470000000000000000; 53876294316515380000000000000000; 93411739947895030000000000000000; 
    53876294316531280000000000000000; 29906496523549600000000000000000; 29906496523543370000000000000000; 18390011204406590000000000000000], 25%nat).
(** vr_quad_data_tri.py:2663-3133 *)
Definition vr_triangle_data_16 : list (list Z) * list Z * nat :=
  ([[(-98191382467935220000000000000000000); (-94693644831589330000000000000000000); (-89580957205374480000000000000000000); 
    (-80576988720902260000000000000000000); (-67774836253778760000000000000000000); (-52900534835399010000000000000000000); 
    (-36453888882939680000000000000000000); (-18640787730294250000000000000000000); (-895532131349814400000); 18640787730293390000000000000000000; 
    36453888882940430000000000000000000; 52900534835400180000000000000000000; 67774836253778630000000000000000000; 80576988720901680000000000000000000; 
    89580957205382930000000000000000000; 94693644831589360000000000000000000; 98191382467934660000000000000000000; 
    (-97079628334336830000000000000000000); (-93225865580771840000000000000000000); (-84572603128483390000000000000000000); 
    (-73640265183029490000000000000000000); (-60039423399835850000000000000000000); (-44835112694515050000000000000000000); 
    (-27872357159181450000000000000000000); (-9455955274002762000000000000000000); 9455955274003159000000000000000000; 
    27872357159181550000000000000000000; 44835112694512800000000000000000000; 60039423399827540000000000000000000; 73640265183017940000000000000000000; 
    84572603128485830000000000000000000; 93225865580771590000000000000000000; 97079628334337440000000000000000000; 
    (-93846271391618960000000000000000000); (-87871688731063600000000000000000000); (-79076384055216960000000000000000000); 
    (-67745049585455620000000000000000000); (-53398481319343040000000000000000000); (-37036396591220390000000000000000000); 
    (-18952846649735980000000000000000000); 515711961860357300000; 18952846649737910000000000000000000; 37036396591224550000000000000000000; 
    53398481319345250000000000000000000; 67745049585444750000000000000000000; 79076384055212150000000000000000000; 87871688731056240000000000000000000; 
    93846271391612070000000000000000000; (-89465045039808640000000000000000000); (-82392096963008780000000000000000000); 
    (-72993105068867450000000000000000000); (-60033102820372740000000000000000000); (-44812717554987130000000000000000000); 
    (-27911693254384850000000000000000000); (-9493048955172643000000000000000000); 9493048955172949000000000000000000; 
    27911693254389580000000000000000000; 44812717554997940000000000000000000; 60033102820376740000000000000000000; 72993105068878870000000000000000000; 
    82392096963017530000000000000000000; 89465045039809490000000000000000000; (-83003155920222270000000000000000000); 
    (-75329076948374420000000000000000000); (-65364685064995400000000000000000000); (-51928780375966180000000000000000000); 
    (-36580296966941980000000000000000000); (-19011969869888240000000000000000000); (-4352756771803228000000); 19011969869880620000000000000000000; 
    36580296966938420000000000000000000; 51928780375956850000000000000000000; 65364685064992590000000000000000000; 75329076948378430000000000000000000; 
    83003155920222680000000000000000000; (-75546014762152600000000000000000000); (-67720851851976620000000000000000000); 
    (-57182195790956280000000000000000000); (-43365443614139320000000000000000000); (-27396075313763110000000000000000000); 
    (-9377799851807074000000000000000000); 9377799851806070000000000000000000; 27396075313766080000000000000000000; 43365443614136080000000000000000000; 
    57182195790952730000000000000000000; 67720851851976650000000000000000000; 75546014762151750000000000000000000; 
    (-67328568494568120000000000000000000); (-59226447116619590000000000000000000); (-48031545609003010000000000000000000); 
    (-33915432166708860000000000000000000); (-17653819237202210000000000000000000); 418634783265720900000; 17653819237206120000000000000000000; 
    33915432166709010000000000000000000; 48031545609002290000000000000000000; 59226447116619480000000000000000000; 67328568494567480000000000000000000; 
    (-58411346128014820000000000000000000); (-49959947880502450000000000000000000); (-38460773198551440000000000000000000); 
    (-24422383211536610000000000000000000); (-8384105443878242000000000000000000); 8384105443882010000000000000000000; 
    24422383211535930000000000000000000; 38460773198550910000000000000000000; 49959947880502480000000000000000000; 58411346128015190000000000000000000; 
    (-49084448772754810000000000000000000); (-40503992606499490000000000000000000); (-29078698959266370000000000000000000); 
    (-15453750359751780000000000000000000); 3365103725798454000000; 15453750359750180000000000000000000; 29078698959265180000000000000000000; 
    40503992606499350000000000000000000; 49084448772755810000000000000000000; (-39770558397720750000000000000000000); 
    (-31354089957437870000000000000000000); (-20145799199732460000000000000000000); (-7116062820970284000000000000000000); 
    7116062820969220000000000000000000; 20145799199732010000000000000000000; 31354089957437920000000000000000000; 39770558397721270000000000000000000; 
    (-30874679611627840000000000000000000); (-22885739157461830000000000000000000); (-11966203745649330000000000000000000); (-3660502080806324000000); 
    11966203745650460000000000000000000; 22885739157463700000000000000000000; 30874679611627370000000000000000000; 
    (-22645479926753030000000000000000000); (-15289653548542840000000000000000000); (-5248055483422171000000000000000000); 
    5248055483421986000000000000000000; 15289653548546720000000000000000000; 22645479926752240000000000000000000; (-15228319666444040000000000000000000); 
    (-8751831779987986000000000000000000); 4948708344972005000000; 8751831779990450000000000000000000; 15228319666443580000000000000000000; 
    (-8888056318907052000000000000000000); (-3299085602573462000000000000000000); 3299085602578422000000000000000000; 8888056318906934000000000000000000; 
    (-4265314186237629000000000000000000); 288705851011577200000; 4265314186236573000000000000000000; (-2385983502747716000000000000000000); 
    2385983502746954000000000000000000; 501727928634605200000];
   [(-56690821099963250000000000000000000); (-57426497769252250000000000000000000); (-56644750343992760000000000000000000); 
    (-56784189545089460000000000000000000); (-56713968872856050000000000000000000); (-56690885890770840000000000000000000); 
    (-56697671729407530000000000000000000); (-56685349007483830000000000000000000); (-56677839423949290000000000000000000); 
    (-56685349007483750000000000000000000); (-56697671729407570000000000000000000); (-56690885890771070000000000000000000); 
    (-56713968872855780000000000000000000); (-56784189545088900000000000000000000); (-56644750343995970000000000000000000); 
    (-57426497769251120000000000000000000); (-56690821099964260000000000000000000); (-53293853116471750000000000000000000); 
    (-53823978588494450000000000000000000); (-52637471103747890000000000000000000); (-52621971794773990000000000000000000); 
    (-52318748446019510000000000000000000); (-52311739709653780000000000000000000); (-52296697463048110000000000000000000); 
    (-52229380392125010000000000000000000); (-52229380392124750000000000000000000); (-52296697463047910000000000000000000); 
    (-52311739709654770000000000000000000); (-52318748446019630000000000000000000); (-52621971794770430000000000000000000); 
    (-52637471103755120000000000000000000); (-53823978588494350000000000000000000); (-53293853116471210000000000000000000); 
    (-49257009463190200000000000000000000); (-46923287221570360000000000000000000); (-45654771620816210000000000000000000); 
    (-45172555106579450000000000000000000); (-44647009471497360000000000000000000); (-44645338723766470000000000000000000); 
    (-44519620458767960000000000000000000); (-44410675518849310000000000000000000); (-44519620458767310000000000000000000); 
    (-44645338723767750000000000000000000); (-44647009471499350000000000000000000); (-45172555106572590000000000000000000); 
    (-45654771620825000000000000000000000); (-46923287221571720000000000000000000); (-49257009463184450000000000000000000); 
    (-41389624420208630000000000000000000); (-37463354492531160000000000000000000); (-36082656368345500000000000000000000); 
    (-34660128073634800000000000000000000); (-34089556114005210000000000000000000); (-33959277474341030000000000000000000); 
    (-33681353412564710000000000000000000); (-33681353412564120000000000000000000); (-33959277474341720000000000000000000); 
    (-34089556114009920000000000000000000); (-34660128073628140000000000000000000); (-36082656368351500000000000000000000); 
    (-37463354492539180000000000000000000); (-41389624420209000000000000000000000); (-30337745496674800000000000000000000); 
    (-25836291669810750000000000000000000); (-23920936610312060000000000000000000); (-21764173758239500000000000000000000); 
    (-21119644300896490000000000000000000); (-20657696992079420000000000000000000); (-20384874577649480000000000000000000); 
    (-20657696992079680000000000000000000); (-21119644300902370000000000000000000); (-21764173758232680000000000000000000); 
    (-23920936610310950000000000000000000); (-25836291669817790000000000000000000); (-30337745496674960000000000000000000); 
    (-17467764095854630000000000000000000); (-12672476720158940000000000000000000); (-9751790950751960000000000000000000); 
    (-7192596683768898000000000000000000); (-6136000387261218000000000000000000); (-5414275268846330000000000000000000); 
    (-5414275268847256000000000000000000); (-6136000387267627000000000000000000); (-7192596683765228000000000000000000); 
    (-9751790950748634000000000000000000); (-12672476720161030000000000000000000); (-17467764095853610000000000000000000); 
    (-3221157974658025000000000000000000); 2010179368319543000000000000000000; 5846163556679839000000000000000000; 8619455151733102000000000000000000; 
    10192437288828550000000000000000000; 10828550537694150000000000000000000; 10192437288821390000000000000000000; 8619455151733668000000000000000000; 
    5846163556682090000000000000000000; 2010179368319989000000000000000000; (-3221157974657028000000000000000000); 12199278782754250000000000000000000; 
    17925592711726320000000000000000000; 22205337759424380000000000000000000; 25061898260831240000000000000000000; 26793697379347410000000000000000000; 
    26793697379341250000000000000000000; 25061898260831110000000000000000000; 22205337759425190000000000000000000; 17925592711726670000000000000000000; 
    12199278782753740000000000000000000; 28338919711975450000000000000000000; 34303787680398830000000000000000000; 38673456902086570000000000000000000; 
    41151874158106440000000000000000000; 42239288601798940000000000000000000; 41151874158110490000000000000000000; 38673456902087280000000000000000000; 
    34303787680398550000000000000000000; 28338919711973690000000000000000000; 44486070224730270000000000000000000; 50286518094728830000000000000000000; 
    54397129674516010000000000000000000; 55853729872237940000000000000000000; 55853729872249110000000000000000000; 54397129674519220000000000000000000; 
    50286518094728310000000000000000000; 44486070224729210000000000000000000; 59918829704064730000000000000000000; 64984216429815130000000000000000000; 
    68567946081808980000000000000000000; 69320256147262780000000000000000000; 68567946081811060000000000000000000; 64984216429813800000000000000000000; 
    59918829704065600000000000000000000; 74158649986624280000000000000000000; 78155040115836980000000000000000000; 81255211474931090000000000000000000; 
    81255211474918130000000000000000000; 78155040115830600000000000000000000; 74158649986626110000000000000000000; 87051714369530670000000000000000000; 
    90085326287312720000000000000000000; 91309543241641420000000000000000000; 90085326287301530000000000000000000; 87051714369530970000000000000000000; 
    98173813965298250000000000000000000; 99560758325319940000000000000000000; 99560758325325190000000000000000000; 98173813965297360000000000000000000; 
    105901759807178000000000000000000000; 107647957176988500000000000000000000; 105901759807185900000000000000000000; 
    110720350885723600000000000000000000; 110720350885723500000000000000000000; 113381642199927500000000000000000000];
   []],
   [20207174213530360000000000000000; 13755126101672510000000000000000; 47142156083167350000000000000000; 72634190169106090000000000000000; 
    96105158995227820000000000000000; 110366345187080400000000000000000; 120163792496460400000000000000000; 129799092850231200000000000000000; 
    133879741384233400000000000000000; 129799092850252300000000000000000; 120163792496463800000000000000000; 110366345187052800000000000000000; 
    96105158995243190000000000000000; 72634190169161980000000000000000; 47142156083063950000000000000000; 13755126101646960000000000000000; 
    20207174213530020000000000000000; 13755126101644410000000000000000; 77885651069198310000000000000000; 138835983540118300000000000000000; 
    187440936241980600000000000000000; 229254813235286400000000000000000; 256617219571260900000000000000000; 285889091467691100000000000000000; 
    305670633505601800000000000000000; 305670633505614700000000000000000; 285889091467681700000000000000000; 256617219571142700000000000000000; 
    229254813235195000000000000000000; 187440936242151800000000000000000; 138835983540067600000000000000000; 77885651069199310000000000000000; 
    13755126101674760000000000000000; 47142156083072650000000000000000; 138835983540073400000000000000000; 206451096248808500000000000000000; 
    298075969185047900000000000000000; 369461763036096400000000000000000; 420160048972066900000000000000000; 456909449977356300000000000000000; 
    470719014854382500000000000000000; 456909449977408100000000000000000; 420160048972052700000000000000000; 369461763035885000000000000000000; 
    298075969184973800000000000000000; 206451096248810600000000000000000; 138835983540122400000000000000000; 47142156083169780000000000000000; 
    72634190169159240000000000000000; 187440936242142300000000000000000; 298075969184974000000000000000000; 422182661585298300000000000000000; 
    496594646295005500000000000000000; 559335114604322200000000000000000; 601013532827953700000000000000000; 601013532828014400000000000000000; 
    559335114604470900000000000000000; 496594646294976300000000000000000; 422182661585295200000000000000000; 298075969185052300000000000000000; 
    187440936241970700000000000000000; 72634190169102550000000000000000; 96105158995241560000000000000000; 229254813235197000000000000000000; 
    369461763035889700000000000000000; 496594646294970700000000000000000; 599676961799581300000000000000000; 690768132815411500000000000000000; 
    723725626733640100000000000000000; 690768132815427000000000000000000; 599676961799590100000000000000000; 496594646295004900000000000000000; 
    369461763036106400000000000000000; 229254813235287700000000000000000; 96105158995225860000000000000000; 110366345187051700000000000000000; 
    256617219571141200000000000000000; 420160048972048200000000000000000; 559335114604454100000000000000000; 690768132815424700000000000000000; 
    769999390827118800000000000000000; 769999390827119600000000000000000; 690768132815417000000000000000000; 559335114604316000000000000000000; 
    420160048972068600000000000000000; 256617219571263000000000000000000; 110366345187082200000000000000000; 120163792496461400000000000000000; 
    285889091467680700000000000000000; 456909449977405800000000000000000; 601013532828004100000000000000000; 723725626733642100000000000000000; 
    769999390827119400000000000000000; 723725626733642900000000000000000; 601013532827945400000000000000000; 456909449977351700000000000000000; 
    285889091467688600000000000000000; 120163792496459900000000000000000; 129799092850252600000000000000000; 305670633505618900000000000000000; 
    470719014854385800000000000000000; 601013532827946300000000000000000; 690768132815413200000000000000000; 690768132815424100000000000000000; 
    601013532828000500000000000000000; 470719014854373600000000000000000; 305670633505599900000000000000000; 129799092850229900000000000000000; 
    133879741384235200000000000000000; 305670633505604800000000000000000; 456909449977358900000000000000000; 559335114604313100000000000000000; 
    599676961799580400000000000000000; 559335114604452400000000000000000; 456909449977396500000000000000000; 305670633505613200000000000000000; 
    133879741384233200000000000000000; 129799092850230500000000000000000; 285889091467684600000000000000000; 420160048972066500000000000000000; 
    496594646295001000000000000000000; 496594646294971500000000000000000; 420160048972048900000000000000000; 285889091467681900000000000000000; 
    129799092850253200000000000000000; 120163792496456200000000000000000; 256617219571248300000000000000000; 369461763036095600000000000000000; 
    422182661585302000000000000000000; 369461763035896200000000000000000; 256617219571146300000000000000000; 120163792496465700000000000000000; 
    110366345187079100000000000000000; 229254813235283300000000000000000; 298075969185050100000000000000000; 298075969184984400000000000000000; 
    229254813235193000000000000000000; 110366345187053000000000000000000; 96105158995229730000000000000000; 187440936241985900000000000000000; 
    206451096248809300000000000000000; 187440936242143800000000000000000; 96105158995239930000000000000000; 72634190169109980000000000000000; 
    138835983540122900000000000000000; 138835983540067400000000000000000; 72634190169159510000000000000000; 47142156083164800000000000000000; 
    77885651069200690000000000000000; 47142156083065930000000000000000; 13755126101674400000000000000000; 13755126101646990000000000000000; 
    20207174213528240000000000000000], 27%nat).
(** vr_quad_data_tri.py:3134-3658 *)
Definition vr_triangle_data_17 : list (list Z) * list Z * nat :=
  ([[(-98941655594155570000000000000000000); (-95734033390368970000000000000000000); (-90387324696412260000000000000000000); 
    (-82401691423511930000000000000000000); (-71318280675698430000000000000000000); (-57796552919402590000000000000000000); 
    (-42591902309716620000000000000000000); (-26172185731875730000000000000000000); (-8846027949976127000000000000000000); 
    8846027949976083000000000000000000; 26172185731875720000000000000000000; 42591902309716630000000000000000000; 57796552919402570000000000000000000; 
    71318280675698420000000000000000000; 82401691423511990000000000000000000; 90387324696412370000000000000000000; 95734033390368900000000000000000000; 
    98941655594155560000000000000000000; (-97187750272745270000000000000000000); (-93023656420095120000000000000000000); 
    (-86392358916399950000000000000000000); (-76809966737465800000000000000000000); (-64443077359744540000000000000000000); 
    (-50294094441324450000000000000000000); (-34708743978230640000000000000000000); (-17777249452821140000000000000000000); (-36180344883763280000); 
    17777249452821110000000000000000000; 34708743978230680000000000000000000; 50294094441324500000000000000000000; 64443077359744540000000000000000000; 
    76809966737465800000000000000000000; 86392358916400040000000000000000000; 93023656420095170000000000000000000; 97187750272745370000000000000000000; 
    (-94500487012912740000000000000000000); (-89492364060260280000000000000000000); (-81608148655285280000000000000000000); 
    (-70836746520648310000000000000000000); (-57438688302204040000000000000000000); (-42493665388191020000000000000000000); 
    (-26152436426417380000000000000000000); (-8825519634085994000000000000000000); 8825519634085936000000000000000000; 
    26152436426417380000000000000000000; 42493665388191080000000000000000000; 57438688302204100000000000000000000; 70836746520648340000000000000000000; 
    81608148655285250000000000000000000; 89492364060260140000000000000000000; 94500487012912680000000000000000000; 
    (-90470941902810060000000000000000000); (-84444146341713420000000000000000000); (-75646484512393060000000000000000000); 
    (-64127686093838930000000000000000000); (-50007091119736630000000000000000000); (-34497571582707580000000000000000000); 
    (-17624829598002070000000000000000000); (-27203750991900340000); 17624829598002030000000000000000000; 34497571582707560000000000000000000; 
    50007091119736640000000000000000000; 64127686093838980000000000000000000; 75646484512393120000000000000000000; 84444146341713430000000000000000000; 
    90470941902810030000000000000000000; (-84860299359413420000000000000000000); (-77973700177949270000000000000000000); 
    (-68382207998210930000000000000000000); (-56253002843251660000000000000000000); (-41850145079216620000000000000000000); 
    (-26102828609620800000000000000000000); (-8885909722551076000000000000000000); 8885909722551075000000000000000000; 
    26102828609620800000000000000000000; 41850145079216590000000000000000000; 56253002843251640000000000000000000; 68382207998210910000000000000000000; 
    77973700177949260000000000000000000; 84860299359413410000000000000000000; (-78073156170732540000000000000000000); 
    (-70840807203237980000000000000000000); (-60867271528134970000000000000000000); (-48467137520680900000000000000000000); 
    (-33859371210784640000000000000000000); (-17563992443546210000000000000000000); 15461331152807800000; 17563992443546260000000000000000000; 
    33859371210784670000000000000000000; 48467137520680940000000000000000000; 60867271528134980000000000000000000; 70840807203237970000000000000000000; 
    78073156170732540000000000000000000; (-70473560673872260000000000000000000); (-63067964507263730000000000000000000); 
    (-52702128306149050000000000000000000); (-39951643998314640000000000000000000); (-25050662567144300000000000000000000); 
    (-8566092377001593000000000000000000); 8566092377001592000000000000000000; 25050662567144290000000000000000000; 39951643998314660000000000000000000; 
    52702128306149070000000000000000000; 63067964507263740000000000000000000; 70473560673872260000000000000000000; 
    (-62264264495737000000000000000000000); (-54585082334927310000000000000000000); (-43977403287108880000000000000000000); 
    (-31056447740357860000000000000000000); (-16164752844593240000000000000000000); (-2512456557059834000); 16164752844593210000000000000000000; 
    31056447740357850000000000000000000; 43977403287108890000000000000000000; 54585082334927320000000000000000000; 62264264495737020000000000000000000; 
    (-53596457333862910000000000000000000); (-45679209594953940000000000000000000); (-35151883653022930000000000000000000); 
    (-22326814400312580000000000000000000); (-7756542601163845000000000000000000); 7756542601163863000000000000000000; 
    22326814400312600000000000000000000; 35151883653022930000000000000000000; 45679209594953960000000000000000000; 53596457333862940000000000000000000; 
    (-44750429383886830000000000000000000); (-36807832882106200000000000000000000); (-26549691879731690000000000000000000); 
    (-13969565937973280000000000000000000); 28129787955109940000; 13969565937973340000000000000000000; 26549691879731690000000000000000000; 
    36807832882106210000000000000000000; 44750429383886850000000000000000000; (-36092078763861330000000000000000000); 
    (-28359220529033100000000000000000000); (-18373606139943920000000000000000000); (-6245911723514966000000000000000000); 
    6245911723515028000000000000000000; 18373606139943920000000000000000000; 28359220529033090000000000000000000; 36092078763861330000000000000000000; 
    (-27881658364155670000000000000000000); (-20546712761913530000000000000000000); (-10943519696006870000000000000000000); 8173302986656238000; 
    10943519696006860000000000000000000; 20546712761913510000000000000000000; 27881658364155650000000000000000000; 
    (-20276603251329960000000000000000000); (-13530622818204750000000000000000000); (-4809737991744767000000000000000000); 
    4809737991744765000000000000000000; 13530622818204740000000000000000000; 20276603251329960000000000000000000; (-13542018683714960000000000000000000); 
    (-7634179604247648000000000000000000); 30315812923081920000; 7634179604247604000000000000000000; 13542018683714950000000000000000000; 
    (-8069250479298056000000000000000000); (-3100005143860299000000000000000000); 3100005143860214000000000000000000; 8069250479297999000000000000000000; 
    (-4113162316500443000000000000000000); (-135380519691424800000); 4113162316500366000000000000000000; (-1453716882376390000000000000000000); 
    1453716882376378000000000000000000; 48006280126649500000];
   [(-57123991491352940000000000000000000); (-56950677615269130000000000000000000); (-56934616986108050000000000000000000); 
    (-56892206597807630000000000000000000); (-56812604811083350000000000000000000); (-56782260077062720000000000000000000); 
    (-56785412187810020000000000000000000); (-56786061257436340000000000000000000); (-56780601520454470000000000000000000); 
    (-56780601520454470000000000000000000); (-56786061257436340000000000000000000); (-56785412187810020000000000000000000); 
    (-56782260077062720000000000000000000); (-56812604811083350000000000000000000); (-56892206597807640000000000000000000); 
    (-56934616986108060000000000000000000); (-56950677615269080000000000000000000); (-57123991491353000000000000000000000); 
    (-54432766115172610000000000000000000); (-53707233075145220000000000000000000); (-53458229284904180000000000000000000); 
    (-53161446271430700000000000000000000); (-52830045513843990000000000000000000); (-52762609252452520000000000000000000); 
    (-52785509891955700000000000000000000); (-52765724202578950000000000000000000); (-52745807912032000000000000000000000); 
    (-52765724202578950000000000000000000); (-52785509891955700000000000000000000); (-52762609252452520000000000000000000); 
    (-52830045513844000000000000000000000); (-53161446271430710000000000000000000); (-53458229284904200000000000000000000); 
    (-53707233075145110000000000000000000); (-54432766115172680000000000000000000); (-49810410874151610000000000000000000); 
    (-48088862872013380000000000000000000); (-47116486594195940000000000000000000); (-46451421720744410000000000000000000); 
    (-45798730237919620000000000000000000); (-45749742052487540000000000000000000); (-45756059718086070000000000000000000); 
    (-45685315115668270000000000000000000); (-45685315115668270000000000000000000); (-45756059718086070000000000000000000); 
    (-45749742052487550000000000000000000); (-45798730237919620000000000000000000); (-46451421720744430000000000000000000); 
    (-47116486594195960000000000000000000); (-48088862872013270000000000000000000); (-49810410874151540000000000000000000); 
    (-42915854788663860000000000000000000); (-39938659322767770000000000000000000); (-38120711147948160000000000000000000); 
    (-37024136828785730000000000000000000); (-36083765149182150000000000000000000); (-36047847549166820000000000000000000); 
    (-35956484721162370000000000000000000); (-35860896925938360000000000000000000); (-35956484721162370000000000000000000); 
    (-36047847549166840000000000000000000); (-36083765149182150000000000000000000); (-37024136828785760000000000000000000); 
    (-38120711147948180000000000000000000); (-39938659322767740000000000000000000); (-42915854788663810000000000000000000); 
    (-33357140413841990000000000000000000); (-29394319334662560000000000000000000); (-26843998110804950000000000000000000); 
    (-25265528704464060000000000000000000); (-24162192527110590000000000000000000); (-24026959041900710000000000000000000); 
    (-23795731182728950000000000000000000); (-23795731182728960000000000000000000); (-24026959041900740000000000000000000); 
    (-24162192527110590000000000000000000); (-25265528704464080000000000000000000); (-26843998110804950000000000000000000); 
    (-29394319334662560000000000000000000); (-33357140413841980000000000000000000); (-21662153040842940000000000000000000); 
    (-17174658820294430000000000000000000); (-13925722699845180000000000000000000); (-11851849584913490000000000000000000); 
    (-10592233165612480000000000000000000); (-10140575765325970000000000000000000); (-9891271479530190000000000000000000); 
    (-10140575765326000000000000000000000); (-10592233165612490000000000000000000); (-11851849584913510000000000000000000); 
    (-13925722699845170000000000000000000); (-17174658820294420000000000000000000); (-21662153040842940000000000000000000); 
    (-8492963301814669000000000000000000); (-3665899072620031000000000000000000); 229355542908085500000000000000000; 2714692191339537000000000000000000; 
    4202442035900100000000000000000000; 4945635739765079000000000000000000; 4945635739765052000000000000000000; 4202442035900088000000000000000000; 
    2714692191339514000000000000000000; 229355542908068500000000000000000; (-3665899072620030000000000000000000); (-8492963301814676000000000000000000); 
    5727252912349219000000000000000000; 10987312465733390000000000000000000; 15199533353117360000000000000000000; 17930448462969180000000000000000000; 
    19593289146828830000000000000000000; 20281151530651960000000000000000000; 19593289146828810000000000000000000; 17930448462969140000000000000000000; 
    15199533353117320000000000000000000; 10987312465733360000000000000000000; 5727252912349200000000000000000000; 20729415832960800000000000000000000; 
    26372903956016010000000000000000000; 30485781762550920000000000000000000; 33241792529822870000000000000000000; 34619192207513230000000000000000000; 
    34619192207513220000000000000000000; 33241792529822790000000000000000000; 30485781762550870000000000000000000; 26372903956015950000000000000000000; 
    20729415832960750000000000000000000; 36051185687493730000000000000000000; 41778411736845580000000000000000000; 45526704175178010000000000000000000; 
    47899697134080370000000000000000000; 48324385054221160000000000000000000; 47899697134080320000000000000000000; 45526704175178000000000000000000000; 
    41778411736845530000000000000000000; 36051185687493690000000000000000000; 51058808345087140000000000000000000; 56451408964575750000000000000000000; 
    59675464752332730000000000000000000; 61349293853646200000000000000000000; 61349293853646190000000000000000000; 59675464752332800000000000000000000; 
    56451408964575760000000000000000000; 51058808345087140000000000000000000; 65278375489624670000000000000000000; 69937268072746940000000000000000000; 
    72642728348724560000000000000000000; 74048273657571500000000000000000000; 72642728348724630000000000000000000; 69937268072747000000000000000000000; 
    65278375489624700000000000000000000; 78444413117905650000000000000000000; 82224364848506550000000000000000000; 84572132868692650000000000000000000; 
    84572132868692630000000000000000000; 82224364848506580000000000000000000; 78444413117905670000000000000000000; 90169745224925380000000000000000000; 
    93100105594198460000000000000000000; 94232973188391930000000000000000000; 93100105594198520000000000000000000; 90169745224925390000000000000000000; 
    99808061386471530000000000000000000; 101547092156917400000000000000000000; 101547092156917700000000000000000000; 99808061386471630000000000000000000; 
    106745027860259600000000000000000000; 107414466150290400000000000000000000; 106745027860259800000000000000000000; 
    111383443730441800000000000000000000; 111383443730441600000000000000000000; 114247982982705900000000000000000000];
   []],
   [7696913857190751000000000000000; 22319794388416070000000000000000; 35125576118456940000000000000000; 54345814927481230000000000000000; 
    77152303625595160000000000000000; 92894418993888110000000000000000; 101541111048260800000000000000000; 108321516992085800000000000000000; 
    113401948813037400000000000000000; 113401948813037600000000000000000; 108321516992086000000000000000000; 101541111048260600000000000000000; 
    92894418993887850000000000000000; 77152303625595310000000000000000; 54345814927481540000000000000000; 35125576118456420000000000000000; 
    22319794388416640000000000000000; 7696913857190627000000000000000; 22319794388416430000000000000000; 59223267045881270000000000000000; 
    101580185464246500000000000000000; 148031754222722300000000000000000; 192018073292539600000000000000000; 218088373032479700000000000000000; 
    238042131243868700000000000000000; 256294099856883600000000000000000; 263989959985408100000000000000000; 256294099856884500000000000000000; 
    238042131243869300000000000000000; 218088373032479000000000000000000; 192018073292539000000000000000000; 148031754222722500000000000000000; 
    101580185464247400000000000000000; 59223267045881720000000000000000; 22319794388415720000000000000000; 35125576118456440000000000000000; 
    101580185464246800000000000000000; 179553242566667700000000000000000; 249342735075866400000000000000000; 311024695118654700000000000000000; 
    348116446646327600000000000000000; 376391414461899300000000000000000; 393429162364107300000000000000000; 393429162364108000000000000000000; 
    376391414461900700000000000000000; 348116446646328100000000000000000; 311024695118654000000000000000000; 249342735075864800000000000000000; 
    179553242566667000000000000000000; 101580185464246500000000000000000; 35125576118457690000000000000000; 54345814927481340000000000000000; 
    148031754222723100000000000000000; 249342735075866400000000000000000; 343246736359130400000000000000000; 419004526532713400000000000000000; 
    467427111385435000000000000000000; 502680298840829200000000000000000; 515827558659908200000000000000000; 502680298840829500000000000000000; 
    467427111385435500000000000000000; 419004526532714500000000000000000; 343246736359130900000000000000000; 249342735075866500000000000000000; 
    148031754222721500000000000000000; 54345814927480830000000000000000; 77152303625595480000000000000000; 192018073292539800000000000000000; 
    311024695118654100000000000000000; 419004526532713200000000000000000; 499303370622358700000000000000000; 564941787377025600000000000000000; 
    608016302485926900000000000000000; 608016302485926800000000000000000; 564941787377024900000000000000000; 499303370622358400000000000000000; 
    419004526532713500000000000000000; 311024695118655000000000000000000; 192018073292540000000000000000000; 77152303625595160000000000000000; 
    92894418993888010000000000000000; 218088373032478900000000000000000; 348116446646327400000000000000000; 467427111385435700000000000000000; 
    564941787377025800000000000000000; 649034493646754300000000000000000; 679775005671052200000000000000000; 649034493646754500000000000000000; 
    564941787377025500000000000000000; 467427111385435300000000000000000; 348116446646326700000000000000000; 218088373032479100000000000000000; 
    92894418993888130000000000000000; 101541111048260700000000000000000; 238042131243868700000000000000000; 376391414461900200000000000000000; 
    502680298840830200000000000000000; 608016302485926800000000000000000; 679775005671052100000000000000000; 679775005671052100000000000000000; 
    608016302485926800000000000000000; 502680298840830200000000000000000; 376391414461899600000000000000000; 238042131243868100000000000000000; 
    101541111048260600000000000000000; 108321516992086100000000000000000; 256294099856884200000000000000000; 393429162364107900000000000000000; 
    515827558659909100000000000000000; 608016302485927000000000000000000; 649034493646754500000000000000000; 608016302485926400000000000000000; 
    515827558659908500000000000000000; 393429162364107900000000000000000; 256294099856883700000000000000000; 108321516992085800000000000000000; 
    113401948813037600000000000000000; 263989959985408400000000000000000; 393429162364107800000000000000000; 502680298840830200000000000000000; 
    564941787377025100000000000000000; 564941787377024600000000000000000; 502680298840829400000000000000000; 393429162364108400000000000000000; 
    263989959985408600000000000000000; 113401948813037600000000000000000; 113401948813037400000000000000000; 256294099856884000000000000000000; 
    376391414461899600000000000000000; 467427111385434700000000000000000; 499303370622357800000000000000000; 467427111385435000000000000000000; 
    376391414461901100000000000000000; 256294099856884900000000000000000; 113401948813037800000000000000000; 108321516992085700000000000000000; 
    238042131243868500000000000000000; 348116446646327400000000000000000; 419004526532713500000000000000000; 419004526532714200000000000000000; 
    348116446646327900000000000000000; 238042131243869300000000000000000; 108321516992086100000000000000000; 101541111048260900000000000000000; 
    218088373032479700000000000000000; 311024695118655800000000000000000; 343246736359131100000000000000000; 311024695118654200000000000000000; 
    218088373032478800000000000000000; 101541111048260600000000000000000; 92894418993888690000000000000000; 192018073292540000000000000000000; 
    249342735075866700000000000000000; 249342735075865000000000000000000; 192018073292539600000000000000000; 92894418993888150000000000000000; 
    77152303625595450000000000000000; 148031754222721200000000000000000; 179553242566666700000000000000000; 148031754222723100000000000000000; 
    77152303625595890000000000000000; 54345814927480880000000000000000; 101580185464246300000000000000000; 101580185464247300000000000000000; 
    54345814927481540000000000000000; 35125576118456890000000000000000; 59223267045881220000000000000000; 35125576118455330000000000000000; 
    22319794388415110000000000000000; 22319794388416560000000000000000; 7696913857191295000000000000000], 28%nat).
(** vr_quad_data_tri.py:3659-4240 *)
Definition vr_triangle_data_18 : list (list Z) * list Z * nat :=
  ([[(-99217452699870480000000000000000000); (-96401399789512410000000000000000000); (-91614491713559050000000000000000000); 
    (-84250197566473840000000000000000000); (-74338845534804060000000000000000000); (-62117718920461050000000000000000000); 
    (-48114456201982810000000000000000000); (-32884663782533450000000000000000000); (-16734251726731050000000000000000000); (-104283870891253800000); 
    16734251726730890000000000000000000; 32884663782533250000000000000000000; 48114456201982350000000000000000000; 62117718920460640000000000000000000; 
    74338845534804180000000000000000000; 84250197566474320000000000000000000; 91614491713559400000000000000000000; 96401399789511960000000000000000000; 
    99217452699870150000000000000000000; (-97607843084354600000000000000000000); (-94027563540116920000000000000000000); 
    (-88305195553821930000000000000000000); (-79309310328807540000000000000000000); (-68069576908032980000000000000000000); 
    (-55052072906111550000000000000000000); (-40577615425575640000000000000000000); (-24944710896707740000000000000000000); 
    (-8431299826079080000000000000000000); 8431299826079289000000000000000000; 24944710896708280000000000000000000; 40577615425576170000000000000000000; 
    55052072906111590000000000000000000; 68069576908032410000000000000000000; 79309310328806190000000000000000000; 88305195553820400000000000000000000; 
    94027563540116410000000000000000000; 97607843084354570000000000000000000; (-95248580462207590000000000000000000); 
    (-90999428864813450000000000000000000); (-83843682376875770000000000000000000); (-73689710496038960000000000000000000); 
    (-61862552556238830000000000000000000); (-48272980112422700000000000000000000); (-33071493972403310000000000000000000); 
    (-16806661489226020000000000000000000); (-389052651563132600000); 16806661489225610000000000000000000; 33071493972403770000000000000000000; 
    48272980112424190000000000000000000; 61862552556241320000000000000000000; 73689710496040610000000000000000000; 83843682376876300000000000000000000; 
    90999428864814340000000000000000000; 95248580462207550000000000000000000; (-91447215808062040000000000000000000); 
    (-85973062941271030000000000000000000); (-77805859740405740000000000000000000); (-66929611547282760000000000000000000); 
    (-54522556933334290000000000000000000); (-40331607445577640000000000000000000); (-24726251978241290000000000000000000); 
    (-8329818797589794000000000000000000); 8329818797589266000000000000000000; 24726251978240670000000000000000000; 40331607445577010000000000000000000; 
    54522556933334560000000000000000000; 66929611547283050000000000000000000; 77805859740405490000000000000000000; 85973062941271700000000000000000000; 
    91447215808062170000000000000000000; (-86441088454803270000000000000000000); (-80222180174818290000000000000000000); 
    (-71714321388499110000000000000000000); (-60538944889028200000000000000000000); (-47892199685220580000000000000000000); 
    (-33252585558090510000000000000000000); (-17034020197793220000000000000000000); (-173370879290266600000); 17034020197792760000000000000000000; 
    33252585558089740000000000000000000; 47892199685220290000000000000000000; 60538944889027970000000000000000000; 71714321388498160000000000000000000; 
    80222180174818260000000000000000000; 86441088454803520000000000000000000; (-80330860061464500000000000000000000); 
    (-73724197663833370000000000000000000); (-64914155572983100000000000000000000); (-53339537424236760000000000000000000); 
    (-40290621533848360000000000000000000); (-25132972905175780000000000000000000); (-8536485658569324000000000000000000); 
    8536485658569082000000000000000000; 25132972905175250000000000000000000; 40290621533848290000000000000000000; 53339537424237100000000000000000000; 
    64914155572982980000000000000000000; 73724197663833290000000000000000000; 80330860061464850000000000000000000; 
    (-73327652838559170000000000000000000); (-66457997742527250000000000000000000); (-57211802480817190000000000000000000); 
    (-45326869491048880000000000000000000); (-31850828592765530000000000000000000); (-16434094348842070000000000000000000); (-210769954591418500000); 
    16434094348841360000000000000000000; 31850828592765000000000000000000000; 45326869491048720000000000000000000; 57211802480817320000000000000000000; 
    66457997742527190000000000000000000; 73327652838559400000000000000000000; (-65704795199754940000000000000000000); 
    (-58598114103081430000000000000000000); (-48981344877076750000000000000000000); (-36990283719822650000000000000000000); 
    (-23200495714947280000000000000000000); (-7897608690272722000000000000000000); 7897608690272231000000000000000000; 
    23200495714946920000000000000000000; 36990283719822340000000000000000000; 48981344877076910000000000000000000; 58598114103081470000000000000000000; 
    65704795199755020000000000000000000; (-57622500805927500000000000000000000); (-50313355841267340000000000000000000); 
    (-40539846793546990000000000000000000); (-28660464922232910000000000000000000); (-14816808394972290000000000000000000); (-331596263518226700000); 
    14816808394972110000000000000000000; 28660464922232760000000000000000000; 40539846793547080000000000000000000; 50313355841267450000000000000000000; 
    57622500805927570000000000000000000; (-49252613402360490000000000000000000); (-41882056015188080000000000000000000); 
    (-32174683387850620000000000000000000); (-20600617512807710000000000000000000); (-7038035975758498000000000000000000); 
    7038035975758152000000000000000000; 20600617512807730000000000000000000; 32174683387850500000000000000000000; 41882056015188090000000000000000000; 
    49252613402360560000000000000000000; (-40888249079196430000000000000000000); (-33653403206373390000000000000000000); 
    (-24140308508413520000000000000000000); (-13007929978659790000000000000000000); 199593120205879700000; 13007929978659800000000000000000000; 
    24140308508413060000000000000000000; 33653403206373240000000000000000000; 40888249079196470000000000000000000; 
    (-32820131417221660000000000000000000); (-25880382316951670000000000000000000); (-16641175460559720000000000000000000); 
    (-6016387955693198000000000000000000); 6016387955693833000000000000000000; 16641175460559010000000000000000000; 25880382316951530000000000000000000; 
    32820131417221750000000000000000000; (-25213196636576940000000000000000000); (-18672124757722150000000000000000000); 
    (-9851768832258237000000000000000000); 224843818882671400000; 9851768832257789000000000000000000; 18672124757722290000000000000000000; 
    25213196636577160000000000000000000; (-18213141141004020000000000000000000); (-12152603266785480000000000000000000); 
    (-4116149244365906000000000000000000); 4116149244365333000000000000000000; 12152603266785990000000000000000000; 18213141141004240000000000000000000; 
    (-12102242919999280000000000000000000); (-6663752612464568000000000000000000); (-329715505353723400000); 6663752612465043000000000000000000; 
    12102242919999300000000000000000000; (-7197018241588042000000000000000000); (-2694233310992772000000000000000000); 
    2694233310993136000000000000000000; 7197018241587937000000000000000000; (-3634088748648224000000000000000000); 438175689289461900000; 
    3634088748648171000000000000000000; (-1206443294842278000000000000000000); 1206443294842400000000000000000000; 63710081171242930000];
   [(-57283223024578990000000000000000000); (-57050454840810170000000000000000000); (-57089935687076380000000000000000000); 
    (-56952275082570040000000000000000000); (-56894018896084770000000000000000000); (-56894405621268040000000000000000000); 
    (-56892585970644170000000000000000000); (-56883392904199470000000000000000000); (-56875207964248280000000000000000000); 
    (-56872019212291000000000000000000000); (-56875207964248290000000000000000000); (-56883392904199480000000000000000000); 
    (-56892585970644160000000000000000000); (-56894405621268060000000000000000000); (-56894018896084800000000000000000000); 
    (-56952275082569980000000000000000000); (-57089935687076310000000000000000000); (-57050454840810170000000000000000000); 
    (-57283223024579160000000000000000000); (-54960833757692330000000000000000000); (-54286839121130880000000000000000000); 
    (-54094061078564270000000000000000000); (-53483890396819410000000000000000000); (-53332606086343210000000000000000000); 
    (-53345041622216570000000000000000000); (-53311588583874140000000000000000000); (-53261438351765130000000000000000000); 
    (-53229045853373030000000000000000000); (-53229045853373090000000000000000000); (-53261438351765200000000000000000000); 
    (-53311588583874100000000000000000000); (-53345041622216590000000000000000000); (-53332606086343410000000000000000000); 
    (-53483890396819190000000000000000000); (-54094061078563770000000000000000000); (-54286839121131130000000000000000000); 
    (-54960833757692420000000000000000000); (-50795509335203220000000000000000000); (-49427512096479410000000000000000000); 
    (-48407172590139230000000000000000000); (-47297693939912510000000000000000000); (-47092204145698690000000000000000000); 
    (-47085992326065060000000000000000000); (-46968663178776790000000000000000000); (-46855454765116700000000000000000000); 
    (-46811382918321170000000000000000000); (-46855454765116860000000000000000000); (-46968663178776800000000000000000000); 
    (-47085992326064990000000000000000000); (-47092204145699160000000000000000000); (-47297693939912440000000000000000000); 
    (-48407172590138660000000000000000000); (-49427512096479990000000000000000000); (-50795509335203030000000000000000000); 
    (-44486673825139390000000000000000000); (-41941932302960130000000000000000000); (-40168314317135690000000000000000000); 
    (-38641829243580640000000000000000000); (-38425739333904880000000000000000000); (-38305728165112970000000000000000000); 
    (-38063252368672220000000000000000000); (-37903477400990940000000000000000000); (-37903477400991090000000000000000000); 
    (-38063252368672350000000000000000000); (-38305728165112760000000000000000000); (-38425739333905440000000000000000000); 
    (-38641829243580850000000000000000000); (-40168314317134720000000000000000000); (-41941932302960750000000000000000000); 
    (-44486673825139460000000000000000000); (-35932319273105100000000000000000000); (-32283679784042910000000000000000000); 
    (-30028439983805230000000000000000000); (-28005049716598060000000000000000000); (-27650574380345140000000000000000000); 
    (-27325213153555640000000000000000000); (-26943572777313990000000000000000000); (-26789624892714870000000000000000000); 
    (-26943572777314140000000000000000000); (-27325213153555390000000000000000000); (-27650574380345660000000000000000000); 
    (-28005049716598550000000000000000000); (-30028439983804220000000000000000000); (-32283679784043120000000000000000000); 
    (-35932319273105550000000000000000000); (-25348319799625940000000000000000000); (-21003972856577080000000000000000000); 
    (-18262630930707580000000000000000000); (-15775332540774840000000000000000000); (-15134977258044020000000000000000000); 
    (-14510528672339160000000000000000000); (-14047915299474590000000000000000000); (-14047915299474610000000000000000000); 
    (-14510528672338870000000000000000000); (-15134977258044310000000000000000000); (-15775332540775550000000000000000000); 
    (-18262630930707400000000000000000000); (-21003972856576990000000000000000000); (-25348319799626560000000000000000000); 
    (-13222048374868410000000000000000000); (-8485451491606928000000000000000000); (-5156422331817216000000000000000000); 
    (-2381936169195912000000000000000000); (-1280107831209319000000000000000000); (-368855789625797000000000000000000); (-150652517960716400000); 
    (-368855789625302700000000000000000); (-1280107831209274000000000000000000); (-2381936169196350000000000000000000); 
    (-5156422331817780000000000000000000); (-8485451491606900000000000000000000); (-13222048374868810000000000000000000); 
    (-37257778484298030000000000000000); 5027965849274903000000000000000000; 8872731580083158000000000000000000; 11737904012861410000000000000000000; 
    13394812446357060000000000000000000; 14416771089099160000000000000000000; 14416771089099710000000000000000000; 13394812446357440000000000000000000; 
    11737904012861510000000000000000000; 8872731580082449000000000000000000; 5027965849274624000000000000000000; (-37257778484479780000000000000000); 
    13945316873451570000000000000000000; 19312803090378760000000000000000000; 23405691459160730000000000000000000; 26165573388128920000000000000000000; 
    28223680608522740000000000000000000; 29021057344676910000000000000000000; 28223680608523030000000000000000000; 26165573388129320000000000000000000; 
    23405691459160510000000000000000000; 19312803090378450000000000000000000; 13945316873451410000000000000000000; 28436009606145800000000000000000000; 
    33916242762994620000000000000000000; 37982723185033820000000000000000000; 40445188537868160000000000000000000; 42460190411599290000000000000000000; 
    42460190411598670000000000000000000; 40445188537868000000000000000000000; 37982723185034210000000000000000000; 33916242762994680000000000000000000; 
    28436009606145670000000000000000000; 42929891090796970000000000000000000; 48233472502490180000000000000000000; 52125085510593950000000000000000000; 
    54081060705888360000000000000000000; 55301148760690800000000000000000000; 54081060705887260000000000000000000; 52125085510594470000000000000000000; 
    48233472502490490000000000000000000; 42929891090796920000000000000000000; 56920650682683480000000000000000000; 61797040075480750000000000000000000; 
    65348623256772020000000000000000000; 66430789050503950000000000000000000; 66430789050503990000000000000000000; 65348623256772710000000000000000000; 
    61797040075480740000000000000000000; 56920650682683320000000000000000000; 70114634345512320000000000000000000; 74349014478793590000000000000000000; 
    77120644129502920000000000000000000; 77283658487162340000000000000000000; 77120644129504920000000000000000000; 74349014478793270000000000000000000; 
    70114634345511890000000000000000000; 82242725420894130000000000000000000; 85616285870386640000000000000000000; 87466008257047440000000000000000000; 
    87466008257048590000000000000000000; 85616285870386400000000000000000000; 82242725420893790000000000000000000; 92826338169190120000000000000000000; 
    95425822699780490000000000000000000; 96814345180277770000000000000000000; 95425822699779320000000000000000000; 92826338169190200000000000000000000; 
    101438948907709600000000000000000000; 103521573175044200000000000000000000; 103521573175042600000000000000000000; 
    101438948907709600000000000000000000; 107885445022279500000000000000000000; 108573678242261700000000000000000000; 
    107885445022279500000000000000000000; 112011288598502500000000000000000000; 112011288598502600000000000000000000; 114566446049158200000000000000000000];
   []],
   [4743472960336915000000000000000; 17139417148510450000000000000000; 26325343239975260000000000000000; 45401330281777660000000000000000; 
    63040203907106630000000000000000; 74926932086124210000000000000000; 83413863135602130000000000000000; 90302166693485400000000000000000; 
    95770039806236240000000000000000; 98010341746319500000000000000000; 95770039806234780000000000000000; 90302166693483860000000000000000; 
    83413863135601860000000000000000; 74926932086124110000000000000000; 63040203907107960000000000000000; 45401330281782170000000000000000; 
    26325343239975510000000000000000; 17139417148506770000000000000000; 4743472960338288000000000000000; 17139417148506560000000000000000; 
    42789738270354310000000000000000; 79160326053620040000000000000000; 125924129087422900000000000000000; 158152628399369800000000000000000; 
    179034853726016800000000000000000; 197108795435348400000000000000000; 213189956639617400000000000000000; 223655901242532600000000000000000; 
    223655901242533500000000000000000; 213189956639618300000000000000000; 197108795435346100000000000000000; 179034853726007500000000000000000; 
    158152628399353400000000000000000; 125924129087425300000000000000000; 79160326053630650000000000000000; 42789738270358130000000000000000; 
    17139417148511140000000000000000; 26325343239977640000000000000000; 79160326053634440000000000000000; 146045304904230100000000000000000; 
    207595819129331500000000000000000; 250464706409428700000000000000000; 286582623974423800000000000000000; 316561177166574000000000000000000; 
    336377029296096200000000000000000; 343489506798411200000000000000000; 336377029296107100000000000000000; 316561177166594400000000000000000; 
    286582623974446500000000000000000; 250464706409421600000000000000000; 207595819129312300000000000000000; 146045304904225800000000000000000; 
    79160326053623300000000000000000; 26325343239975150000000000000000; 45401330281785200000000000000000; 125924129087427300000000000000000; 
    207595819129314000000000000000000; 285384062584738900000000000000000; 341764657552925500000000000000000; 388510129690044500000000000000000; 
    422269131037805400000000000000000; 440186775035919100000000000000000; 440186775035917600000000000000000; 422269131037803500000000000000000; 
    388510129690056700000000000000000; 341764657552932200000000000000000; 285384062584734700000000000000000; 207595819129319400000000000000000; 
    125924129087423300000000000000000; 45401330281778120000000000000000; 63040203907105620000000000000000; 158152628399351900000000000000000; 
    250464706409425100000000000000000; 341764657552932900000000000000000; 416432874921805400000000000000000; 481541201601522300000000000000000; 
    527195586374035500000000000000000; 543856988272039400000000000000000; 527195586374033500000000000000000; 481541201601523000000000000000000; 
    416432874921812000000000000000000; 341764657552927700000000000000000; 250464706409420600000000000000000; 158152628399363100000000000000000; 
    63040203907104410000000000000000; 74926932086122890000000000000000; 179034853726013000000000000000000; 286582623974449600000000000000000; 
    388510129690047400000000000000000; 481541201601510100000000000000000; 559202690805854400000000000000000; 602099432452125700000000000000000; 
    602099432452127200000000000000000; 559202690805860100000000000000000; 481541201601526100000000000000000; 388510129690050800000000000000000; 
    286582623974429500000000000000000; 179034853726016000000000000000000; 74926932086124420000000000000000; 83413863135602210000000000000000; 
    197108795435348400000000000000000; 316561177166589000000000000000000; 422269131037788900000000000000000; 527195586374029700000000000000000; 
    602099432452129100000000000000000; 628111255685137100000000000000000; 602099432452133400000000000000000; 527195586374043100000000000000000; 
    422269131037809200000000000000000; 316561177166583000000000000000000; 197108795435346600000000000000000; 83413863135604390000000000000000; 
    90302166693485090000000000000000; 213189956639618700000000000000000; 336377029296104700000000000000000; 440186775035917100000000000000000; 
    543856988272045700000000000000000; 602099432452132300000000000000000; 602099432452134600000000000000000; 543856988272050900000000000000000; 
    440186775035932100000000000000000; 336377029296114300000000000000000; 213189956639619700000000000000000; 90302166693487580000000000000000; 
    95770039806237010000000000000000; 223655901242535300000000000000000; 343489506798417000000000000000000; 440186775035930600000000000000000; 
    527195586374044800000000000000000; 559202690805863300000000000000000; 527195586374038200000000000000000; 440186775035927300000000000000000; 
    343489506798431300000000000000000; 223655901242540700000000000000000; 95770039806239030000000000000000; 98010341746320300000000000000000; 
    223655901242532800000000000000000; 336377029296104300000000000000000; 422269131037818000000000000000000; 481541201601531900000000000000000; 
    481541201601520200000000000000000; 422269131037799700000000000000000; 336377029296113100000000000000000; 223655901242537400000000000000000; 
    98010341746320990000000000000000; 95770039806234010000000000000000; 213189956639614100000000000000000; 316561177166580700000000000000000; 
    388510129690057100000000000000000; 416432874921811200000000000000000; 388510129690056600000000000000000; 316561177166588700000000000000000; 
    213189956639613900000000000000000; 95770039806233030000000000000000; 90302166693482720000000000000000; 197108795435346100000000000000000; 
    286582623974429500000000000000000; 341764657552928700000000000000000; 341764657552934700000000000000000; 286582623974446100000000000000000; 
    197108795435345000000000000000000; 90302166693481940000000000000000; 83413863135602790000000000000000; 179034853726017800000000000000000; 
    250464706409424800000000000000000; 285384062584733500000000000000000; 250464706409419200000000000000000; 179034853726015400000000000000000; 
    83413863135604370000000000000000; 74926932086126600000000000000000; 158152628399367700000000000000000; 207595819129322400000000000000000; 
    207595819129305900000000000000000; 158152628399351300000000000000000; 74926932086126420000000000000000; 63040203907107790000000000000000; 
    125924129087421400000000000000000; 146045304904223800000000000000000; 125924129087420900000000000000000; 63040203907105390000000000000000; 
    45401330281777910000000000000000; 79160326053621670000000000000000; 79160326053630000000000000000000; 45401330281781640000000000000000; 
    26325343239976120000000000000000; 42789738270359490000000000000000; 26325343239978110000000000000000; 17139417148511610000000000000000; 
    17139417148506100000000000000000; 4743472960337284000000000000000], 30%nat).
(** vr_quad_data_tri.py:4241-4882 *)
Definition vr_triangle_data_19 : list (list Z) * list Z * nat :=
  ([[(-99042563948169760000000000000000000); (-96052304883274090000000000000000000); (-91790502030106080000000000000000000); 
    (-86348950186827170000000000000000000); (-77540673806680790000000000000000000); (-65953435397654890000000000000000000); 
    (-52732649867689630000000000000000000); (-38663051762462660000000000000000000); (-23838405298400600000000000000000000); 
    (-8093097777771794000000000000000000); 8093097777706427000000000000000000; 23838405298422430000000000000000000; 38663051762520080000000000000000000; 
    52732649867653080000000000000000000; 65953435397570880000000000000000000; 77540673806686040000000000000000000; 86348950186899640000000000000000000; 
    91790502030034710000000000000000000; 96052304883186470000000000000000000; 99042563948164240000000000000000000; 
    (-97466076586334960000000000000000000); (-95060329323278540000000000000000000); (-90029584177384640000000000000000000); 
    (-81994346110199210000000000000000000); (-71310076642134030000000000000000000); (-58707759733949360000000000000000000); 
    (-45060716757164780000000000000000000); (-30858056424569470000000000000000000); (-15830171906783830000000000000000000); (-44080138682241580000000); 
    15830171906782940000000000000000000; 30858056424654690000000000000000000; 45060716757146730000000000000000000; 58707759733817550000000000000000000; 
    71310076642081210000000000000000000; 81994346110228490000000000000000000; 90029584177514210000000000000000000; 95060329323355470000000000000000000; 
    97466076586391990000000000000000000; (-95422477807405220000000000000000000); (-92181173909417580000000000000000000); 
    (-85045146509338810000000000000000000); (-75923027532661820000000000000000000); (-64624173435414470000000000000000000); 
    (-51922276146164220000000000000000000); (-38287806854448710000000000000000000); (-23633487649008910000000000000000000); 
    (-8004700387576616000000000000000000); 8004700387510774000000000000000000; 23633487649092250000000000000000000; 38287806854519290000000000000000000; 
    51922276146045350000000000000000000; 64624173435296670000000000000000000; 75923027532564770000000000000000000; 85045146509318700000000000000000000; 
    92181173909364510000000000000000000; 95422477807446250000000000000000000; (-92579954846956000000000000000000000); 
    (-87826071600853460000000000000000000); (-80171448170177910000000000000000000); (-71765542017811750000000000000000000); 
    (-60367399969732860000000000000000000); (-47208961325517400000000000000000000); (-32504292861620260000000000000000000); 
    (-16573542275454970000000000000000000); (-40473701754735580000000); 16573542275450050000000000000000000; 32504292861740330000000000000000000; 
    47208961325610490000000000000000000; 60367399969838640000000000000000000; 71765542017843330000000000000000000; 80171448170218430000000000000000000; 
    87826071600821170000000000000000000; 92579954846929460000000000000000000; (-88143687577088100000000000000000000); 
    (-82327372074880190000000000000000000); (-74140920008353070000000000000000000); (-65264253796313030000000000000000000); 
    (-52948910018532500000000000000000000); (-39314350994864610000000000000000000); (-24316899917473360000000000000000000); 
    (-8237740629712396000000000000000000); 8237740629600203000000000000000000; 24316899917423440000000000000000000; 39314350994801280000000000000000000; 
    52948910018547670000000000000000000; 65264253796288480000000000000000000; 74140920008419580000000000000000000; 82327372074891580000000000000000000; 
    88143687577081910000000000000000000; (-82328042351964050000000000000000000); (-75920965420859200000000000000000000); 
    (-67584378170246450000000000000000000); (-58331761033311180000000000000000000); (-45712270614380630000000000000000000); 
    (-31792191846872150000000000000000000); (-16343949595261690000000000000000000); 14400150328740870000000; 16343949595303100000000000000000000; 
    31792191846876860000000000000000000; 45712270614439220000000000000000000; 58331761033352260000000000000000000; 67584378170388410000000000000000000; 
    75920965420953960000000000000000000; 82328042352007670000000000000000000; (-75704434302970130000000000000000000); 
    (-69057174094767460000000000000000000); (-60708530438775000000000000000000000); (-50852323875877350000000000000000000); 
    (-37964834709576960000000000000000000); (-23650912159591960000000000000000000); (-8035871987529573000000000000000000); 
    8035871987521126000000000000000000; 23650912159512920000000000000000000; 37964834709519340000000000000000000; 50852323875773480000000000000000000; 
    60708530438731080000000000000000000; 69057174094787300000000000000000000; 75704434302989520000000000000000000; 
    (-68666421740780310000000000000000000); (-61940860823489750000000000000000000); (-53319236092898790000000000000000000); 
    (-42740572862771870000000000000000000); (-29713430326714930000000000000000000); (-15294987277222560000000000000000000); 36733225992933250000000; 
    15294987277229050000000000000000000; 29713430326724040000000000000000000; 42740572862724480000000000000000000; 53319236092827250000000000000000000; 
    61940860823430460000000000000000000; 68666421740747810000000000000000000; (-61249765366121010000000000000000000); 
    (-54396255870211660000000000000000000); (-45438112907994680000000000000000000); (-34375392474802970000000000000000000); 
    (-21475689697019020000000000000000000); (-7306962564233021000000000000000000); 7306962564307376000000000000000000; 
    21475689697103940000000000000000000; 34375392474838870000000000000000000; 45438112908015730000000000000000000; 54396255870207690000000000000000000; 
    61249765366106430000000000000000000; (-53371746370546650000000000000000000); (-46465797308276670000000000000000000); 
    (-37433412520434870000000000000000000); (-26167030587264890000000000000000000); (-13647934792051000000000000000000000); 887400008347176100000; 
    13647934792135440000000000000000000; 26167030587312290000000000000000000; 37433412520478480000000000000000000; 46465797308322360000000000000000000; 
    53371746370578960000000000000000000; (-45278648592807610000000000000000000); (-38566083963415300000000000000000000); 
    (-29685748443799140000000000000000000); (-18348031014133470000000000000000000); (-6397919619582282000000000000000000); 
    6397919619549389000000000000000000; 18348031014120130000000000000000000; 29685748443800350000000000000000000; 38566083963427640000000000000000000; 
    45278648592839130000000000000000000; (-37411360067705600000000000000000000); (-31082804398852210000000000000000000); 
    (-22420723584268810000000000000000000); (-11122799707816340000000000000000000); (-37374162345389190000000); 11122799707687760000000000000000000; 
    22420723584262970000000000000000000; 31082804398836260000000000000000000; 37411360067698090000000000000000000; 
    (-30003369978286090000000000000000000); (-23996457337627770000000000000000000); (-15662102024239450000000000000000000); 
    (-4896853826558405000000000000000000); 4896853826490651000000000000000000; 15662102024225270000000000000000000; 23996457337625240000000000000000000; 
    30003369978257060000000000000000000; (-22971784435302750000000000000000000); (-17213205687018960000000000000000000); 
    (-9516746573033884000000000000000000); (-9566932461237383000000); 9516746573083445000000000000000000; 17213205687046780000000000000000000; 
    22971784435311820000000000000000000; (-16374606954352960000000000000000000); (-11017295432765610000000000000000000); 
    (-4248420637559659000000000000000000); 4248420637620064000000000000000000; 11017295432802790000000000000000000; 16374606954390620000000000000000000; 
    (-10603013770393550000000000000000000); (-5831725490609414000000000000000000); 23869302865782580000000; 5831725490612985000000000000000000; 
    10603013770401830000000000000000000; (-6231004660092546000000000000000000); (-2151589731965197000000000000000000); 
    2151589731897274000000000000000000; 6231004660054057000000000000000000; (-3631975777349347000000000000000000); (-95752140465249650000000); 
    3631975777380490000000000000000000; (-1413771703119468000000000000000000); 1413771703143592000000000000000000; 8328113976235097000000];
   [(-57182250956700320000000000000000000); (-57088307027381430000000000000000000); (-57189115441603630000000000000000000); 
    (-57048534070261580000000000000000000); (-57011434604551900000000000000000000); (-56986001146754690000000000000000000); 
    (-56970741451165790000000000000000000); (-56967030809869070000000000000000000); (-56962027327763910000000000000000000); 
    (-56955832087773180000000000000000000); (-56955832087773090000000000000000000); (-56962027327768750000000000000000000); 
    (-56967030809871280000000000000000000); (-56970741451158880000000000000000000); (-56986001146749870000000000000000000); 
    (-57011434604560970000000000000000000); (-57048534070259470000000000000000000); (-57189115441605130000000000000000000); 
    (-57088307027358450000000000000000000); (-57182250956710660000000000000000000); (-54639582607212160000000000000000000); 
    (-54883106724139800000000000000000000); (-54463046481715340000000000000000000); (-54073354362440930000000000000000000); 
    (-53892568912960040000000000000000000); (-53771038759939290000000000000000000); (-53724539156575040000000000000000000); 
    (-53707238157088850000000000000000000); (-53671831927437230000000000000000000); (-53654081168110820000000000000000000); 
    (-53671831927447850000000000000000000); (-53707238157114590000000000000000000); (-53724539156561170000000000000000000); 
    (-53771038759899880000000000000000000); (-53892568912975160000000000000000000); (-54073354362460740000000000000000000); 
    (-54463046481716670000000000000000000); (-54883106724008660000000000000000000); (-54639582607272070000000000000000000); 
    (-50898348863333460000000000000000000); (-50736383749016370000000000000000000); (-49100838230407920000000000000000000); 
    (-48739833981111960000000000000000000); (-48299776320584940000000000000000000); (-48062377749466360000000000000000000); 
    (-47994697187711950000000000000000000); (-47922950166293980000000000000000000); (-47845897514259050000000000000000000); 
    (-47845897514273690000000000000000000); (-47922950166338530000000000000000000); (-47994697187733650000000000000000000); 
    (-48062377749374440000000000000000000); (-48299776320577610000000000000000000); (-48739833981122990000000000000000000); 
    (-49100838230447390000000000000000000); (-50736383748913980000000000000000000); (-50898348863395010000000000000000000); 
    (-46256117416836000000000000000000000); (-43972509516925640000000000000000000); (-41381353584860270000000000000000000); 
    (-41433855002533920000000000000000000); (-40507534372719850000000000000000000); (-40099609340371880000000000000000000); 
    (-39952843523691620000000000000000000); (-39783823401041340000000000000000000); (-39693284197653730000000000000000000); 
    (-39783823401100040000000000000000000); (-39952843523745640000000000000000000); (-40099609340270430000000000000000000); 
    (-40507534372695250000000000000000000); (-41433855002509670000000000000000000); (-41381353584945590000000000000000000); 
    (-43972509516911540000000000000000000); (-46256117416788420000000000000000000); (-38646476040872780000000000000000000); 
    (-34810053461374730000000000000000000); (-31816287733234300000000000000000000); (-32025934747932190000000000000000000); 
    (-30570067452546000000000000000000000); (-30085832359115900000000000000000000); (-29798646365311660000000000000000000); 
    (-29554052225247160000000000000000000); (-29554052225294250000000000000000000); (-29798646365399200000000000000000000); 
    (-30085832359060560000000000000000000); (-30570067452488450000000000000000000); (-32025934747844320000000000000000000); 
    (-31816287733332710000000000000000000); (-34810053461422080000000000000000000); (-38646476040879680000000000000000000); 
    (-28624349947785570000000000000000000); (-23956891948814290000000000000000000); (-20934821290072370000000000000000000); 
    (-20834355124120370000000000000000000); (-19004310515306950000000000000000000); (-18355230520913570000000000000000000); 
    (-17873537305267410000000000000000000); (-17661130043492430000000000000000000); (-17873537305361560000000000000000000); 
    (-18355230520910460000000000000000000); (-19004310515305840000000000000000000); (-20834355123997940000000000000000000); 
    (-20934821290138970000000000000000000); (-23956891948900300000000000000000000); (-28624349947851180000000000000000000); 
    (-17182443668687160000000000000000000); (-12161455846141050000000000000000000); (-9160864797321257000000000000000000); 
    (-8173121588456378000000000000000000); (-6159729887113088000000000000000000); (-5217506894996591000000000000000000); 
    (-4639512855118827000000000000000000); (-4639512855169350000000000000000000); (-5217506895016652000000000000000000); 
    (-6159729887167263000000000000000000); (-8173121588374913000000000000000000); (-9160864797285858000000000000000000); 
    (-12161455846148270000000000000000000); (-17182443668707140000000000000000000); (-4999669609239774000000000000000000); 
    129758303398003400000000000000000; 3494274399026588000000000000000000; 5538803059298578000000000000000000; 7642933457595522000000000000000000; 
    8830565021772766000000000000000000; 9279025710377474000000000000000000; 8830565021786792000000000000000000; 7642933457507392000000000000000000; 
    5538803059280890000000000000000000; 3494274399071401000000000000000000; 129758303452526700000000000000000; (-4999669609187687000000000000000000); 
    7836349089744030000000000000000000; 13126584946175450000000000000000000; 16990674871859820000000000000000000; 19846642098853360000000000000000000; 
    21911118767719750000000000000000000; 23091044200342730000000000000000000; 23091044200417310000000000000000000; 21911118767680740000000000000000000; 
    19846642098802280000000000000000000; 16990674871803040000000000000000000; 13126584946165630000000000000000000; 7836349089760494000000000000000000; 
    21469087773080360000000000000000000; 26827040584095270000000000000000000; 30855222642458020000000000000000000; 34245020341765680000000000000000000; 
    35958376252446570000000000000000000; 36710461041842690000000000000000000; 35958376252486160000000000000000000; 34245020341806980000000000000000000; 
    30855222642415170000000000000000000; 26827040584018690000000000000000000; 21469087773025300000000000000000000; 35486744314747990000000000000000000; 
    40545246981280310000000000000000000; 44428675767238290000000000000000000; 48125965112074930000000000000000000; 49090142874362130000000000000000000; 
    49090142874315940000000000000000000; 48125965112213270000000000000000000; 44428675767328470000000000000000000; 40545246981280800000000000000000000; 
    35486744314693470000000000000000000; 49125678238009910000000000000000000; 53577479853647000000000000000000000; 57155561985019180000000000000000000; 
    60933964464375980000000000000000000; 61140134904964220000000000000000000; 60933964464394550000000000000000000; 57155561985077080000000000000000000; 
    53577479853728210000000000000000000; 49125678238032770000000000000000000; 61966700419060560000000000000000000; 65885995002719130000000000000000000; 
    68997199039611460000000000000000000; 72533469120582060000000000000000000; 72533469120627970000000000000000000; 68997199039448730000000000000000000; 
    65885995002696940000000000000000000; 61966700419115820000000000000000000; 74153185119866670000000000000000000; 77727930708824180000000000000000000; 
    80116064053910450000000000000000000; 82867710005092600000000000000000000; 80116064053797820000000000000000000; 77727930708693560000000000000000000; 
    74153185119836790000000000000000000; 85610351094599120000000000000000000; 88702622374373150000000000000000000; 90121187566051270000000000000000000; 
    90121187565983380000000000000000000; 88702622374335800000000000000000000; 85610351094523440000000000000000000; 95657910645429600000000000000000000; 
    98045863879347030000000000000000000; 98201676460861120000000000000000000; 98045863879390590000000000000000000; 95657910645433090000000000000000000; 
    103304651487040400000000000000000000; 105199430230642400000000000000000000; 105199430230764800000000000000000000; 
    103304651487107200000000000000000000; 108087464304993300000000000000000000; 109766213448158600000000000000000000; 
    108087464304940800000000000000000000; 111727889634658300000000000000000000; 111727889634555500000000000000000000; 114364501913414900000000000000000000];
   []],
   [6523307465903116000000000000000; 16654284669179710000000000000000; 16979265493062930000000000000000; 32188139914493170000000000000000; 
    50712823361315990000000000000000; 63453840146738190000000000000000; 70738418722226330000000000000000; 74586480567951230000000000000000; 
    79742355730775490000000000000000; 84626320298877040000000000000000; 84626320299154940000000000000000; 79742355730783710000000000000000; 
    74586480567514950000000000000000; 70738418722335510000000000000000; 63453840147238160000000000000000; 50712823361308590000000000000000; 
    32188139914429120000000000000000; 16979265492461610000000000000000; 16654284670252240000000000000000; 6523307465904334000000000000000; 
    16654284670222190000000000000000; 25302374950429630000000000000000; 64481165790265270000000000000000; 100744638664478100000000000000000; 
    132900933991352000000000000000000; 155142866144846500000000000000000; 165144734520881200000000000000000; 173293020106781400000000000000000; 
    186454538604328700000000000000000; 193090925388815400000000000000000; 186454538605427200000000000000000; 173293020105788800000000000000000; 
    165144734519571600000000000000000; 155142866146010900000000000000000; 132900933991997600000000000000000; 100744638665226100000000000000000; 
    64481165790741610000000000000000; 25302374950283550000000000000000; 16654284669261240000000000000000; 16979265492551380000000000000000; 
    64481165790659560000000000000000; 129850235486221400000000000000000; 167891312463687100000000000000000; 210346313464821300000000000000000; 
    237191260616628800000000000000000; 256119663233916300000000000000000; 278405178604697500000000000000000; 294264393545498300000000000000000; 
    294264393546931300000000000000000; 278405178605923500000000000000000; 256119663230982500000000000000000; 237191260616336200000000000000000; 
    210346313465130600000000000000000; 167891312465148500000000000000000; 129850235486320000000000000000000; 64481165790215510000000000000000; 
    16979265492925530000000000000000; 32188139914297900000000000000000; 100744638665051400000000000000000; 167891312465102300000000000000000; 
    211705075805664300000000000000000; 278366812300212700000000000000000; 328449210132490500000000000000000; 367487891783086700000000000000000; 
    394650197808855800000000000000000; 404475725149878600000000000000000; 394650197810894600000000000000000; 367487891784782000000000000000000; 
    328449210132289100000000000000000; 278366812299789300000000000000000; 211705075805442400000000000000000; 167891312463477000000000000000000; 
    100744638664378300000000000000000; 32188139914404700000000000000000; 50712823361271570000000000000000; 132900933992067900000000000000000; 
    210346313465689700000000000000000; 278366812299623400000000000000000; 353545988958492900000000000000000; 405740838808193200000000000000000; 
    450630886570578700000000000000000; 477944692813892600000000000000000; 477944692814655500000000000000000; 450630886571677300000000000000000; 
    405740838808992500000000000000000; 353545988958954800000000000000000; 278366812300334100000000000000000; 210346313465269000000000000000000; 
    132900933991465000000000000000000; 50712823361337280000000000000000; 63453840147261240000000000000000; 155142866146173000000000000000000; 
    237191260616384200000000000000000; 328449210131708200000000000000000; 405740838808614000000000000000000; 473898545373642900000000000000000; 
    526430295718010400000000000000000; 545224124410079500000000000000000; 526430295718479200000000000000000; 473898545373395500000000000000000; 
    405740838808040100000000000000000; 328449210132299700000000000000000; 237191260616550100000000000000000; 155142866145009500000000000000000; 
    63453840146798800000000000000000; 70738418722384340000000000000000; 165144734519598200000000000000000; 256119663230438100000000000000000; 
    367487891784373500000000000000000; 450630886571668400000000000000000; 526430295718583300000000000000000; 569571860851537400000000000000000; 
    569571860851493100000000000000000; 526430295717825400000000000000000; 450630886570408700000000000000000; 367487891782897000000000000000000; 
    256119663233339700000000000000000; 165144734520772700000000000000000; 70738418722276850000000000000000; 74586480567505970000000000000000; 
    173293020105643500000000000000000; 278405178605440900000000000000000; 394650197810722800000000000000000; 477944692814615600000000000000000; 
    545224124409913000000000000000000; 569571860851375800000000000000000; 545224124409864400000000000000000; 477944692813765900000000000000000; 
    394650197808741100000000000000000; 278405178604387500000000000000000; 173293020106519300000000000000000; 74586480567894260000000000000000; 
    79742355730733230000000000000000; 186454538605288500000000000000000; 294264393546819500000000000000000; 404475725149848100000000000000000; 
    477944692813633600000000000000000; 526430295717477700000000000000000; 526430295718087500000000000000000; 477944692814436500000000000000000; 
    404475725149766900000000000000000; 294264393545439100000000000000000; 186454538604172200000000000000000; 79742355730678290000000000000000; 
    84626320299093500000000000000000; 193090925388767600000000000000000; 294264393545654300000000000000000; 394650197808930900000000000000000; 
    450630886570187100000000000000000; 473898545372784600000000000000000; 450630886571316200000000000000000; 394650197810738300000000000000000; 
    294264393546883600000000000000000; 193090925388710800000000000000000; 84626320298788540000000000000000; 84626320298820080000000000000000; 
    186454538604267600000000000000000; 278405178604738700000000000000000; 367487891783316100000000000000000; 405740838808409800000000000000000; 
    405740838808913500000000000000000; 367487891784603000000000000000000; 278405178605634300000000000000000; 186454538605277900000000000000000; 
    84626320299080890000000000000000; 79742355730703620000000000000000; 173293020106486000000000000000000; 256119663233475800000000000000000; 
    328449210132915700000000000000000; 353545988959871500000000000000000; 328449210132254500000000000000000; 256119663230412000000000000000000; 
    173293020105489800000000000000000; 79742355730706700000000000000000; 74586480567882310000000000000000; 165144734520649800000000000000000; 
    237191260616342900000000000000000; 278366812300509600000000000000000; 278366812299990700000000000000000; 237191260616261900000000000000000; 
    165144734519419600000000000000000; 74586480567441910000000000000000; 70738418722238110000000000000000; 155142866144944300000000000000000; 
    210346313464882000000000000000000; 211705075804888900000000000000000; 210346313465512500000000000000000; 155142866146180800000000000000000; 
    70738418722346550000000000000000; 63453840146792000000000000000000; 132900933991517400000000000000000; 167891312463611600000000000000000; 
    167891312464909200000000000000000; 132900933992175400000000000000000; 63453840147284250000000000000000; 50712823361360780000000000000000; 
    100744638664608100000000000000000; 129850235486626600000000000000000; 100744638665282500000000000000000; 50712823361354800000000000000000; 
    32188139914470630000000000000000; 64481165790241340000000000000000; 64481165790864240000000000000000; 32188139914410840000000000000000; 
    16979265492921540000000000000000; 25302374949981030000000000000000; 16979265492267620000000000000000; 16654284669203180000000000000000; 
    16654284670454900000000000000000; 6523307465872451000000000000000], 32%nat).
(** vr_quad_data_tri.py:4883-5587 *)
Definition vr_triangle_data_20 : list (list Z) * list Z * nat :=
  ([[(-99149870613856060000000000000000000); (-97318492917120460000000000000000000); (-93361616666660450000000000000000000); 
    (-87093662650251800000000000000000000); (-78902193305619550000000000000000000); (-68825073576145100000000000000000000); 
    (-57093450425034570000000000000000000); (-44026611102377710000000000000000000); (-29936985061337050000000000000000000); 
    (-15145317748257520000000000000000000); (-53948271938938440000); 15145317748257540000000000000000000; 29936985061337020000000000000000000; 
    44026611102377210000000000000000000; 57093450425034140000000000000000000; 68825073576145520000000000000000000; 78902193305619850000000000000000000; 
    87093662650250920000000000000000000; 93361616666660360000000000000000000; 97318492917120500000000000000000000; 99149870613856150000000000000000000; 
    (-98308288570236230000000000000000000); (-95543168516611590000000000000000000); (-90277823370168630000000000000000000); 
    (-83087606826507290000000000000000000); (-74192029897698880000000000000000000); (-63168672980458300000000000000000000); 
    (-50594708540929040000000000000000000); (-36972577804322630000000000000000000); (-22553168222834260000000000000000000); 
    (-7583311963980857000000000000000000); 7583311963980478000000000000000000; 22553168222834430000000000000000000; 36972577804322970000000000000000000; 
    50594708540929420000000000000000000; 63168672980459360000000000000000000; 74192029897700220000000000000000000; 83087606826507670000000000000000000; 
    90277823370170250000000000000000000; 95543168516611510000000000000000000; 98308288570236620000000000000000000; 
    (-96182670703674700000000000000000000); (-92399955591277580000000000000000000); (-86450681794017060000000000000000000); 
    (-78460341192561600000000000000000000); (-68638873307594830000000000000000000); (-56731131981929230000000000000000000); 
    (-43702545889810770000000000000000000); (-29839690686411890000000000000000000); (-15160981006584870000000000000000000); 152361100899823900000; 
    15160981006584990000000000000000000; 29839690686411310000000000000000000; 43702545889809540000000000000000000; 56731131981928410000000000000000000; 
    68638873307593640000000000000000000; 78460341192558680000000000000000000; 86450681794016180000000000000000000; 92399955591275480000000000000000000; 
    96182670703674270000000000000000000; (-92978302817563350000000000000000000); (-88554423369829670000000000000000000); 
    (-81936951440499930000000000000000000); (-73240401647937700000000000000000000); (-62771794243994270000000000000000000); 
    (-50305530846831380000000000000000000); (-36891882060202650000000000000000000); (-22586261208329750000000000000000000); 
    (-7600095256339588000000000000000000); 7600095256340205000000000000000000; 22586261208329390000000000000000000; 36891882060201270000000000000000000; 
    50305530846831060000000000000000000; 62771794243995050000000000000000000; 73240401647938020000000000000000000; 81936951440502280000000000000000000; 
    88554423369830110000000000000000000; 92978302817564050000000000000000000; (-88881858516033090000000000000000000); 
    (-84074213680360380000000000000000000); (-76861924304914480000000000000000000); (-67612840671547220000000000000000000); 
    (-56456169449378070000000000000000000); (-43470846681522920000000000000000000); (-29739971387206240000000000000000000); 
    (-15139233803733770000000000000000000); 1099195418521473000000; 15139233803735320000000000000000000; 29739971387206160000000000000000000; 
    43470846681522440000000000000000000; 56456169449377210000000000000000000; 67612840671545410000000000000000000; 76861924304914090000000000000000000; 
    84074213680359380000000000000000000; 88881858516033110000000000000000000; (-83815205701193240000000000000000000); 
    (-78398311938285280000000000000000000); (-70536016468463930000000000000000000); (-60806508292166280000000000000000000); 
    (-49276589206031590000000000000000000); (-36307196509134320000000000000000000); (-22517543222926120000000000000000000); 
    (-7648401051176164000000000000000000); 7648401051175815000000000000000000; 22517543222925280000000000000000000; 36307196509134100000000000000000000; 
    49276589206031350000000000000000000; 60806508292165740000000000000000000; 70536016468463600000000000000000000; 78398311938284210000000000000000000; 
    83815205701192990000000000000000000; (-77925381726248270000000000000000000); (-72032605836369520000000000000000000); 
    (-63943256173288110000000000000000000); (-54088935389659440000000000000000000); (-42466200685834330000000000000000000); 
    (-29418158838725420000000000000000000); (-15173702349410910000000000000000000); 154829531034833100000; 15173702349410930000000000000000000; 
    29418158838726030000000000000000000; 42466200685834650000000000000000000; 54088935389660360000000000000000000; 63943256173288750000000000000000000; 
    72032605836369190000000000000000000; 77925381726248270000000000000000000; (-71390624226042490000000000000000000); 
    (-65245991151466040000000000000000000); (-57084737799470760000000000000000000); (-47011301440125030000000000000000000); 
    (-35159556648915160000000000000000000); (-21863393382266390000000000000000000); (-7441888402959237000000000000000000); 
    7441888402958868000000000000000000; 21863393382266480000000000000000000; 35159556648914270000000000000000000; 47011301440125090000000000000000000; 
    57084737799470980000000000000000000; 65245991151465840000000000000000000; 71390624226042360000000000000000000; 
    (-64352327820601990000000000000000000); (-58054908903108810000000000000000000); (-49743870493961020000000000000000000); 
    (-39470103303947870000000000000000000); (-27524411751192130000000000000000000); (-14214992331090380000000000000000000); (-281716437642776300000); 
    14214992331090560000000000000000000; 27524411751191130000000000000000000; 39470103303947500000000000000000000; 49743870493960870000000000000000000; 
    58054908903108730000000000000000000; 64352327820601630000000000000000000; (-56956241521418320000000000000000000); 
    (-50557622686320770000000000000000000); (-42139046310772430000000000000000000); (-31870008047607860000000000000000000); 
    (-20020322845180450000000000000000000); (-6900615615800021000000000000000000); 6900615615800076000000000000000000; 
    20020322845179880000000000000000000; 31870008047607760000000000000000000; 42139046310772410000000000000000000; 50557622686321120000000000000000000; 
    56956241521418110000000000000000000; (-49381469228830480000000000000000000); (-42974310722340010000000000000000000); 
    (-34582889487375910000000000000000000); (-24425040231795370000000000000000000); (-12726229298628320000000000000000000); 354055368171940500000; 
    12726229298628040000000000000000000; 24425040231795580000000000000000000; 34582889487376010000000000000000000; 42974310722340350000000000000000000; 
    49381469228830430000000000000000000; (-41810923773160620000000000000000000); (-35501740680274290000000000000000000); 
    (-27245047113059120000000000000000000); (-17197053329457780000000000000000000); (-5805742524508234000000000000000000); 
    5805742524509182000000000000000000; 17197053329458020000000000000000000; 27245047113059240000000000000000000; 35501740680274180000000000000000000; 
    41810923773160460000000000000000000; (-34415342759264730000000000000000000); (-28273413347143230000000000000000000); 
    (-20240710283478070000000000000000000); (-10500977445334460000000000000000000); 836461390572853400000; 10500977445335290000000000000000000; 
    20240710283478440000000000000000000; 28273413347142870000000000000000000; 34415342759264590000000000000000000; 
    (-27364013123664890000000000000000000); (-21437897295440290000000000000000000); (-13804884486534420000000000000000000); 
    (-4841046427551292000000000000000000); 4841046427552170000000000000000000; 13804884486535550000000000000000000; 21437897295440130000000000000000000; 
    27364013123665120000000000000000000; (-20831931301213830000000000000000000); (-15229638957825990000000000000000000); 
    (-8223050997319206000000000000000000); (-289640332444499700000); 8223050997320734000000000000000000; 15229638957826010000000000000000000; 
    20831931301214230000000000000000000; (-14990132125047840000000000000000000); (-9882183782660476000000000000000000); 
    (-3476610247940627000000000000000000); 3476610247941285000000000000000000; 9882183782660088000000000000000000; 14990132125047850000000000000000000; 
    (-9979665210413433000000000000000000); (-5466816543322907000000000000000000); 743252088522803300000; 5466816543322009000000000000000000; 
    9979665210413277000000000000000000; (-5884640167312196000000000000000000); (-2122132221106886000000000000000000); 2122132221107052000000000000000000; 
    5884640167312515000000000000000000; (-2821054037013645000000000000000000); 19902083663051770000; 2821054037014254000000000000000000; 
    (-989795653116167200000000000000000); 989795653115829600000000000000000; (-128473895240095900000)];
   [(-57244204489026350000000000000000000); (-57329775656366990000000000000000000); (-57159827129811760000000000000000000); 
    (-57078546745196920000000000000000000); (-57077727335960450000000000000000000); (-57045288391352080000000000000000000); 
    (-57017561260849500000000000000000000); (-57016016457577510000000000000000000); (-57023541196518250000000000000000000); 
    (-57023249469921350000000000000000000); (-57020809104489000000000000000000000); (-57023249469921360000000000000000000); 
    (-57023541196518240000000000000000000); (-57016016457577490000000000000000000); (-57017561260849550000000000000000000); 
    (-57045288391352210000000000000000000); (-57077727335960460000000000000000000); (-57078546745196780000000000000000000); 
    (-57159827129812280000000000000000000); (-57329775656366440000000000000000000); (-57244204489026320000000000000000000); 
    (-55615399296059100000000000000000000); (-55161874062295560000000000000000000); (-54572352842844380000000000000000000); 
    (-54283188173401330000000000000000000); (-54245751367361880000000000000000000); (-54056122653542230000000000000000000); 
    (-53965220144439960000000000000000000); (-53993453361725440000000000000000000); (-54014956821445650000000000000000000); 
    (-54000686931316630000000000000000000); (-54000686931316680000000000000000000); (-54014956821445690000000000000000000); 
    (-53993453361725330000000000000000000); (-53965220144439980000000000000000000); (-54056122653542800000000000000000000); 
    (-54245751367362260000000000000000000); (-54283188173400730000000000000000000); (-54572352842845700000000000000000000); 
    (-55161874062295380000000000000000000); (-55615399296058840000000000000000000); (-52273618206806470000000000000000000); 
    (-50896712015509160000000000000000000); (-49912324405401480000000000000000000); (-49313542833267290000000000000000000); 
    (-49123833394737000000000000000000000); (-48694241870063720000000000000000000); (-48603635695264820000000000000000000); 
    (-48687824019952520000000000000000000); (-48686077575113740000000000000000000); (-48657979461837090000000000000000000); 
    (-48686077575113850000000000000000000); (-48687824019952410000000000000000000); (-48603635695264650000000000000000000); 
    (-48694241870064560000000000000000000); (-49123833394738020000000000000000000); (-49313542833266450000000000000000000); 
    (-49912324405402930000000000000000000); (-50896712015508310000000000000000000); (-52273618206806810000000000000000000); 
    (-46886050991150740000000000000000000); (-44814384164708610000000000000000000); (-43291877245717290000000000000000000); 
    (-42285365606993430000000000000000000); (-41831271220498130000000000000000000); (-41169396085781100000000000000000000); 
    (-41156984776431410000000000000000000); (-41243791094205330000000000000000000); (-41188232492838380000000000000000000); 
    (-41188232492838490000000000000000000); (-41243791094205330000000000000000000); (-41156984776431040000000000000000000); 
    (-41169396085782040000000000000000000); (-41831271220499680000000000000000000); (-42285365606993080000000000000000000); 
    (-43291877245719420000000000000000000); (-44814384164708020000000000000000000); (-46886050991151640000000000000000000); 
    (-39792440148996890000000000000000000); (-37129306966061940000000000000000000); (-34881091274148770000000000000000000); 
    (-33446332846179580000000000000000000); (-32594984629012550000000000000000000); (-31801799052219190000000000000000000); 
    (-31865364308759110000000000000000000); (-31858118279766620000000000000000000); (-31782453067673120000000000000000000); 
    (-31858118279766690000000000000000000); (-31865364308758670000000000000000000); (-31801799052220000000000000000000000); 
    (-32594984629013970000000000000000000); (-33446332846179670000000000000000000); (-34881091274150240000000000000000000); 
    (-37129306966060990000000000000000000); (-39792440148996950000000000000000000); (-31081617938598890000000000000000000); 
    (-27677614197658140000000000000000000); (-24783480546765490000000000000000000); (-22981169621326210000000000000000000); 
    (-21745958024106850000000000000000000); (-20961969678068850000000000000000000); (-20968654207957840000000000000000000); 
    (-20829865703533760000000000000000000); (-20829865703533750000000000000000000); (-20968654207957390000000000000000000); 
    (-20961969678069550000000000000000000); (-21745958024107720000000000000000000); (-22981169621326910000000000000000000); 
    (-24783480546766460000000000000000000); (-27677614197657420000000000000000000); (-31081617938598710000000000000000000); 
    (-20935597827362260000000000000000000); (-16833692821294470000000000000000000); (-13545697102997850000000000000000000); 
    (-11370814669338070000000000000000000); (-9822888574763560000000000000000000); (-9016437357888584000000000000000000); 
    (-8760541136035830000000000000000000); (-8593152545455114000000000000000000); (-8760541136035314000000000000000000); 
    (-9016437357889154000000000000000000); (-9822888574763482000000000000000000); (-11370814669339000000000000000000000); 
    (-13545697102998610000000000000000000); (-16833692821293920000000000000000000); (-20935597827362330000000000000000000); 
    (-9620155428408154000000000000000000); (-5022464941077820000000000000000000); (-1498018165525905000000000000000000); 
    1061619564178425000000000000000000; 2818098072016364000000000000000000; 3791223243117067000000000000000000; 4296576272727459000000000000000000; 
    4296576272727975000000000000000000; 3791223243116796000000000000000000; 2818098072017573000000000000000000; 1061619564178137000000000000000000; 
    (-1498018165526200000000000000000000); (-5022464941077290000000000000000000); (-9620155428407889000000000000000000); 
    2585581022425696000000000000000000; 7475861793924218000000000000000000; 11213244089560890000000000000000000; 14012240683247000000000000000000000; 
    15891226533835520000000000000000000; 17038642460417100000000000000000000; 17521082272071520000000000000000000; 17038642460416830000000000000000000; 
    15891226533837300000000000000000000; 14012240683247410000000000000000000; 11213244089560880000000000000000000; 7475861793924232000000000000000000; 
    2585581022426319000000000000000000; 15395394816582100000000000000000000; 20433002660028830000000000000000000; 24328989730918370000000000000000000; 
    27175991809590870000000000000000000; 29040020207748880000000000000000000; 29985091565847170000000000000000000; 29985091565846160000000000000000000; 
    29040020207750100000000000000000000; 27175991809591370000000000000000000; 24328989730918470000000000000000000; 20433002660028160000000000000000000; 
    15395394816582440000000000000000000; 28510404552244500000000000000000000; 33567684271288360000000000000000000; 37472833485552780000000000000000000; 
    40182171530027290000000000000000000; 41688252883522600000000000000000000; 41923939356138310000000000000000000; 41688252883522080000000000000000000; 
    40182171530026940000000000000000000; 37472833485552890000000000000000000; 33567684271287870000000000000000000; 28510404552244590000000000000000000; 
    41627854653339070000000000000000000; 46539095027521380000000000000000000; 50185842185478990000000000000000000; 52527799445770590000000000000000000; 
    53547757076326900000000000000000000; 53547757076326730000000000000000000; 52527799445769260000000000000000000; 50185842185478510000000000000000000; 
    46539095027521660000000000000000000; 41627854653339370000000000000000000; 54437960174092310000000000000000000; 59015918302802810000000000000000000; 
    62149332798263830000000000000000000; 64150565707108090000000000000000000; 65189969258026770000000000000000000; 64150565707108450000000000000000000; 
    62149332798262730000000000000000000; 59015918302803190000000000000000000; 54437960174092550000000000000000000; 66636171885985910000000000000000000; 
    70798912965733920000000000000000000; 73477722416830500000000000000000000; 75277604066677920000000000000000000; 75277604066679570000000000000000000; 
    73477722416830180000000000000000000; 70798912965734210000000000000000000; 66636171885985450000000000000000000; 77953159088212210000000000000000000; 
    81733736851199580000000000000000000; 84004924668887450000000000000000000; 84570731213986200000000000000000000; 84004924668886860000000000000000000; 
    81733736851200680000000000000000000; 77953159088211600000000000000000000; 88126906329950900000000000000000000; 91375058333422680000000000000000000; 
    92605420078986440000000000000000000; 92605420078983400000000000000000000; 91375058333424100000000000000000000; 88126906329951150000000000000000000; 
    96870167484957270000000000000000000; 99097572338109080000000000000000000; 99824648810804460000000000000000000; 99097572338109310000000000000000000; 
    96870167484957550000000000000000000; 103964597736348500000000000000000000; 105469064858353000000000000000000000; 
    105469064858355000000000000000000000; 103964597736347600000000000000000000; 109433445336618800000000000000000000; 
    110323748124591200000000000000000000; 109433445336618600000000000000000000; 112945174952425700000000000000000000; 
    112945174952425700000000000000000000; 114488408978052800000000000000000000];
   []],
   [4038074242045579000000000000000; 7702153068307685000000000000000; 19816698145068590000000000000000; 32023720527660050000000000000000; 
    40581739866352760000000000000000; 50877471330312570000000000000000; 60222186674003900000000000000000; 66090452835995060000000000000000; 
    69569741439495540000000000000000; 72141516426713340000000000000000; 73238325786809700000000000000000; 72141516426712840000000000000000; 
    69569741439494400000000000000000; 66090452835995180000000000000000; 60222186674002810000000000000000; 50877471330306190000000000000000; 
    40581739866348290000000000000000; 32023720527663100000000000000000; 19816698145057550000000000000000; 7702153068314371000000000000000; 
    4038074242045142000000000000000; 7702153068313664000000000000000; 30571134430118620000000000000000; 56309919618601000000000000000000; 
    80857874127423010000000000000000; 102861632064523600000000000000000; 128752031534083000000000000000000; 146570905018703600000000000000000; 
    155660841680023200000000000000000; 162397420453897200000000000000000; 167269271871440300000000000000000; 167269271871443100000000000000000; 
    162397420453901300000000000000000; 155660841680026700000000000000000; 146570905018704400000000000000000; 128752031534071400000000000000000; 
    102861632064513700000000000000000; 80857874127428770000000000000000; 56309919618583090000000000000000; 30571134430118970000000000000000; 
    7702153068308498000000000000000; 19816698145056500000000000000000; 56309919618584000000000000000000; 95346545117859800000000000000000; 
    136999479635498800000000000000000; 174553780987510400000000000000000; 210039945902369200000000000000000; 229087732372450000000000000000000; 
    241918329323343900000000000000000; 253739082354429900000000000000000; 258632627801354900000000000000000; 253739082354421200000000000000000; 
    241918329323332600000000000000000; 229087732372447900000000000000000; 210039945902352700000000000000000; 174553780987485100000000000000000; 
    136999479635501300000000000000000; 95346545117859080000000000000000; 56309919618601290000000000000000; 19816698145067730000000000000000; 
    32023720527665690000000000000000; 80857874127431290000000000000000; 136999479635500700000000000000000; 192022069985932600000000000000000; 
    243074248668513900000000000000000; 285791564773747900000000000000000; 309197682357847300000000000000000; 327460242174574500000000000000000; 
    338375357469633700000000000000000; 338375357469621600000000000000000; 327460242174549500000000000000000; 309197682357844200000000000000000; 
    285791564773756700000000000000000; 243074248668525100000000000000000; 192022069985934300000000000000000; 136999479635497900000000000000000; 
    80857874127422700000000000000000; 32023720527660900000000000000000; 40581739866348320000000000000000; 102861632064511900000000000000000; 
    174553780987485300000000000000000; 243074248668527300000000000000000; 308644340080090100000000000000000; 353415262245115300000000000000000; 
    380330640528883700000000000000000; 402274852336108100000000000000000; 410660553380450900000000000000000; 402274852336079200000000000000000; 
    380330640528847300000000000000000; 353415262245091000000000000000000; 308644340080088600000000000000000; 243074248668518400000000000000000; 
    174553780987513400000000000000000; 102861632064523300000000000000000; 40581739866352810000000000000000; 50877471330305450000000000000000; 
    128752031534071500000000000000000; 210039945902355300000000000000000; 285791564773757300000000000000000; 353415262245088600000000000000000; 
    397528893607351800000000000000000; 438440030173812300000000000000000; 466964520683896600000000000000000; 466964520683893600000000000000000; 
    438440030173809300000000000000000; 397528893607353600000000000000000; 353415262245110100000000000000000; 285791564773747400000000000000000; 
    210039945902372000000000000000000; 128752031534084600000000000000000; 50877471330313690000000000000000; 60222186674001720000000000000000; 
    146570905018703500000000000000000; 229087732372445000000000000000000; 309197682357838700000000000000000; 380330640528843300000000000000000; 
    438440030173806400000000000000000; 491920909062500800000000000000000; 511373582196890900000000000000000; 491920909062501300000000000000000; 
    438440030173815400000000000000000; 380330640528881800000000000000000; 309197682357843400000000000000000; 229087732372447600000000000000000; 
    146570905018703200000000000000000; 60222186674005060000000000000000; 66090452835993540000000000000000; 155660841680024600000000000000000; 
    241918329323328700000000000000000; 327460242174547300000000000000000; 402274852336078800000000000000000; 466964520683891300000000000000000; 
    511373582196889500000000000000000; 511373582196889700000000000000000; 466964520683895500000000000000000; 402274852336107200000000000000000; 
    327460242174571000000000000000000; 241918329323338000000000000000000; 155660841680019400000000000000000; 66090452835994490000000000000000; 
    69569741439493670000000000000000; 162397420453901700000000000000000; 253739082354421100000000000000000; 338375357469622000000000000000000; 
    410660553380451200000000000000000; 466964520683893500000000000000000; 491920909062498400000000000000000; 466964520683890000000000000000000; 
    410660553380449700000000000000000; 338375357469631700000000000000000; 253739082354426200000000000000000; 162397420453894100000000000000000; 
    69569741439493860000000000000000; 72141516426713770000000000000000; 167269271871445600000000000000000; 258632627801357000000000000000000; 
    338375357469634000000000000000000; 402274852336108400000000000000000; 438440030173808300000000000000000; 438440030173802200000000000000000; 
    402274852336078500000000000000000; 338375357469622100000000000000000; 258632627801356500000000000000000; 167269271871442000000000000000000; 
    72141516426712810000000000000000; 73238325786811050000000000000000; 167269271871441600000000000000000; 253739082354431100000000000000000; 
    327460242174572700000000000000000; 380330640528882800000000000000000; 397528893607350900000000000000000; 380330640528847100000000000000000; 
    327460242174551000000000000000000; 253739082354425300000000000000000; 167269271871447500000000000000000; 73238325786810820000000000000000; 
    72141516426713670000000000000000; 162397420453895400000000000000000; 241918329323342700000000000000000; 309197682357843500000000000000000; 
    353415262245116900000000000000000; 353415262245096200000000000000000; 309197682357844600000000000000000; 241918329323333900000000000000000; 
    162397420453902300000000000000000; 72141516426713570000000000000000; 69569741439495030000000000000000; 155660841680020400000000000000000; 
    229087732372448900000000000000000; 285791564773748200000000000000000; 308644340080093800000000000000000; 285791564773758200000000000000000; 
    229087732372446200000000000000000; 155660841680022900000000000000000; 69569741439493140000000000000000; 66090452835994800000000000000000; 
    146570905018702700000000000000000; 210039945902369700000000000000000; 243074248668513700000000000000000; 243074248668522100000000000000000; 
    210039945902351500000000000000000; 146570905018701900000000000000000; 66090452835993500000000000000000; 60222186674003890000000000000000; 
    128752031534082600000000000000000; 174553780987507900000000000000000; 192022069985930000000000000000000; 174553780987482600000000000000000; 
    128752031534071700000000000000000; 60222186674002500000000000000000; 50877471330311840000000000000000; 102861632064522100000000000000000; 
    136999479635497600000000000000000; 136999479635504500000000000000000; 102861632064515500000000000000000; 50877471330306550000000000000000; 
    40581739866352520000000000000000; 80857874127426510000000000000000; 95346545117861230000000000000000; 80857874127434080000000000000000; 
    40581739866348860000000000000000; 32023720527661460000000000000000; 56309919618601520000000000000000; 56309919618582600000000000000000; 
    32023720527664710000000000000000; 19816698145066990000000000000000; 30571134430117400000000000000000; 19816698145056770000000000000000; 
    7702153068307515000000000000000; 7702153068313153000000000000000; 4038074242045246000000000000000], 33%nat).
(** vr_quad_data_tri.py: the dictionary triangle_data *)
Definition vr_triangle_data : dec_table :=
  [(0%nat, vr_triangle_data_0); (1%nat, vr_triangle_data_1); (2%nat, vr_triangle_data_2); (3%nat, vr_triangle_data_3); (4%nat, vr_triangle_data_4); 
    (5%nat, vr_triangle_data_5); (6%nat, vr_triangle_data_6); (7%nat, vr_triangle_data_7); (8%nat, vr_triangle_data_8); (9%nat, vr_triangle_data_9); 
    (10%nat, vr_triangle_data_10); (11%nat, vr_triangle_data_11); (12%nat, vr_triangle_data_12); (13%nat, vr_triangle_data_13); 
    (14%nat, vr_triangle_data_14); (15%nat, vr_triangle_data_15); (16%nat, vr_triangle_data_16); (17%nat, vr_triangle_data_17); 
    (18%nat, vr_triangle_data_18); (19%nat, vr_triangle_data_19); (20%nat, vr_triangle_data_20)].

(** Points over 10^34, weights over 10^34. *)
(** vr_quad_data_tet.py:29-37 *)
Definition vr_tetrahedron_data_0 : list (list Z) * list Z * nat :=
  ([[0];
   [0];
   [0]],
   [10000000000000000000000000000000000], 1%nat).
(** vr_quad_data_tet.py:38-66 *)
Definition vr_tetrahedron_data_1 : list (list Z) * list Z * nat :=
  ([[(-4472135954999580000000000000000000); 4472135954999579000000000000000000; (-313528552903543800); (-447847258270485000)];
   [(-2581988897471612000000000000000000); (-2581988897471611000000000000000000); 5163977794943223000000000000000000; (-304021647216552400)];
   [(-1825741858350555000000000000000000); (-1825741858350554000000000000000000); (-1825741858350554000000000000000000); 
    5477225575051660000000000000000000]],
   [2427458858536616000000000000000000; 2427458858536618000000000000000000; 2427458858536617000000000000000000; 2427458858536618000000000000000000], 2%nat).
(** vr_quad_data_tet.py:67-119 *)
Definition vr_tetrahedron_data_2 : list (list Z) * list Z * nat :=
  ([[(-6914363211612446000000000000000000); (-446216735289787600); 6914363211612446000000000000000000; (-3119490417484892000000000000000000); 
    3119490417484893000000000000000000; (-233577842888578100); (-3119490417484893000000000000000000); 3119490417484892000000000000000000; 
    81532549860082660; 76475105163073850];
   [(-3992009461499291000000000000000000); (-3602077264538721000000000000000000); (-3992009461499292000000000000000000); 
    1801038632269361000000000000000000; 1801038632269360000000000000000000; 7984018922998582000000000000000000; (-1801038632269361000000000000000000); 
    (-1801038632269361000000000000000000); 3602077264538721000000000000000000; (-121676791802107800)];
   [(-2822776960787007000000000000000000); (-2547053260113219000000000000000000); (-2822776960787007000000000000000000); 
    (-2547053260113220000000000000000000); (-2547053260113219000000000000000000); (-2822776960787007000000000000000000); 
    2547053260113218000000000000000000; 2547053260113218000000000000000000; 2547053260113218000000000000000000; 8468330882361020000000000000000000]],
   [489557886388712600000000000000000; 1291933981431936000000000000000000; 489557886388712800000000000000000; 1291933981431936000000000000000000; 
    1291933981431936000000000000000000; 489557886388712700000000000000000; 1291933981431937000000000000000000; 1291933981431937000000000000000000; 
    1291933981431937000000000000000000; 489557886388712800000000000000000], 3%nat).
(** vr_quad_data_tet.py:120-212 *)
Definition vr_tetrahedron_data_3 : list (list Z) * list Z * nat :=
  ([[(-7202288316869291000000000000000000); (-2909822974951497000000000000000000); 2909822974951496000000000000000000; 7202288316869292000000000000000000; 
    (-5222022936850983000000000000000000); (-653520774264948700); 5222022936850981000000000000000000; (-2312199961899486000000000000000000); 
    2312199961899486000000000000000000; (-276777613417299000); (-5222022936850983000000000000000000); (-645476169588361100); 
    5222022936850983000000000000000000; (-2389770206927570000000000000000000); 2389770206927570000000000000000000; 201227338607209600; 
    (-2312199961899486000000000000000000); 2312199961899485000000000000000000; (-241555433671389800); (-24092814251968820)];
   [(-4158243098525782000000000000000000); (-4349885618728225000000000000000000); (-4349885618728225000000000000000000); 
    (-4158243098525782000000000000000000); (-345037807459494000000000000000000); (-49553839386919380); (-345037807459493400000000000000000); 
    4694923426187719000000000000000000; 4694923426187719000000000000000000; 8316486197051564000000000000000000; (-3014936348305315000000000000000000); 
    (-2759468944541961000000000000000000); (-3014936348305315000000000000000000); 1379734472270981000000000000000000; 1379734472270980000000000000000000; 
    6029872696610630000000000000000000; (-1334949270422910000000000000000000); (-1334949270422910000000000000000000); 2669898540845821000000000000000000; 
    (-336368381557766400)];
   [(-2940321892789741000000000000000000); (-3075833618388569000000000000000000); (-3075833618388569000000000000000000); 
    (-2940321892789742000000000000000000); (-3075833618388569000000000000000000); (-2926858804738958000000000000000000); 
    (-3075833618388569000000000000000000); (-3075833618388570000000000000000000); (-3075833618388569000000000000000000); 
    (-2940321892789742000000000000000000); 699973108235727200000000000000000; 975619601579652100000000000000000; 699973108235727000000000000000000; 
    975619601579651300000000000000000; 975619601579652600000000000000000; 699973108235727400000000000000000; 5451694128541409000000000000000000; 
    5451694128541410000000000000000000; 5451694128541410000000000000000000; 8820965678369226000000000000000000]],
   [265613431480988400000000000000000; 396437070440556100000000000000000; 396437070440556300000000000000000; 265613431480988400000000000000000; 
    396437070440556100000000000000000; 972534215733959700000000000000000; 396437070440556500000000000000000; 396437070440556200000000000000000; 
    396437070440556200000000000000000; 265613431480988400000000000000000; 396437070440556200000000000000000; 972534215733959800000000000000000; 
    396437070440556400000000000000000; 972534215733959700000000000000000; 972534215733959800000000000000000; 396437070440556300000000000000000; 
    396437070440556500000000000000000; 396437070440556500000000000000000; 396437070440556500000000000000000; 265613431480988300000000000000000], 5%nat).
(** vr_quad_data_tet.py:213-365 *)
Definition vr_tetrahedron_data_4 : list (list Z) * list Z * nat :=
  ([[(-8207249496392203000000000000000000); (-4905447520939444000000000000000000); (-339998658754811200); 4905447520939444000000000000000000; 
    8207249496392203000000000000000000; (-6566414083058262000000000000000000); (-2673296868944482000000000000000000); 2673296868944482000000000000000000; 
    6566414083058260000000000000000000; (-4070188183960818000000000000000000); 262785620510244800; 4070188183960819000000000000000000; 
    (-1660966562118815000000000000000000); 1660966562118814000000000000000000; 657994959992033800; (-6566414083058259000000000000000000); 
    (-2673296868944483000000000000000000); 2673296868944482000000000000000000; 6566414083058259000000000000000000; (-4434924050942820000000000000000000); 
    804731267689445700; 4434924050942820000000000000000000; (-1761627181998338000000000000000000); 1761627181998339000000000000000000; 
    363055031376601300; (-4070188183960819000000000000000000); 512716321267958600; 4070188183960819000000000000000000; 
    (-1761627181998337000000000000000000); 1761627181998338000000000000000000; (-808628515187117900); (-1660966562118814000000000000000000); 
    1660966562118814000000000000000000; 482628533832802200; (-3653226209218861)];
   [(-4738457706048460000000000000000000); (-4750080430218499000000000000000000); (-4699848487324428000000000000000000); 
    (-4750080430218500000000000000000000); (-4738457706048459000000000000000000); (-1873201954955707000000000000000000); 
    (-1543428666908882000000000000000000); (-1543428666908882000000000000000000); (-1873201954955706000000000000000000); 
    2349924243662212000000000000000000; 3086857333817762000000000000000000; 2349924243662213000000000000000000; 6623282385174208000000000000000000; 
    6623282385174206000000000000000000; 9476915412096917000000000000000000; (-3791120938464237000000000000000000); (-3577580522385884000000000000000000); 
    (-3577580522385885000000000000000000); (-3791120938464237000000000000000000); (-526352739170377200000000000000000); (-47162627922015060); 
    (-526352739170378500000000000000000); 4103933261556264000000000000000000; 4103933261556264000000000000000000; 7582241876928472000000000000000000; 
    (-2349924243662212000000000000000000); (-2034151855477005000000000000000000); (-2349924243662212000000000000000000); 
    1017075927738502000000000000000000; 1017075927738503000000000000000000; 4699848487324426000000000000000000; (-958959491754263400000000000000000); 
    (-958959491754264600000000000000000); 1917918983508531000000000000000000; (-267788951587096600)];
   [(-3350595576312518000000000000000000); (-3358814083389016000000000000000000); (-3323294735936438000000000000000000); 
    (-3358814083389015000000000000000000); (-3350595576312518000000000000000000); (-3358814083389014000000000000000000); 
    (-3248912733105464000000000000000000); (-3248912733105465000000000000000000); (-3358814083389013000000000000000000); 
    (-3323294735936440000000000000000000); (-3248912733105463000000000000000000); (-3323294735936440000000000000000000); 
    (-3358814083389014000000000000000000); (-3358814083389016000000000000000000); (-3350595576312518000000000000000000); 
    (-646467045378432500000000000000000); (-372187591163488700000000000000000); (-372187591163489100000000000000000); 
    (-646467045378432300000000000000000); (-372187591163488400000000000000000); 53600512462842520; (-372187591163489400000000000000000); 
    (-372187591163489300000000000000000); (-372187591163489300000000000000000); (-646467045378432700000000000000000); 3323294735936440000000000000000000; 
    3993287915432442000000000000000000; 3323294735936439000000000000000000; 3993287915432441000000000000000000; 3993287915432442000000000000000000; 
    3323294735936438000000000000000000; 7364095212156461000000000000000000; 7364095212156462000000000000000000; 7364095212156461000000000000000000; 
    10051786728937550000000000000000000]],
   [81243489406922120000000000000000; 156561934894987600000000000000000; 213576518530148000000000000000000; 156561934894987600000000000000000; 
    81243489406922130000000000000000; 156561934894987600000000000000000; 444824650218780200000000000000000; 444824650218780100000000000000000; 
    156561934894987600000000000000000; 213576518530148300000000000000000; 444824650218780300000000000000000; 213576518530148200000000000000000; 
    156561934894987500000000000000000; 156561934894987500000000000000000; 81243489406922170000000000000000; 156561934894987600000000000000000; 
    444824650218780300000000000000000; 444824650218780100000000000000000; 156561934894987700000000000000000; 444824650218780200000000000000000; 
    886763343972677600000000000000000; 444824650218780200000000000000000; 444824650218780000000000000000000; 444824650218780000000000000000000; 
    156561934894987600000000000000000; 213576518530148300000000000000000; 444824650218780100000000000000000; 213576518530148400000000000000000; 
    444824650218780300000000000000000; 444824650218780100000000000000000; 213576518530148300000000000000000; 156561934894987600000000000000000; 
    156561934894987500000000000000000; 156561934894987400000000000000000; 81243489406922250000000000000000], 6%nat).
(** vr_quad_data_tet.py:366-602 *)
Definition vr_tetrahedron_data_5 : list (list Z) * list Z * nat :=
  ([[(-8112888656268565000000000000000000); (-6040187271730633000000000000000000); (-2375979740927052000000000000000000); 
    2375979740927050000000000000000000; 6040187271730631000000000000000000; 8112888656268566000000000000000000; (-7339446155024966000000000000000000); 
    (-4059924902854578000000000000000000); (-410789203311774200); 4059924902854579000000000000000000; 7339446155024965000000000000000000; 
    (-5382782139997801000000000000000000); (-1959131554581469000000000000000000); 1959131554581469000000000000000000; 5382782139997802000000000000000000; 
    (-3006802399070749000000000000000000); (-279706174963694600); 3006802399070748000000000000000000; (-1299258883294334000000000000000000); 
    1299258883294332000000000000000000; (-1037315364893751000); (-7339446155024969000000000000000000); (-4059924902854579000000000000000000); 
    554710794726267300; 4059924902854578000000000000000000; 7339446155024968000000000000000000; (-5508378307266485000000000000000000); 
    (-2185033807802497000000000000000000); 2185033807802502000000000000000000; 5508378307266484000000000000000000; (-3448246942440874000000000000000000); 
    508027290251604800; 3448246942440874000000000000000000; (-1448453404411909000000000000000000); 1448453404411910000000000000000000; 
    727754001153028100; (-5382782139997802000000000000000000); (-1959131554581470000000000000000000); 1959131554581470000000000000000000; 
    5382782139997803000000000000000000; (-3448246942440875000000000000000000); (-457291614944654100); 3448246942440877000000000000000000; 
    (-1489115387859404000000000000000000); 1489115387859403000000000000000000; (-480150173781015600); (-3006802399070749000000000000000000); 
    827157485801723300; 3006802399070747000000000000000000; (-1448453404411909000000000000000000); 1448453404411908000000000000000000; 
    (-377848573795560200); (-1299258883294330000000000000000000); 1299258883294337000000000000000000; 3835389774484257000; (-3730374604539777000)];
   [(-4683978449602116000000000000000000); (-4987558679323429000000000000000000); (-4843728892020348000000000000000000); 
    (-4843728892020349000000000000000000); (-4987558679323427000000000000000000); (-4683978449602119000000000000000000); 
    (-2737176281272435000000000000000000); (-2343998735552757000000000000000000); (-2262210260831001000000000000000000); 
    (-2343998735552757000000000000000000); (-2737176281272436000000000000000000); 364205631490179600000000000000000; 1131105130415502000000000000000000; 
    1131105130415502000000000000000000; 364205631490179300000000000000000; 4479523260530169000000000000000000; 4687997471105512000000000000000000; 
    4479523260530170000000000000000000; 7724734960595860000000000000000000; 7724734960595862000000000000000000; 9367956899204237000000000000000000; 
    (-4237431213306430000000000000000000); (-4016528661444447000000000000000000); (-3981692600901086000000000000000000); 
    (-4016528661444448000000000000000000); (-4237431213306427000000000000000000); (-1507733772606912000000000000000000); 
    (-1261529857123204000000000000000000); (-1261529857123207000000000000000000); (-1507733772606911000000000000000000); 
    1990846300450544000000000000000000; 2523059714246410000000000000000000; 1990846300450542000000000000000000; 5524262434051359000000000000000000; 
    5524262434051358000000000000000000; 8474862426612859000000000000000000; (-3107750717516839000000000000000000); (-2850587470485584000000000000000000); 
    (-2850587470485583000000000000000000); (-3107750717516841000000000000000000); (-271363960380459200000000000000000); 402011699369610600; 
    (-271363960380459600000000000000000); 3121951430866044000000000000000000; 3121951430866046000000000000000000; 6215501435033679000000000000000000; 
    (-1735978174503510000000000000000000); (-1672529925891691000000000000000000); (-1735978174503511000000000000000000); 
    836264962945847900000000000000000; 836264962945845200000000000000000; 3471956349007021000000000000000000; (-750127466016996600000000000000000); 
    (-750127466016994900000000000000000); 1500254932033993000000000000000000; (-472701537938559300)];
   [(-3312072924645310000000000000000000); (-3526736563715415000000000000000000); (-3425033545776792000000000000000000); 
    (-3425033545776793000000000000000000); (-3526736563715412000000000000000000); (-3312072924645311000000000000000000); 
    (-3526736563715414000000000000000000); (-3431443279505221000000000000000000); (-3423410650094490000000000000000000); 
    (-3431443279505223000000000000000000); (-3526736563715412000000000000000000); (-3425033545776791000000000000000000); 
    (-3423410650094493000000000000000000); (-3423410650094495000000000000000000); (-3425033545776790000000000000000000); 
    (-3425033545776793000000000000000000); (-3431443279505218000000000000000000); (-3425033545776793000000000000000000); 
    (-3526736563715415000000000000000000); (-3526736563715414000000000000000000); (-3312072924645309000000000000000000); 
    (-1405055691815817000000000000000000); (-1066128774834322000000000000000000); (-991695404506358000000000000000000); 
    (-1066128774834321000000000000000000); (-1405055691815818000000000000000000); (-1066128774834323000000000000000000); 
    (-892036316641113300000000000000000); (-892036316641115900000000000000000); (-1066128774834321000000000000000000); 
    (-991695404506356000000000000000000); (-892036316641113800000000000000000); (-991695404506357600000000000000000); 
    (-1066128774834323000000000000000000); (-1066128774834322000000000000000000); (-1405055691815815000000000000000000); 
    1485054210956309000000000000000000; 2207553027300425000000000000000000; 2207553027300425000000000000000000; 1485054210956309000000000000000000; 
    2207553027300425000000000000000000; 2676108949923344000000000000000000; 2207553027300426000000000000000000; 2207553027300426000000000000000000; 
    2207553027300425000000000000000000; 1485054210956309000000000000000000; 5365012880597274000000000000000000; 5563700829173862000000000000000000; 
    5365012880597272000000000000000000; 5563700829173865000000000000000000; 5563700829173862000000000000000000; 5365012880597272000000000000000000; 
    8458528819246641000000000000000000; 8458528819246650000000000000000000; 8458528819246647000000000000000000; 9936218773935927000000000000000000]],
   [71739069318997870000000000000000; 61122865273950720000000000000000; 132820885450377900000000000000000; 132820885450377800000000000000000; 
    61122865273950970000000000000000; 71739069318997680000000000000000; 61122865273951030000000000000000; 210061289892719400000000000000000; 
    223094296026255400000000000000000; 210061289892719000000000000000000; 61122865273951250000000000000000; 132820885450377900000000000000000; 
    223094296026255400000000000000000; 223094296026255200000000000000000; 132820885450377800000000000000000; 132820885450377800000000000000000; 
    210061289892719100000000000000000; 132820885450377900000000000000000; 61122865273951090000000000000000; 61122865273951210000000000000000; 
    71739069318997600000000000000000; 61122865273950920000000000000000; 210061289892719300000000000000000; 223094296026255200000000000000000; 
    210061289892719100000000000000000; 61122865273951070000000000000000; 210061289892719400000000000000000; 474421779287709100000000000000000; 
    474421779287709400000000000000000; 210061289892719000000000000000000; 223094296026255400000000000000000; 474421779287709400000000000000000; 
    223094296026255600000000000000000; 210061289892719400000000000000000; 210061289892719000000000000000000; 61122865273950890000000000000000; 
    132820885450377800000000000000000; 223094296026255500000000000000000; 223094296026255400000000000000000; 132820885450377700000000000000000; 
    223094296026255100000000000000000; 474421779287709500000000000000000; 223094296026255000000000000000000; 223094296026254900000000000000000; 
    223094296026255200000000000000000; 132820885450377900000000000000000; 132820885450378000000000000000000; 210061289892718900000000000000000; 
    132820885450378000000000000000000; 210061289892719200000000000000000; 210061289892719600000000000000000; 132820885450377700000000000000000; 
    61122865273951280000000000000000; 61122865273951030000000000000000; 61122865273951040000000000000000; 71739069318997640000000000000000], 7%nat).
(** vr_quad_data_tet.py:603-951 *)
Definition vr_tetrahedron_data_6 : list (list Z) * list Z * nat :=
  ([[(-8577347407634100000000000000000000); (-6687889784522106000000000000000000); (-4147999187574764000000000000000000); 241182453887394600; 
    4147999187574755000000000000000000; 6687889784522112000000000000000000; 8577347407634106000000000000000000; (-7794670358070163000000000000000000); 
    (-5304094535941188000000000000000000); (-1878041968448056000000000000000000); 1878041968448058000000000000000000; 5304094535941186000000000000000000; 
    7794670358070160000000000000000000; (-6482331735005599000000000000000000); (-3641463291785968000000000000000000); (-2099607077139752000); 
    3641463291785971000000000000000000; 6482331735005595000000000000000000; (-4442206975038639000000000000000000); (-1763421323337914000000000000000000); 
    1763421323337913000000000000000000; 4442206975038638000000000000000000; (-2334332547430846000000000000000000); (-2282702787589616000); 
    2334332547430846000000000000000000; (-1106780573548052000000000000000000); 1106780573548048000000000000000000; 1912028231363894000; 
    (-7794670358070166000000000000000000); (-5304094535941186000000000000000000); (-1878041968448058000000000000000000); 
    1878041968448056000000000000000000; 5304094535941185000000000000000000; 7794670358070163000000000000000000; (-6464544926272156000000000000000000); 
    (-3951968471311533000000000000000000); (-2212683765669018000); 3951968471311528000000000000000000; 6464544926272154000000000000000000; 
    (-4764751914618191000000000000000000); (-1875953479682656000000000000000000); 1875953479682653000000000000000000; 4764751914618190000000000000000000; 
    (-2886709946170134000000000000000000); (-2615013674270393000); 2886709946170132000000000000000000; (-1160450390330967000000000000000000); 
    1160450390330966000000000000000000; (-1504084845134502000); (-6482331735005597000000000000000000); (-3641463291785971000000000000000000); 
    (-1534257007630181000); 3641463291785971000000000000000000; 6482331735005595000000000000000000; (-4764751914618191000000000000000000); 
    (-1875953479682653000000000000000000); 1875953479682655000000000000000000; 4764751914618188000000000000000000; (-2904471454713604000000000000000000); 
    1256818178631322000; 2904471454713603000000000000000000; (-1123288622832221000000000000000000); 1123288622832221000000000000000000; 
    514095631869132800; (-4442206975038639000000000000000000); (-1763421323337913000000000000000000); 1763421323337914000000000000000000; 
    4442206975038638000000000000000000; (-2886709946170131000000000000000000); 636174139378628300; 2886709946170134000000000000000000; 
    (-1123288622832221000000000000000000); 1123288622832221000000000000000000; (-572043660300488600); (-2334332547430844000000000000000000); 
    (-1714850890316642000); 2334332547430844000000000000000000; (-1160450390330968000000000000000000); 1160450390330967000000000000000000; 
    1290530611686366000; (-1106780573548051000000000000000000); 1106780573548051000000000000000000; (-1393761739716997000); 775137214997572800];
   [(-4952133834730488000000000000000000); (-5139255091548017000000000000000000); (-5090303496819244000000000000000000); 
    (-5129418785669179000000000000000000); (-5090303496819243000000000000000000); (-5139255091548016000000000000000000); 
    (-4952133834730491000000000000000000); (-3222254905332569000000000000000000); (-3062320408132870000000000000000000); 
    (-3120511587480640000000000000000000); (-3120511587480637000000000000000000); (-3062320408132870000000000000000000); 
    (-3222254905332572000000000000000000); (-1047120922907333000000000000000000); (-66176260309029700000000000000000); (-224469094203997000); 
    (-66176260309033820000000000000000); (-1047120922907325000000000000000000); 2564709392834592000000000000000000; 3186687847789669000000000000000000; 
    3186687847789670000000000000000000; 2564709392834591000000000000000000; 6137424419726566000000000000000000; 6124640816265739000000000000000000; 
    6137424419726571000000000000000000; 8361509996880599000000000000000000; 8361509996880592000000000000000000; 9904267669460978000000000000000000; 
    (-4500255029476206000000000000000000); (-4402293098610450000000000000000000); (-4417573565020294000000000000000000); 
    (-4417573565020291000000000000000000); (-4402293098610449000000000000000000); (-4500255029476206000000000000000000); 
    (-2392334062894082000000000000000000); (-2281670060740631000000000000000000); (-2166164492963989000000000000000000); 
    (-2281670060740627000000000000000000); (-2392334062894081000000000000000000); 582354728460793700000000000000000; 1083082246481993000000000000000000; 
    1083082246481995000000000000000000; 582354728460795000000000000000000; 3835218836559498000000000000000000; 4563340121481251000000000000000000; 
    3835218836559496000000000000000000; 6794627161504527000000000000000000; 6794627161504526000000000000000000; 9000510058952405000000000000000000; 
    (-3742575972181937000000000000000000); (-3399461789296423000000000000000000); (-3353794752464966000000000000000000); 
    (-3399461789296425000000000000000000); (-3742575972181934000000000000000000); (-1453868822986943000000000000000000); 
    (-1083082246481995000000000000000000); (-1083082246481995000000000000000000); (-1453868822986941000000000000000000); 
    1676897376232483000000000000000000; 2166164492963991000000000000000000; 1676897376232484000000000000000000; 4853330612283366000000000000000000; 
    4853330612283365000000000000000000; 7485151944363875000000000000000000; (-2564709392834590000000000000000000); (-2315173753263522000000000000000000); 
    (-2315173753263521000000000000000000); (-2564709392834590000000000000000000); (-369580786954043300000000000000000); 1941684044626462000; 
    (-369580786954043900000000000000000); 2684754540217565000000000000000000; 2684754540217565000000000000000000; 5129418785669179000000000000000000; 
    (-1347727524637303000000000000000000); (-1339972690477580000000000000000000); (-1347727524637304000000000000000000); 
    669986345238790500000000000000000; 669986345238790500000000000000000; 2695455049274606000000000000000000; (-639000062071814100000000000000000); 
    (-639000062071813000000000000000000); 1278000124143629000000000000000000; (-2312394128326298000)];
   [(-3501687415881273000000000000000000); (-3634002125481091000000000000000000); (-3599388120898484000000000000000000); 
    (-3627046806892343000000000000000000); (-3599388120898482000000000000000000); (-3634002125481093000000000000000000); 
    (-3501687415881273000000000000000000); (-3634002125481094000000000000000000); (-3586643190818928000000000000000000); 
    (-3582276884185041000000000000000000); (-3582276884185043000000000000000000); (-3586643190818927000000000000000000); 
    (-3634002125481093000000000000000000); (-3599388120898481000000000000000000); (-3582276884185041000000000000000000); 
    (-3557236518263754000000000000000000); (-3582276884185042000000000000000000); (-3599388120898480000000000000000000); 
    (-3627046806892345000000000000000000); (-3582276884185042000000000000000000); (-3582276884185043000000000000000000); 
    (-3627046806892344000000000000000000); (-3599388120898479000000000000000000); (-3586643190818927000000000000000000); 
    (-3599388120898480000000000000000000); (-3634002125481097000000000000000000); (-3634002125481097000000000000000000); 
    (-3501687415881268000000000000000000); (-1826637017202674000000000000000000); (-1691635638735968000000000000000000); 
    (-1747954244309999000000000000000000); (-1747954244309997000000000000000000); (-1691635638735968000000000000000000); 
    (-1826637017202676000000000000000000); (-1691635638735967000000000000000000); (-1613384372380019000000000000000000); 
    (-1531709602140357000000000000000000); (-1613384372380021000000000000000000); (-1691635638735965000000000000000000); 
    (-1747954244309999000000000000000000); (-1531709602140356000000000000000000); (-1531709602140358000000000000000000); 
    (-1747954244309996000000000000000000); (-1747954244309998000000000000000000); (-1613384372380023000000000000000000); 
    (-1747954244309997000000000000000000); (-1691635638735967000000000000000000); (-1691635638735967000000000000000000); 
    (-1826637017202672000000000000000000); 212560966552707900000000000000000; 1131700718170905000000000000000000; 1185745506087918000000000000000000; 
    1131700718170902000000000000000000; 212560966552713200000000000000000; 1131700718170904000000000000000000; 1531709602140356000000000000000000; 
    1531709602140355000000000000000000; 1131700718170902000000000000000000; 1185745506087919000000000000000000; 1531709602140355000000000000000000; 
    1185745506087919000000000000000000; 1131700718170902000000000000000000; 1131700718170905000000000000000000; 212560966552708800000000000000000; 
    3627046806892345000000000000000000; 4198530410324135000000000000000000; 4198530410324136000000000000000000; 3627046806892344000000000000000000; 
    4198530410324136000000000000000000; 4840153117140054000000000000000000; 4198530410324136000000000000000000; 4198530410324137000000000000000000; 
    4198530410324135000000000000000000; 3627046806892346000000000000000000; 6986215275244256000000000000000000; 6969914468290862000000000000000000; 
    6986215275244258000000000000000000; 6969914468290860000000000000000000; 6969914468290858000000000000000000; 6986215275244253000000000000000000; 
    9094641268164864000000000000000000; 9094641268164860000000000000000000; 9094641268164868000000000000000000; 10505062247643810000000000000000000]],
   [34972894243525440000000000000000; 30300442028104650000000000000000; 52601720220422480000000000000000; 65412235348529790000000000000000; 
    52601720220422670000000000000000; 30300442028104880000000000000000; 34972894243525050000000000000000; 30300442028104550000000000000000; 
    102788072616693800000000000000000; 124634774313988600000000000000000; 124634774313988300000000000000000; 102788072616693600000000000000000; 
    30300442028105000000000000000000; 52601720220422880000000000000000; 124634774313988500000000000000000; 178395700465783300000000000000000; 
    124634774313988400000000000000000; 52601720220422880000000000000000; 65412235348529400000000000000000; 124634774313988300000000000000000; 
    124634774313988700000000000000000; 65412235348529440000000000000000; 52601720220422860000000000000000; 102788072616693600000000000000000; 
    52601720220422810000000000000000; 30300442028104710000000000000000; 30300442028104760000000000000000; 34972894243525230000000000000000; 
    30300442028104650000000000000000; 102788072616693600000000000000000; 124634774313988400000000000000000; 124634774313988500000000000000000; 
    102788072616693700000000000000000; 30300442028104890000000000000000; 102788072616693800000000000000000; 240588921764925300000000000000000; 
    333378255985689900000000000000000; 240588921764925500000000000000000; 102788072616694000000000000000000; 124634774313988700000000000000000; 
    333378255985690100000000000000000; 333378255985690100000000000000000; 124634774313988600000000000000000; 124634774313988300000000000000000; 
    240588921764925600000000000000000; 124634774313988600000000000000000; 102788072616693700000000000000000; 102788072616694000000000000000000; 
    30300442028104730000000000000000; 52601720220422850000000000000000; 124634774313988300000000000000000; 178395700465783600000000000000000; 
    124634774313988300000000000000000; 52601720220422850000000000000000; 124634774313988500000000000000000; 333378255985690300000000000000000; 
    333378255985690300000000000000000; 124634774313988400000000000000000; 178395700465783400000000000000000; 333378255985690300000000000000000; 
    178395700465783200000000000000000; 124634774313988700000000000000000; 124634774313988500000000000000000; 52601720220422770000000000000000; 
    65412235348529470000000000000000; 124634774313988700000000000000000; 124634774313988900000000000000000; 65412235348529520000000000000000; 
    124634774313988500000000000000000; 240588921764925800000000000000000; 124634774313988400000000000000000; 124634774313988400000000000000000; 
    124634774313988200000000000000000; 65412235348529650000000000000000; 52601720220422670000000000000000; 102788072616693800000000000000000; 
    52601720220422590000000000000000; 102788072616693600000000000000000; 102788072616693800000000000000000; 52601720220422770000000000000000; 
    30300442028104730000000000000000; 30300442028104820000000000000000; 30300442028104830000000000000000; 34972894243525210000000000000000], 9%nat).
(** vr_quad_data_tet.py:952-1444 *)
Definition vr_tetrahedron_data_7 : list (list Z) * list Z * nat :=
  ([[(-9223551004279220000000000000000000); (-7223366783841648000000000000000000); (-5128523868358545000000000000000000); 
    (-2157318049213586000000000000000000); 2157318049213577000000000000000000; 5128523868358534000000000000000000; 7223366783841663000000000000000000; 
    9223551004279245000000000000000000; (-8082038093669254000000000000000000); (-6163163542315515000000000000000000); 
    (-3152788022829639000000000000000000); (-4296091137207246000); 3152788022829633000000000000000000; 6163163542315515000000000000000000; 
    8082038093669250000000000000000000; (-7023591766066746000000000000000000); (-4542246160156309000000000000000000); 
    (-1503585815913811000000000000000000); 1503585815913807000000000000000000; 4542246160156315000000000000000000; 7023591766066749000000000000000000; 
    (-5631992424023121000000000000000000); (-3167956935940198000000000000000000); 3124347421479945000; 3167956935940195000000000000000000; 
    5631992424023115000000000000000000; (-3474674374809546000000000000000000); (-1389458137326690000000000000000000); 1389458137326693000000000000000000; 
    3474674374809551000000000000000000; (-1895067897708215000000000000000000); (-5085139710592270000); 1895067897708209000000000000000000; 
    (-858671309827574100000000000000000); 858671309827576500000000000000000; 1285444234099701000; (-8082038093669249000000000000000000); 
    (-6163163542315518000000000000000000); (-3152788022829635000000000000000000); (-8730405794292767000); 3152788022829636000000000000000000; 
    6163163542315519000000000000000000; 8082038093669255000000000000000000; (-7146294276813617000000000000000000); (-4976647108982425000000000000000000); 
    (-1655476329309719000000000000000000); 1655476329309714000000000000000000; 4976647108982434000000000000000000; 7146294276813617000000000000000000; 
    (-5537863145619202000000000000000000); (-3193705552342029000000000000000000); (-683248435881842400); 3193705552342023000000000000000000; 
    5537863145619198000000000000000000; (-4048861453560488000000000000000000); (-1538229223032315000000000000000000); 1538229223032326000000000000000000; 
    4048861453560491000000000000000000; (-2385075122789581000000000000000000); 5333911354317198000; 2385075122789586000000000000000000; 
    (-983130734498080300000000000000000); 983130734498085900000000000000000; (-2190675334206966000); (-7023591766066752000000000000000000); 
    (-4542246160156310000000000000000000); (-1503585815913813000000000000000000); 1503585815913811000000000000000000; 4542246160156319000000000000000000; 
    7023591766066744000000000000000000; (-5537863145619211000000000000000000); (-3193705552342027000000000000000000); (-411016839520162000); 
    3193705552342019000000000000000000; 5537863145619211000000000000000000; (-3983107316598014000000000000000000); (-1568442573170829000000000000000000); 
    1568442573170836000000000000000000; 3983107316598018000000000000000000; (-2479521500684200000000000000000000); (-591733403523205900); 
    2479521500684202000000000000000000; (-995616985462891300000000000000000); 995616985462888200000000000000000; 250915972648191800; 
    (-5631992424023114000000000000000000); (-3167956935940195000000000000000000); (-2066848605380875000); 3167956935940188000000000000000000; 
    5631992424023123000000000000000000; (-4048861453560490000000000000000000); (-1538229223032318000000000000000000); 1538229223032323000000000000000000; 
    4048861453560490000000000000000000; (-2479521500684206000000000000000000); 3977529497345564000; 2479521500684204000000000000000000; 
    (-880904517620295900000000000000000); 880904517620295900000000000000000; (-1129354043194182000); (-3474674374809548000000000000000000); 
    (-1389458137326690000000000000000000); 1389458137326693000000000000000000; 3474674374809545000000000000000000; (-2385075122789575000000000000000000); 
    4923238386096424000; 2385075122789582000000000000000000; (-995616985462890700000000000000000); 995616985462893100000000000000000; 
    1613159204525424000; (-1895067897708226000000000000000000); 3794271657455067000; 1895067897708225000000000000000000; 
    (-983130734498084700000000000000000); 983130734498082100000000000000000; (-2639427257266701000); (-858671309827567100000000000000000); 
    858671309827577800000000000000000; (-348204666210292900); 197702281544952400];
   [(-5325219655204851000000000000000000); (-5161920980855138000000000000000000); (-5149190557691138000000000000000000); 
    (-5257736527726266000000000000000000); (-5257736527726264000000000000000000); (-5149190557691141000000000000000000); 
    (-5161920980855123000000000000000000); (-5325219655204863000000000000000000); (-3674658645232039000000000000000000); 
    (-3558304130215583000000000000000000); (-3424671072905089000000000000000000); (-3658041579492418000000000000000000); 
    (-3424671072905087000000000000000000); (-3558304130215568000000000000000000); (-3674658645232041000000000000000000); 
    (-1866836675067773000000000000000000); (-1018058984065232000000000000000000); (-868095675567547900000000000000000); 
    (-868095675567545100000000000000000); (-1018058984065237000000000000000000); (-1866836675067758000000000000000000); 
    760576029201490900000000000000000; 1829020789746216000000000000000000; 1736191351135079000000000000000000; 1829020789746222000000000000000000; 
    760576029201496100000000000000000; 4497160498524773000000000000000000; 4442730056970297000000000000000000; 4442730056970296000000000000000000; 
    4497160498524770000000000000000000; 7016027232758894000000000000000000; 7116608260431103000000000000000000; 7016027232758892000000000000000000; 
    8836579626087155000000000000000000; 8836579626087154000000000000000000; 10650439310409730000000000000000000; (-4666166868980759000000000000000000); 
    (-4693525718637681000000000000000000); (-4574310542038610000000000000000000); (-4675222500249283000000000000000000); 
    (-4574310542038606000000000000000000); (-4693525718637683000000000000000000); (-4666166868980758000000000000000000); 
    (-2990693336004484000000000000000000); (-2873268548032756000000000000000000); (-2731983816350134000000000000000000); 
    (-2731983816350125000000000000000000); (-2873268548032767000000000000000000); (-2990693336004486000000000000000000); 
    (-443239249498462900000000000000000); (-67692648370971060000000000000000); 4486846482284115000; (-67692648370964670000000000000000); 
    (-443239249498462500000000000000000); 2337611250124636000000000000000000; 2799676464721086000000000000000000; 2799676464721087000000000000000000; 
    2337611250124641000000000000000000; 5017549791537075000000000000000000; 5746537096065563000000000000000000; 5017549791537071000000000000000000; 
    7684219054642180000000000000000000; 7684219054642179000000000000000000; 9332333737961510000000000000000000; (-4055072596816681000000000000000000); 
    (-3772106512425324000000000000000000); (-3731200487330528000000000000000000); (-3731200487330526000000000000000000); 
    (-3772106512425323000000000000000000); (-4055072596816677000000000000000000); (-2047647308725034000000000000000000); 
    (-1843886760357077000000000000000000); (-1811081483657299000000000000000000); (-1843886760357074000000000000000000); 
    (-2047647308725039000000000000000000); 563456730313950900000000000000000; 905540741828647900000000000000000; 905540741828648200000000000000000; 
    563456730313948700000000000000000; 3167743757016580000000000000000000; 3687773520714154000000000000000000; 3167743757016582000000000000000000; 
    5819753821150355000000000000000000; 5819753821150357000000000000000000; 8110145193633349000000000000000000; (-3251632342083681000000000000000000); 
    (-2846201710503081000000000000000000); (-2863104811762985000000000000000000); (-2846201710503082000000000000000000); 
    (-3251632342083688000000000000000000); (-1320430329367787000000000000000000); (-888097055993057500000000000000000); 
    (-888097055993051900000000000000000); (-1320430329367784000000000000000000); 1431552405881496000000000000000000; 1776194111986113000000000000000000; 
    1431552405881494000000000000000000; 4166632039870861000000000000000000; 4166632039870862000000000000000000; 6503264684167376000000000000000000; 
    (-2006104185642586000000000000000000); (-1951843498746808000000000000000000); (-1951843498746806000000000000000000); 
    (-2006104185642581000000000000000000); (-227384295046510700000000000000000); (-5379838119796143000); (-227384295046512700000000000000000); 
    2179227793793320000000000000000000; 2179227793793325000000000000000000; 4012208371285153000000000000000000; (-1094117960874461000000000000000000); 
    (-1135221588422145000000000000000000); (-1094117960874469000000000000000000); 567610794211078400000000000000000; 567610794211075200000000000000000; 
    2188235921748915000000000000000000; (-495754111874353000000000000000000); (-495754111874352400000000000000000); 991508223748738000000000000000000; 
    2540767844190894000];
   [(-3765498929503238000000000000000000); (-3650029329511783000000000000000000); (-3641027560965143000000000000000000); 
    (-3717781152447454000000000000000000); (-3717781152447449000000000000000000); (-3641027560965152000000000000000000); 
    (-3650029329511763000000000000000000); (-3765498929503250000000000000000000); (-3650029329511772000000000000000000); 
    (-3720185304983482000000000000000000); (-3640984935800617000000000000000000); (-3665509296862581000000000000000000); 
    (-3640984935800614000000000000000000); (-3720185304983494000000000000000000); (-3650029329511764000000000000000000); 
    (-3641027560965139000000000000000000); (-3640984935800626000000000000000000); (-3650617580380684000000000000000000); 
    (-3650617580380682000000000000000000); (-3640984935800626000000000000000000); (-3641027560965142000000000000000000); 
    (-3717781152447452000000000000000000); (-3665509296862574000000000000000000); (-3650617580380682000000000000000000); 
    (-3665509296862570000000000000000000); (-3717781152447453000000000000000000); (-3717781152447457000000000000000000); 
    (-3640984935800619000000000000000000); (-3640984935800619000000000000000000); (-3717781152447455000000000000000000); 
    (-3641027560965135000000000000000000); (-3720185304983501000000000000000000); (-3641027560965143000000000000000000); 
    (-3650029329511764000000000000000000); (-3650029329511760000000000000000000); (-3765498929503248000000000000000000); 
    (-2247824952281867000000000000000000); (-2114739538338215000000000000000000); (-2015149206712589000000000000000000); 
    (-2226998243341052000000000000000000); (-2015149206712583000000000000000000); (-2114739538338195000000000000000000); 
    (-2247824952281853000000000000000000); (-2114739538338184000000000000000000); (-2031707674483985000000000000000000); 
    (-1931804282633083000000000000000000); (-1931804282633076000000000000000000); (-2031707674483997000000000000000000); 
    (-2114739538338180000000000000000000); (-2015149206712575000000000000000000); (-1931804282633086000000000000000000); 
    (-1920941997563194000000000000000000); (-1931804282633082000000000000000000); (-2015149206712575000000000000000000); 
    (-2226998243341063000000000000000000); (-1931804282633076000000000000000000); (-1931804282633069000000000000000000); 
    (-2226998243341062000000000000000000); (-2015149206712573000000000000000000); (-2031707674484007000000000000000000); 
    (-2015149206712576000000000000000000); (-2114739538338179000000000000000000); (-2114739538338178000000000000000000); 
    (-2247824952281845000000000000000000); (-546394642755835600000000000000000); 253826430226316300000000000000000; 398424074910187400000000000000000; 
    398424074910192600000000000000000; 253826430226313000000000000000000; (-546394642755841400000000000000000); 253826430226327400000000000000000; 
    580113519944919500000000000000000; 640313999187738500000000000000000; 580113519944923200000000000000000; 253826430226332300000000000000000; 
    398424074910193700000000000000000; 640313999187734800000000000000000; 640313999187731200000000000000000; 398424074910195600000000000000000; 
    398424074910198100000000000000000; 580113519944922200000000000000000; 398424074910196000000000000000000; 253826430226320000000000000000000; 
    253826430226328000000000000000000; (-546394642755849900000000000000000); 1956338341290903000000000000000000; 2946253770101824000000000000000000; 
    2853769430560289000000000000000000; 2946253770101820000000000000000000; 1956338341290895000000000000000000; 2946253770101813000000000000000000; 
    3283495045321227000000000000000000; 3283495045321234000000000000000000; 2946253770101805000000000000000000; 2853769430560299000000000000000000; 
    3283495045321242000000000000000000; 2853769430560302000000000000000000; 2946253770101813000000000000000000; 2946253770101804000000000000000000; 
    1956338341290884000000000000000000; 5479223963604010000000000000000000; 5402307712286866000000000000000000; 5402307712286869000000000000000000; 
    5479223963604006000000000000000000; 5402307712286877000000000000000000; 6095123023452018000000000000000000; 5402307712286883000000000000000000; 
    5402307712286876000000000000000000; 5402307712286880000000000000000000; 5479223963604018000000000000000000; 7828449764686094000000000000000000; 
    7949664381659878000000000000000000; 7828449764686101000000000000000000; 7949664381659881000000000000000000; 7949664381659884000000000000000000; 
    7828449764686115000000000000000000; 9547883611305407000000000000000000; 9547883611305404000000000000000000; 9547883611305394000000000000000000; 
    11296496788509770000000000000000000]],
   [8928518513884954000000000000000; 27284617909867350000000000000000; 26985741634666560000000000000000; 38192759870165930000000000000000; 
    38192759870165980000000000000000; 26985741634666890000000000000000; 27284617909868770000000000000000; 8928518513884499000000000000000; 
    27284617909868480000000000000000; 47724501619579710000000000000000; 82855310278338920000000000000000; 76287090025470670000000000000000; 
    82855310278339550000000000000000; 47724501619578480000000000000000; 27284617909869120000000000000000; 26985741634668890000000000000000; 
    82855310278339440000000000000000; 93821542527407190000000000000000; 93821542527407640000000000000000; 82855310278339370000000000000000; 
    26985741634668430000000000000000; 38192759870165400000000000000000; 76287090025470650000000000000000; 93821542527407800000000000000000; 
    76287090025471290000000000000000; 38192759870165380000000000000000; 38192759870165430000000000000000; 82855310278339470000000000000000; 
    82855310278339240000000000000000; 38192759870165250000000000000000; 26985741634668590000000000000000; 47724501619578100000000000000000; 
    26985741634668740000000000000000; 27284617909868870000000000000000; 27284617909868840000000000000000; 8928518513884492000000000000000; 
    27284617909868620000000000000000; 47724501619579580000000000000000; 82855310278338440000000000000000; 76287090025471060000000000000000; 
    82855310278339610000000000000000; 47724501619578370000000000000000; 27284617909868540000000000000000; 47724501619578220000000000000000; 
    153449560937816800000000000000000; 180028683644055000000000000000000; 180028683644054500000000000000000; 153449560937818000000000000000000; 
    47724501619577800000000000000000; 82855310278339220000000000000000; 180028683644053200000000000000000; 226537851139782300000000000000000; 
    180028683644053100000000000000000; 82855310278340370000000000000000; 76287090025470970000000000000000; 180028683644055300000000000000000; 
    180028683644054300000000000000000; 76287090025469720000000000000000; 82855310278339900000000000000000; 153449560937818600000000000000000; 
    82855310278339680000000000000000; 47724501619577800000000000000000; 47724501619577820000000000000000; 27284617909868300000000000000000; 
    26985741634668190000000000000000; 82855310278339970000000000000000; 93821542527406820000000000000000; 93821542527406720000000000000000; 
    82855310278339490000000000000000; 26985741634667770000000000000000; 82855310278338620000000000000000; 180028683644052800000000000000000; 
    226537851139781800000000000000000; 180028683644053400000000000000000; 82855310278338850000000000000000; 93821542527408360000000000000000; 
    226537851139783100000000000000000; 226537851139781800000000000000000; 93821542527407820000000000000000; 93821542527406810000000000000000; 
    180028683644053700000000000000000; 93821542527406880000000000000000; 82855310278338580000000000000000; 82855310278338390000000000000000; 
    26985741634667540000000000000000; 38192759870165470000000000000000; 76287090025470120000000000000000; 93821542527407300000000000000000; 
    76287090025470750000000000000000; 38192759870165460000000000000000; 76287090025471320000000000000000; 180028683644054400000000000000000; 
    180028683644053700000000000000000; 76287090025471110000000000000000; 93821542527406690000000000000000; 180028683644054900000000000000000; 
    93821542527406890000000000000000; 76287090025470780000000000000000; 76287090025470730000000000000000; 38192759870165740000000000000000; 
    38192759870165160000000000000000; 82855310278340120000000000000000; 82855310278339720000000000000000; 38192759870165660000000000000000; 
    82855310278340130000000000000000; 153449560937818800000000000000000; 82855310278339290000000000000000; 82855310278339370000000000000000; 
    82855310278338860000000000000000; 38192759870166490000000000000000; 26985741634668520000000000000000; 47724501619577210000000000000000; 
    26985741634667970000000000000000; 47724501619577510000000000000000; 47724501619577820000000000000000; 26985741634667180000000000000000; 
    27284617909869580000000000000000; 27284617909869340000000000000000; 27284617909868760000000000000000; 8928518513884023000000000000000], 10%nat).
(** vr_quad_data_tet.py:1445-2117 *)
Definition vr_tetrahedron_data_8 : list (list Z) * list Z * nat :=
  ([[(-8953158689081910000000000000000000); (-7888643809639553000000000000000000); (-6321612859079181000000000000000000); 
    (-3131994208769926000000000000000000); 2811428088761160000; 3131994208769926000000000000000000; 6321612859079193000000000000000000; 
    7888643809639549000000000000000000; 8953158689081908000000000000000000; (-8466564327488375000000000000000000); (-6830576218509568000000000000000000); 
    (-4687426154655973000000000000000000); (-1614432627798252000000000000000000); 1614432627798251000000000000000000; 4687426154655971000000000000000000; 
    6830576218509541000000000000000000; 8466564327488372000000000000000000; (-7780136540897251000000000000000000); (-5704063920163248000000000000000000); 
    (-3033643570996020000000000000000000); 1661932656601236000; 3033643570996014000000000000000000; 5704063920163250000000000000000000; 
    7780136540897250000000000000000000; (-6079015814142359000000000000000000); (-4153371410495298000000000000000000); 
    (-1365908236757415000000000000000000); 1365908236757413000000000000000000; 4153371410495294000000000000000000; 6079015814142360000000000000000000; 
    (-4724952683622715000000000000000000); (-2538938782697047000000000000000000); 411492473258610000; 2538938782697047000000000000000000; 
    4724952683622712000000000000000000; (-2947021605372432000000000000000000); (-1016637765507277000000000000000000); 1016637765507277000000000000000000; 
    2947021605372432000000000000000000; (-1458523681818065000000000000000000); (-2709635734318579000); 1458523681818081000000000000000000; 
    (-577920517848821100000000000000000); 577920517848837400000000000000000; (-4203547358126597000); (-8466564327488366000000000000000000); 
    (-6830576218509547000000000000000000); (-4687426154655976000000000000000000); (-1614432627798252000000000000000000); 
    1614432627798254000000000000000000; 4687426154655969000000000000000000; 6830576218509554000000000000000000; 8466564327488387000000000000000000; 
    (-7695539132993963000000000000000000); (-5972549259770307000000000000000000); (-2766926232436492000000000000000000); (-28380642159179290); 
    2766926232436492000000000000000000; 5972549259770316000000000000000000; 7695539132993976000000000000000000; (-6472829098025556000000000000000000); 
    (-4040790613524974000000000000000000); (-1377341761844062000000000000000000); 1377341761844063000000000000000000; 4040790613524976000000000000000000; 
    6472829098025554000000000000000000; (-4959219934777450000000000000000000); (-2763095025399597000000000000000000); 2550898741907970000; 
    2763095025399595000000000000000000; 4959219934777451000000000000000000; (-3344787306979198000000000000000000); (-1273864381088486000000000000000000); 
    1273864381088483000000000000000000; 3344787306979198000000000000000000; (-1785402943369587000000000000000000); 898796677955718400; 
    1785402943369585000000000000000000; (-864962914484408200000000000000000); 864962914484397200000000000000000; (-17634588536121070000); 
    (-7780136540897252000000000000000000); (-5704063920163247000000000000000000); (-3033643570996016000000000000000000); (-461912362351506800); 
    3033643570996014000000000000000000; 5704063920163251000000000000000000; 7780136540897239000000000000000000; (-6472829098025557000000000000000000); 
    (-4040790613524974000000000000000000); (-1377341761844064000000000000000000); 1377341761844064000000000000000000; 4040790613524973000000000000000000; 
    6472829098025557000000000000000000; (-5056002536991157000000000000000000); (-2820434058229077000000000000000000); 772818021714309200; 
    2820434058229079000000000000000000; 5056002536991161000000000000000000; (-3508756896635370000000000000000000); (-1443092296385013000000000000000000); 
    1443092296385015000000000000000000; 3508756896635370000000000000000000; (-2022358965995142000000000000000000); (-448403998708991700); 
    2022358965995140000000000000000000; (-768765177862310400000000000000000); 768765177862310400000000000000000; 891628660399739400; 
    (-6079015814142359000000000000000000); (-4153371410495298000000000000000000); (-1365908236757414000000000000000000); 
    1365908236757415000000000000000000; 4153371410495294000000000000000000; 6079015814142363000000000000000000; (-4959219934777449000000000000000000); 
    (-2763095025399595000000000000000000); 882005301089818800; 2763095025399595000000000000000000; 4959219934777449000000000000000000; 
    (-3508756896635369000000000000000000); (-1443092296385013000000000000000000); 1443092296385013000000000000000000; 3508756896635369000000000000000000; 
    (-2142848659877956000000000000000000); 3417483826325515000; 2142848659877956000000000000000000; (-805848524282151400000000000000000); 
    805848524282152700000000000000000; 799299838170098900; (-4724952683622717000000000000000000); (-2538938782697047000000000000000000); 
    1838763120018063000; 2538938782697046000000000000000000; 4724952683622710000000000000000000; (-3344787306979200000000000000000000); 
    (-1273864381088485000000000000000000); 1273864381088485000000000000000000; 3344787306979198000000000000000000; (-2022358965995140000000000000000000); 
    1750871913796980000; 2022358965995142000000000000000000; (-805848524282152100000000000000000); 805848524282152500000000000000000; 62818417899696120; 
    (-2947021605372432000000000000000000); (-1016637765507275000000000000000000); 1016637765507278000000000000000000; 2947021605372431000000000000000000; 
    (-1785402943369584000000000000000000); (-1731463777929788000); 1785402943369586000000000000000000; (-768765177862309400000000000000000); 
    768765177862308400000000000000000; (-799845493362124100); (-1458523681818067000000000000000000); (-3689174122508912000); 
    1458523681818069000000000000000000; (-864962914484408000000000000000000); 864962914484402200000000000000000; (-328843231538166500); 
    (-577920517848823200000000000000000); 577920517848826700000000000000000; (-3610112033628794000); (-1494143292610188000)];
   [(-5169108579238874000000000000000000); (-5221835760136930000000000000000000); (-5333942966536176000000000000000000); 
    (-5211185133872499000000000000000000); (-5455905407595639000000000000000000); (-5211185133872499000000000000000000); 
    (-5333942966536183000000000000000000); (-5221835760136902000000000000000000); (-5169108579238880000000000000000000); 
    (-4220848060486238000000000000000000); (-3943635018476749000000000000000000); (-3880198927365046000000000000000000); 
    (-3863807091540075000000000000000000); (-3863807091540079000000000000000000); (-3880198927365050000000000000000000); 
    (-3943635018476747000000000000000000); (-4220848060486241000000000000000000); (-2807705845584859000000000000000000); 
    (-2119330664613154000000000000000000); (-1751474932339930000000000000000000); (-1577214976360441000000000000000000); 
    (-1751474932339924000000000000000000); (-2119330664613152000000000000000000); (-2807705845584857000000000000000000); 
    (-106793982364249900000000000000000); 533763877398284500000000000000000; 788607488180221400000000000000000; 788607488180218600000000000000000; 
    533763877398284500000000000000000; (-106793982364251900000000000000000); 2727952703797820000000000000000000; 3330043214141794000000000000000000; 
    3502949864679856000000000000000000; 3330043214141787000000000000000000; 2727952703797817000000000000000000; 5317979116236747000000000000000000; 
    5999529591978199000000000000000000; 5999529591978204000000000000000000; 5317979116236753000000000000000000; 8141648812121049000000000000000000; 
    7887270036953496000000000000000000; 8141648812121014000000000000000000; 9442683820623158000000000000000000; 9442683820623173000000000000000000; 
    10338217158477750000000000000000000; (-4888173193586698000000000000000000); (-4942408161509975000000000000000000); 
    (-4767892492129879000000000000000000); (-4794320816380801000000000000000000); (-4794320816380803000000000000000000); 
    (-4767892492129875000000000000000000); (-4942408161509986000000000000000000); (-4888173193586707000000000000000000); 
    (-3444248446960134000000000000000000); (-3448252922876687000000000000000000); (-3068417491790068000000000000000000); 
    (-3190547313421944000000000000000000); (-3068417491790070000000000000000000); (-3448252922876691000000000000000000); 
    (-3444248446960141000000000000000000); (-1675483882230740000000000000000000); (-862019661792532900000000000000000); 
    (-795208636966782800000000000000000); (-795208636966783200000000000000000); (-862019661792534100000000000000000); 
    (-1675483882230736000000000000000000); 999020739818649000000000000000000; 1595273656710975000000000000000000; 1590417273933566000000000000000000; 
    1595273656710972000000000000000000; 999020739818648100000000000000000; 3795300076562155000000000000000000; 3930437153582605000000000000000000; 
    3930437153582602000000000000000000; 3795300076562152000000000000000000; 6443376374360619000000000000000000; 6896505845753373000000000000000000; 
    6443376374360614000000000000000000; 8386656608470093000000000000000000; 8386656608470136000000000000000000; 9776346387173395000000000000000000; 
    (-4491863926219073000000000000000000); (-4180936404545914000000000000000000); (-4086693919170623000000000000000000); 
    (-4051563477586773000000000000000000); (-4086693919170625000000000000000000); (-4180936404545913000000000000000000); 
    (-4491863926219064000000000000000000); (-2849396057398668000000000000000000); (-2332951548457559000000000000000000); 
    (-2461548088533510000000000000000000); (-2461548088533509000000000000000000); (-2332951548457557000000000000000000); 
    (-2849396057398668000000000000000000); (-583865438924579700000000000000000); 37961088816580040000000000000000; 1690912202446459000; 
    37961088816580130000000000000000; (-583865438924581400000000000000000); 2025781738793391000000000000000000; 2423586999716929000000000000000000; 
    2423586999716929000000000000000000; 2025781738793386000000000000000000; 4670559358095198000000000000000000; 4665903096915113000000000000000000; 
    4670559358095211000000000000000000; 7030332461944585000000000000000000; 7030332461944575000000000000000000; 8983727852438142000000000000000000; 
    (-3509721416703083000000000000000000); (-3328463826734682000000000000000000); (-3262955989406555000000000000000000); 
    (-3262955989406553000000000000000000); (-3328463826734680000000000000000000); (-3509721416703087000000000000000000); 
    (-1932693239473593000000000000000000); (-1595273656710975000000000000000000); (-1666339451566725000000000000000000); 
    (-1595273656710967000000000000000000); (-1932693239473593000000000000000000); 448566762432946600000000000000000; 833169725783364500000000000000000; 
    833169725783363600000000000000000; 448566762432948400000000000000000; 2814389226973609000000000000000000; 3190547313421942000000000000000000; 
    2814389226973605000000000000000000; 5261157066208272000000000000000000; 5261157066208275000000000000000000; 7019442833406166000000000000000000; 
    (-2727952703797821000000000000000000); (-2396370714486847000000000000000000); (-2335218986830696000000000000000000); 
    (-2396370714486846000000000000000000); (-2727952703797815000000000000000000); (-1000600127225759000000000000000000); 
    (-735465943332509700000000000000000); (-735465943332509700000000000000000); (-1000600127225755000000000000000000); 
    1167609493415351000000000000000000; 1470931886665023000000000000000000; 1167609493415348000000000000000000; 3396970841712601000000000000000000; 
    3396970841712605000000000000000000; 5455905407595638000000000000000000; (-1701463717169417000000000000000000); (-1474649652348795000000000000000000); 
    (-1474649652348794000000000000000000); (-1701463717169416000000000000000000); (-143109305201549300000000000000000); (-94620812842706850); 
    (-143109305201550100000000000000000); 1617758957550346000000000000000000; 1617758957550345000000000000000000; 3402927434338834000000000000000000; 
    (-842079040317105500000000000000000); (-998773143033232900000000000000000); (-842079040317104600000000000000000); 499386571516615500000000000000000; 
    499386571516617600000000000000000; 1684158080634210000000000000000000; (-333662566550224500000000000000000); (-333662566550234100000000000000000); 
    667325133100462900000000000000000; 1666315056143941000];
   [(-3655111729069371000000000000000000); (-3692395476235224000000000000000000); (-3771667242100020000000000000000000); 
    (-3684864346179772000000000000000000); (-3857907711223230000000000000000000); (-3684864346179770000000000000000000); 
    (-3771667242100024000000000000000000); (-3692395476235216000000000000000000); (-3655111729069377000000000000000000); 
    (-3692395476235228000000000000000000); (-3847929957548343000000000000000000); (-3685256182783900000000000000000000); 
    (-3719083042857705000000000000000000); (-3719083042857707000000000000000000); (-3685256182783901000000000000000000); 
    (-3847929957548340000000000000000000); (-3692395476235232000000000000000000); (-3771667242100020000000000000000000); 
    (-3685256182783900000000000000000000); (-3715353573451158000000000000000000); (-3739702311527315000000000000000000); 
    (-3715353573451156000000000000000000); (-3685256182783904000000000000000000); (-3771667242100022000000000000000000); 
    (-3684864346179771000000000000000000); (-3719083042857705000000000000000000); (-3739702311527314000000000000000000); 
    (-3739702311527315000000000000000000); (-3719083042857705000000000000000000); (-3684864346179771000000000000000000); 
    (-3857907711223230000000000000000000); (-3719083042857707000000000000000000); (-3715353573451158000000000000000000); 
    (-3719083042857705000000000000000000); (-3857907711223228000000000000000000); (-3684864346179770000000000000000000); 
    (-3685256182783900000000000000000000); (-3685256182783901000000000000000000); (-3684864346179771000000000000000000); 
    (-3771667242100023000000000000000000); (-3847929957548339000000000000000000); (-3771667242100020000000000000000000); 
    (-3692395476235219000000000000000000); (-3692395476235250000000000000000000); (-3655111729069367000000000000000000); 
    (-2748655222492140000000000000000000); (-2435451432936739000000000000000000); (-2429867904262157000000000000000000); 
    (-2403137913213643000000000000000000); (-2403137913213644000000000000000000); (-2429867904262158000000000000000000); 
    (-2435451432936749000000000000000000); (-2748655222492123000000000000000000); (-2435451432936742000000000000000000); 
    (-2438283025012439000000000000000000); (-2169698815956174000000000000000000); (-2256057641017182000000000000000000); 
    (-2169698815956177000000000000000000); (-2438283025012440000000000000000000); (-2435451432936755000000000000000000); 
    (-2429867904262159000000000000000000); (-2169698815956175000000000000000000); (-2329717308599582000000000000000000); 
    (-2329717308599579000000000000000000); (-2169698815956176000000000000000000); (-2429867904262157000000000000000000); 
    (-2403137913213643000000000000000000); (-2256057641017179000000000000000000); (-2329717308599582000000000000000000); 
    (-2256057641017175000000000000000000); (-2403137913213644000000000000000000); (-2403137913213643000000000000000000); 
    (-2169698815956177000000000000000000); (-2169698815956175000000000000000000); (-2403137913213642000000000000000000); 
    (-2429867904262159000000000000000000); (-2438283025012437000000000000000000); (-2429867904262159000000000000000000); 
    (-2435451432936737000000000000000000); (-2435451432936754000000000000000000); (-2748655222492131000000000000000000); 
    (-1389908043286878000000000000000000); (-769705385104772500000000000000000); (-412855211164028800000000000000000); 
    (-240445103055493100000000000000000); (-412855211164030400000000000000000); (-769705385104771900000000000000000); 
    (-1389908043286864000000000000000000); (-769705385104770200000000000000000); (-89486992507454310000000000000000); 26842543323425560000000000000000; 
    26842543323427000000000000000000; (-89486992507455990000000000000000); (-769705385104768700000000000000000); (-412855211164030900000000000000000); 
    26842543323427150000000000000000; 1151873098462106000; 26842543323429190000000000000000; (-412855211164032100000000000000000); 
    (-240445103055492700000000000000000); 26842543323429820000000000000000; 26842543323428530000000000000000; (-240445103055491500000000000000000); 
    (-412855211164028200000000000000000); (-89486992507457460000000000000000); (-412855211164033300000000000000000); 
    (-769705385104772300000000000000000); (-769705385104768000000000000000000); (-1389908043286875000000000000000000); 
    1127601783233686000000000000000000; 1742931757300239000000000000000000; 1990073707291402000000000000000000; 1990073707291403000000000000000000; 
    1742931757300238000000000000000000; 1127601783233688000000000000000000; 1742931757300239000000000000000000; 2256057641017178000000000000000000; 
    2276032221952725000000000000000000; 2256057641017179000000000000000000; 1742931757300237000000000000000000; 1990073707291403000000000000000000; 
    2276032221952725000000000000000000; 2276032221952726000000000000000000; 1990073707291402000000000000000000; 1990073707291400000000000000000000; 
    2256057641017178000000000000000000; 1990073707291402000000000000000000; 1742931757300240000000000000000000; 1742931757300236000000000000000000; 
    1127601783233687000000000000000000; 3857907711223231000000000000000000; 4379289198771112000000000000000000; 4541063995779216000000000000000000; 
    4379289198771111000000000000000000; 3857907711223231000000000000000000; 4379289198771113000000000000000000; 4428884624419804000000000000000000; 
    4428884624419804000000000000000000; 4379289198771111000000000000000000; 4541063995779217000000000000000000; 4428884624419805000000000000000000; 
    4541063995779222000000000000000000; 4379289198771113000000000000000000; 4379289198771113000000000000000000; 3857907711223231000000000000000000; 
    6242126909125854000000000000000000; 6884829472150826000000000000000000; 6884829472150830000000000000000000; 6242126909125858000000000000000000; 
    6884829472150832000000000000000000; 7314849075037326000000000000000000; 6884829472150824000000000000000000; 6884829472150829000000000000000000; 
    6884829472150826000000000000000000; 6242126909125854000000000000000000; 8933242527486929000000000000000000; 8718832823421836000000000000000000; 
    8933242527486921000000000000000000; 8718832823421835000000000000000000; 8718832823421847000000000000000000; 8933242527486923000000000000000000; 
    10133446174962580000000000000000000; 10133446174962590000000000000000000; 10133446174962590000000000000000000; 10965335187208100000000000000000000]],
   [13858612874126890000000000000000; 6855716948648167000000000000000; 19818027492393480000000000000000; 30867021535901310000000000000000; 
    16212151804597820000000000000000; 30867021535901280000000000000000; 19818027492393320000000000000000; 6855716948648163000000000000000; 
    13858612874126780000000000000000; 6855716948648021000000000000000; 22050333460280100000000000000000; 42075393407586520000000000000000; 
    59506999873928930000000000000000; 59506999873928760000000000000000; 42075393407586470000000000000000; 22050333460280060000000000000000; 
    6855716948648208000000000000000; 19818027492393400000000000000000; 42075393407586350000000000000000; 67040777241940050000000000000000; 
    61131894812298280000000000000000; 67040777241940350000000000000000; 42075393407586360000000000000000; 19818027492393340000000000000000; 
    30867021535901270000000000000000; 59506999873929100000000000000000; 61131894812298540000000000000000; 61131894812298050000000000000000; 
    59506999873928900000000000000000; 30867021535901260000000000000000; 16212151804597840000000000000000; 59506999873928660000000000000000; 
    67040777241940100000000000000000; 59506999873929190000000000000000; 16212151804598060000000000000000; 30867021535901350000000000000000; 
    42075393407586510000000000000000; 42075393407586480000000000000000; 30867021535901040000000000000000; 19818027492393410000000000000000; 
    22050333460280260000000000000000; 19818027492393160000000000000000; 6855716948648056000000000000000; 6855716948648310000000000000000; 
    13858612874126940000000000000000; 6855716948648295000000000000000; 22050333460279930000000000000000; 42075393407586400000000000000000; 
    59506999873929240000000000000000; 59506999873928760000000000000000; 42075393407586650000000000000000; 22050333460279790000000000000000; 
    6855716948648397000000000000000; 22050333460280050000000000000000; 93635476492253080000000000000000; 127710068425864700000000000000000; 
    106695195761301400000000000000000; 127710068425865000000000000000000; 93635476492253090000000000000000; 22050333460279890000000000000000; 
    42075393407586580000000000000000; 127710068425864800000000000000000; 130289715152946400000000000000000; 130289715152945900000000000000000; 
    127710068425865100000000000000000; 42075393407586690000000000000000; 59506999873928950000000000000000; 106695195761301500000000000000000; 
    130289715152946500000000000000000; 106695195761301300000000000000000; 59506999873928760000000000000000; 59506999873928830000000000000000; 
    127710068425864900000000000000000; 127710068425864800000000000000000; 59506999873929090000000000000000; 42075393407586320000000000000000; 
    93635476492252850000000000000000; 42075393407586600000000000000000; 22050333460280120000000000000000; 22050333460280360000000000000000; 
    6855716948648016000000000000000; 19818027492393370000000000000000; 42075393407586420000000000000000; 67040777241939890000000000000000; 
    61131894812298510000000000000000; 67040777241939990000000000000000; 42075393407586670000000000000000; 19818027492393290000000000000000; 
    42075393407586510000000000000000; 127710068425864700000000000000000; 130289715152946300000000000000000; 130289715152946400000000000000000; 
    127710068425864900000000000000000; 42075393407586620000000000000000; 67040777241940180000000000000000; 130289715152946700000000000000000; 
    233529873360078900000000000000000; 130289715152946200000000000000000; 67040777241939800000000000000000; 61131894812297990000000000000000; 
    130289715152946200000000000000000; 130289715152946200000000000000000; 61131894812298400000000000000000; 67040777241940150000000000000000; 
    127710068425864900000000000000000; 67040777241939810000000000000000; 42075393407586400000000000000000; 42075393407586480000000000000000; 
    19818027492393360000000000000000; 30867021535901300000000000000000; 59506999873928930000000000000000; 61131894812298340000000000000000; 
    61131894812298290000000000000000; 59506999873929310000000000000000; 30867021535900910000000000000000; 59506999873929000000000000000000; 
    106695195761301500000000000000000; 130289715152946400000000000000000; 106695195761301200000000000000000; 59506999873929210000000000000000; 
    61131894812298680000000000000000; 130289715152945900000000000000000; 130289715152945500000000000000000; 61131894812298410000000000000000; 
    61131894812298160000000000000000; 106695195761301400000000000000000; 61131894812298620000000000000000; 59506999873929290000000000000000; 
    59506999873928970000000000000000; 30867021535901260000000000000000; 16212151804597760000000000000000; 59506999873928840000000000000000; 
    67040777241940300000000000000000; 59506999873928930000000000000000; 16212151804598050000000000000000; 59506999873928880000000000000000; 
    127710068425865200000000000000000; 127710068425865000000000000000000; 59506999873928730000000000000000; 67040777241940200000000000000000; 
    127710068425864900000000000000000; 67040777241939770000000000000000; 59506999873928980000000000000000; 59506999873928890000000000000000; 
    16212151804597870000000000000000; 30867021535901310000000000000000; 42075393407586660000000000000000; 42075393407586660000000000000000; 
    30867021535901150000000000000000; 42075393407586540000000000000000; 93635476492253100000000000000000; 42075393407586670000000000000000; 
    42075393407586390000000000000000; 42075393407586600000000000000000; 30867021535901230000000000000000; 19818027492393330000000000000000; 
    22050333460279870000000000000000; 19818027492393390000000000000000; 22050333460279910000000000000000; 22050333460280050000000000000000; 
    19818027492393460000000000000000; 6855716948647998000000000000000; 6855716948648036000000000000000; 6855716948647769000000000000000; 
    13858612874127260000000000000000], 11%nat).
(** vr_quad_data_tet.py:2118-3010 *)
Definition vr_tetrahedron_data_9 : list (list Z) * list Z * nat :=
  ([[(-9121980484114404000000000000000000); (-8306167813791091000000000000000000); (-6746110484265159000000000000000000); 
    (-4328579328464431000000000000000000); (-1435639464804880000000000000000000); 1435639464804877000000000000000000; 4328579328464426000000000000000000; 
    6746110484265149000000000000000000; 8306167813791075000000000000000000; 9121980484114401000000000000000000; (-8886979569877667000000000000000000); 
    (-7285406174049753000000000000000000); (-5448372568349485000000000000000000); (-3010292552392125000000000000000000); (-1991419433169544000); 
    3010292552392123000000000000000000; 5448372568349474000000000000000000; 7285406174049751000000000000000000; 8886979569877660000000000000000000; 
    (-8019375322589145000000000000000000); (-6437874061368755000000000000000000); (-4137387022066464000000000000000000); 
    (-1315424418326653000000000000000000); 1315424418326650000000000000000000; 4137387022066463000000000000000000; 6437874061368754000000000000000000; 
    8019375322589157000000000000000000; (-6858355427382172000000000000000000); (-5148828418125132000000000000000000); 
    (-2574464966506416000000000000000000); (-4155441739045759000); 2574464966506412000000000000000000; 5148828418125124000000000000000000; 
    6858355427382163000000000000000000; (-5387038993844682000000000000000000); (-3601818451928158000000000000000000); 
    (-1259040548179767000000000000000000); 1259040548179767000000000000000000; 3601818451928159000000000000000000; 5387038993844688000000000000000000; 
    (-3951399529039803000000000000000000); (-2138535865733003000000000000000000); (-1907908374306861000); 2138535865733001000000000000000000; 
    3951399529039801000000000000000000; (-2529776098917742000000000000000000); (-989501493019279500000000000000000); 989501493019271800000000000000000; 
    2529776098917742000000000000000000; (-1273264838323989000000000000000000); (-7825724243703992000); 1273264838323978000000000000000000; 
    (-580811756086556700000000000000000); 580811756086572800000000000000000; (-794333455778824200); (-8886979569877649000000000000000000); 
    (-7285406174049735000000000000000000); (-5448372568349472000000000000000000); (-3010292552392129000000000000000000); 998297187112297800; 
    3010292552392126000000000000000000; 5448372568349478000000000000000000; 7285406174049748000000000000000000; 8886979569877659000000000000000000; 
    (-7973827948127363000000000000000000); (-6626699113310480000000000000000000); (-3961780804613917000000000000000000); 
    (-1146677642307420000000000000000000); 1146677642307419000000000000000000; 3961780804613917000000000000000000; 6626699113310482000000000000000000; 
    7973827948127366000000000000000000; (-7053865284798729000000000000000000); (-5065688635293497000000000000000000); 
    (-2453075437221182000000000000000000); 128412638076486300; 2453075437221181000000000000000000; 5065688635293499000000000000000000; 
    7053865284798736000000000000000000; (-5801413170927292000000000000000000); (-3629350463651043000000000000000000); 
    (-1308233218768091000000000000000000); 1308233218768093000000000000000000; 3629350463651044000000000000000000; 5801413170927289000000000000000000; 
    (-4275793308809335000000000000000000); (-2482672821343627000000000000000000); 2357584797482795000; 2482672821343626000000000000000000; 
    4275793308809334000000000000000000; (-2791120618535165000000000000000000); (-1103907830679575000000000000000000); 1103907830679585000000000000000000; 
    2791120618535170000000000000000000; (-1605492716449248000000000000000000); (-1588634300838128000); 1605492716449251000000000000000000; 
    (-688421774077628700000000000000000); 688421774077625100000000000000000; 4225855166434987000; (-8019375322589130000000000000000000); 
    (-6437874061368753000000000000000000); (-4137387022066460000000000000000000); (-1315424418326649000000000000000000); 
    1315424418326651000000000000000000; 4137387022066458000000000000000000; 6437874061368748000000000000000000; 8019375322589132000000000000000000; 
    (-7053865284798734000000000000000000); (-5065688635293500000000000000000000); (-2453075437221179000000000000000000); (-1359140798151450000); 
    2453075437221176000000000000000000; 5065688635293497000000000000000000; 7053865284798730000000000000000000; (-5839260007774761000000000000000000); 
    (-3724748199285080000000000000000000); (-1453586782480421000000000000000000); 1453586782480417000000000000000000; 3724748199285079000000000000000000; 
    5839260007774762000000000000000000; (-4384828671547906000000000000000000); (-2544919138990925000000000000000000); 522628637465187800; 
    2544919138990923000000000000000000; 4384828671547906000000000000000000; (-3069404253221252000000000000000000); (-1271672762063904000000000000000000); 
    1271672762063902000000000000000000; 3069404253221252000000000000000000; (-1701872985708300000000000000000000); 1859170816580892000; 
    1701872985708300000000000000000000; (-615991223429980500000000000000000); 615991223429980400000000000000000; (-3047021551277493000); 
    (-6858355427382172000000000000000000); (-5148828418125124000000000000000000); (-2574464966506413000000000000000000); 1417764127313128000; 
    2574464966506415000000000000000000; 5148828418125126000000000000000000; 6858355427382173000000000000000000; (-5801413170927287000000000000000000); 
    (-3629350463651043000000000000000000); (-1308233218768096000000000000000000); 1308233218768097000000000000000000; 3629350463651036000000000000000000; 
    5801413170927288000000000000000000; (-4384828671547905000000000000000000); (-2544919138990925000000000000000000); 867541355559538500; 
    2544919138990927000000000000000000; 4384828671547905000000000000000000; (-3104707234435453000000000000000000); (-1236685920222826000000000000000000); 
    1236685920222827000000000000000000; 3104707234435453000000000000000000; (-1810363705041491000000000000000000); 530291007127134100; 
    1810363705041490000000000000000000; (-652584752802165900000000000000000); 652584752802162900000000000000000; 1676043969080771000; 
    (-5387038993844681000000000000000000); (-3601818451928155000000000000000000); (-1259040548179764000000000000000000); 
    1259040548179763000000000000000000; 3601818451928154000000000000000000; 5387038993844678000000000000000000; (-4275793308809334000000000000000000); 
    (-2482672821343633000000000000000000); (-1978579120261500000); 2482672821343631000000000000000000; 4275793308809333000000000000000000; 
    (-3069404253221253000000000000000000); (-1271672762063904000000000000000000); 1271672762063906000000000000000000; 3069404253221255000000000000000000; 
    (-1810363705041492000000000000000000); 1234253698182146000; 1810363705041492000000000000000000; (-673974856881181300000000000000000); 
    673974856881179200000000000000000; (-3124304849348906000); (-3951399529039801000000000000000000); (-2138535865733002000000000000000000); 
    2508896779207184000; 2138535865733005000000000000000000; 3951399529039803000000000000000000; (-2791120618535168000000000000000000); 
    (-1103907830679582000000000000000000); 1103907830679576000000000000000000; 2791120618535168000000000000000000; (-1701872985708300000000000000000000); 
    (-3121890414390991000); 1701872985708299000000000000000000; (-652584752802164400000000000000000); 652584752802165800000000000000000; 
    1008821727226567000; (-2529776098917746000000000000000000); (-989501493019272500000000000000000); 989501493019273800000000000000000; 
    2529776098917743000000000000000000; (-1605492716449254000000000000000000); (-1087156697835477000); 1605492716449251000000000000000000; 
    (-615991223429980600000000000000000); 615991223429981800000000000000000; 642574981741911700; (-1273264838323982000000000000000000); 
    8040452641633015000; 1273264838323989000000000000000000; (-688421774077624800000000000000000); 688421774077628000000000000000000; 512228504874725500; 
    (-580811756086561000000000000000000); 580811756086549500000000000000000; (-1591332259917546000); 2663311397724117000];
   [(-5266577888045969000000000000000000); (-5466231870676634000000000000000000); (-5365108298385527000000000000000000); 
    (-5420240263896865000000000000000000); (-5391549994998129000000000000000000); (-5391549994998127000000000000000000); 
    (-5420240263896868000000000000000000); (-5365108298385517000000000000000000); (-5466231870676647000000000000000000); 
    (-5266577888045962000000000000000000); (-4460236399501422000000000000000000); (-4206231215743382000000000000000000); 
    (-4288197275698371000000000000000000); (-4207361730968356000000000000000000); (-4159021705585761000000000000000000); 
    (-4207361730968357000000000000000000); (-4288197275698367000000000000000000); (-4206231215743378000000000000000000); 
    (-4460236399501426000000000000000000); (-3159748906917410000000000000000000); (-2574330415623733000000000000000000); 
    (-2388721510931736000000000000000000); (-2213275440843980000000000000000000); (-2213275440843978000000000000000000); 
    (-2388721510931736000000000000000000); (-2574330415623737000000000000000000); (-3159748906917417000000000000000000); 
    (-1038539528797947000000000000000000); (-503308957710504400000000000000000); (-32553242607258490000000000000000); (-4486979436119570000); 
    (-32553242607257220000000000000000); (-503308957710502900000000000000000); (-1038539528797952000000000000000000); 1452474750302543000000000000000000; 
    2079510852792885000000000000000000; 2245828683451241000000000000000000; 2245828683451236000000000000000000; 2079510852792885000000000000000000; 
    1452474750302543000000000000000000; 3939075244695589000000000000000000; 4710670688678857000000000000000000; 4777443021863473000000000000000000; 
    4710670688678857000000000000000000; 3939075244695588000000000000000000; 6458779792694809000000000000000000; 6862527691322095000000000000000000; 
    6862527691322095000000000000000000; 6458779792694814000000000000000000; 8524857205302939000000000000000000; 8412462431486755000000000000000000; 
    8524857205302929000000000000000000; 9926468270178056000000000000000000; 9926468270178054000000000000000000; 10533155776091930000000000000000000; 
    (-5130900046951561000000000000000000); (-5001152208902817000000000000000000); (-4999482673029862000000000000000000); 
    (-4960901696367107000000000000000000); (-4937260835680537000000000000000000); (-4960901696367108000000000000000000); 
    (-4999482673029863000000000000000000); (-5001152208902813000000000000000000); (-5130900046951572000000000000000000); 
    (-3808770719163659000000000000000000); (-3825926516908465000000000000000000); (-3562018180420917000000000000000000); 
    (-3528778288884933000000000000000000); (-3528778288884938000000000000000000); (-3562018180420919000000000000000000); 
    (-3825926516908462000000000000000000); (-3808770719163662000000000000000000); (-2218687716957977000000000000000000); 
    (-1649993730810747000000000000000000); (-1416283764022108000000000000000000); (-1510617602037136000000000000000000); 
    (-1416283764022110000000000000000000); (-1649993730810745000000000000000000); (-2218687716957988000000000000000000); 
    (-126538975011126700000000000000000); 771337176252596800000000000000000; 755308801018568100000000000000000; 755308801018572600000000000000000; 
    771337176252596500000000000000000; (-126538975011125500000000000000000); 2468630417840267000000000000000000; 2757441112632336000000000000000000; 
    2832567528044215000000000000000000; 2757441112632334000000000000000000; 2468630417840271000000000000000000; 5087440671378232000000000000000000; 
    5212011911231663000000000000000000; 5212011911231671000000000000000000; 5087440671378229000000000000000000; 7218170389987856000000000000000000; 
    7651853033816919000000000000000000; 7218170389987850000000000000000000; 8809922928066483000000000000000000; 8809922928066479000000000000000000; 
    10261800093903150000000000000000000; (-4629988501229477000000000000000000); (-4428193719671650000000000000000000); 
    (-4353875163782214000000000000000000); (-4303703385717646000000000000000000); (-4303703385717644000000000000000000); 
    (-4353875163782214000000000000000000); (-4428193719671654000000000000000000); (-4629988501229475000000000000000000); 
    (-3361265623674407000000000000000000); (-2924676697217527000000000000000000); (-2884684987019528000000000000000000); 
    (-2938619499924476000000000000000000); (-2884684987019528000000000000000000); (-2924676697217529000000000000000000); 
    (-3361265623674412000000000000000000); (-1406144684506495000000000000000000); (-682083152523397600000000000000000); 
    (-839228720155550800000000000000000); (-839228720155552200000000000000000); (-682083152523397000000000000000000); 
    (-1406144684506498000000000000000000); 1012660729829570000000000000000000; 1469309749962237000000000000000000; 1678457440311101000000000000000000; 
    1469309749962237000000000000000000; 1012660729829572000000000000000000; 3291042655888078000000000000000000; 3566768139542922000000000000000000; 
    3566768139542926000000000000000000; 3291042655888072000000000000000000; 5760019848288708000000000000000000; 5849353394435052000000000000000000; 
    5760019848288713000000000000000000; 7789459343346067000000000000000000; 7789459343346063000000000000000000; 9259977002458952000000000000000000; 
    (-3959673352197227000000000000000000); (-3726217438614487000000000000000000); (-3576795986305403000000000000000000); 
    (-3585007115112572000000000000000000); (-3576795986305407000000000000000000); (-3726217438614483000000000000000000); 
    (-3959673352197229000000000000000000); (-2595907490516358000000000000000000); (-2095406467172422000000000000000000); 
    (-2183310698905910000000000000000000); (-2183310698905910000000000000000000); (-2095406467172421000000000000000000); 
    (-2595907490516356000000000000000000); (-441154068994906400000000000000000); (-41307852074904670000000000000000); (-2801280024959657000); 
    (-41307852074899500000000000000000); (-441154068994906700000000000000000); 1792503557556289000000000000000000; 2224618550980812000000000000000000; 
    2224618550980810000000000000000000; 1792503557556286000000000000000000; 4017950055300308000000000000000000; 4190812934344849000000000000000000; 
    4017950055300309000000000000000000; 6322124929130847000000000000000000; 6322124929130848000000000000000000; 7919346704394460000000000000000000; 
    (-3110208413231237000000000000000000); (-2857749982887656000000000000000000); (-2817335344285907000000000000000000); 
    (-2817335344285905000000000000000000); (-2857749982887659000000000000000000); (-3110208413231235000000000000000000); 
    (-1690391287745493000000000000000000); (-1433371821712515000000000000000000); (-1468401222997419000000000000000000); 
    (-1433371821712511000000000000000000); (-1690391287745495000000000000000000); 318306573024593600000000000000000; 734200611498708300000000000000000; 
    734200611498709600000000000000000; 318306573024592500000000000000000; 2499028771261316000000000000000000; 2866743643425028000000000000000000; 
    2499028771261316000000000000000000; 4548141270633144000000000000000000; 4548141270633152000000000000000000; 6220416826462470000000000000000000; 
    (-2281341581766890000000000000000000); (-1988224223151372000000000000000000); (-1965153652850480000000000000000000); 
    (-1988224223151369000000000000000000); (-2281341581766891000000000000000000); (-857914275053243900000000000000000); 
    (-637341483203395900000000000000000); (-637341483203389500000000000000000); (-857914275053241600000000000000000); 982576826425240100000000000000000; 
    1274682966406778000000000000000000; 982576826425240100000000000000000; 2846138498204616000000000000000000; 2846138498204610000000000000000000; 
    4562683163533782000000000000000000; (-1460566911699641000000000000000000); (-1282574350689704000000000000000000); 
    (-1282574350689702000000000000000000); (-1460566911699642000000000000000000); (-215646254692470100000000000000000); (-1436758024869523000); 
    (-215646254692473200000000000000000); 1498220605382171000000000000000000; 1498220605382169000000000000000000; 2921133823399277000000000000000000; 
    (-735119797156040900000000000000000); (-794920993159435400000000000000000); (-735119797156038300000000000000000); 397460496579718100000000000000000; 
    397460496579716400000000000000000; 1470239594312079000000000000000000; (-335331823725068000000000000000000); (-335331823725068200000000000000000); 
    670663647450151600000000000000000; (-3650762918110961000)];
   [(-3724032938284433000000000000000000); (-3865209623293474000000000000000000); (-3793704459588624000000000000000000); 
    (-3832688646261837000000000000000000); (-3812401562569473000000000000000000); (-3812401562569472000000000000000000); 
    (-3832688646261837000000000000000000); (-3793704459588623000000000000000000); (-3865209623293473000000000000000000); 
    (-3724032938284435000000000000000000); (-3865209623293476000000000000000000); (-3817395653046556000000000000000000); 
    (-3786645464430092000000000000000000); (-3774303840015296000000000000000000); (-3766319700533838000000000000000000); 
    (-3774303840015293000000000000000000); (-3786645464430095000000000000000000); (-3817395653046559000000000000000000); 
    (-3865209623293470000000000000000000); (-3793704459588626000000000000000000); (-3786645464430093000000000000000000); 
    (-3773441389752139000000000000000000); (-3782255735957464000000000000000000); (-3782255735957464000000000000000000); 
    (-3773441389752139000000000000000000); (-3786645464430089000000000000000000); (-3793704459588630000000000000000000); 
    (-3832688646261835000000000000000000); (-3774303840015295000000000000000000); (-3782255735957464000000000000000000); 
    (-3802474262547186000000000000000000); (-3782255735957464000000000000000000); (-3774303840015297000000000000000000); 
    (-3832688646261830000000000000000000); (-3812401562569473000000000000000000); (-3766319700533836000000000000000000); 
    (-3782255735957464000000000000000000); (-3782255735957465000000000000000000); (-3766319700533835000000000000000000); 
    (-3812401562569474000000000000000000); (-3812401562569474000000000000000000); (-3774303840015294000000000000000000); 
    (-3773441389752138000000000000000000); (-3774303840015294000000000000000000); (-3812401562569476000000000000000000); 
    (-3832688646261833000000000000000000); (-3786645464430095000000000000000000); (-3786645464430100000000000000000000); 
    (-3832688646261833000000000000000000); (-3793704459588632000000000000000000); (-3817395653046551000000000000000000); 
    (-3793704459588623000000000000000000); (-3865209623293467000000000000000000); (-3865209623293475000000000000000000); 
    (-3724032938284447000000000000000000); (-2916747997278858000000000000000000); (-2693207603505388000000000000000000); 
    (-2780736008805961000000000000000000); (-2708637401158234000000000000000000); (-2665723367984364000000000000000000); 
    (-2708637401158229000000000000000000); (-2780736008805966000000000000000000); (-2693207603505388000000000000000000); 
    (-2916747997278855000000000000000000); (-2693207603505395000000000000000000); (-2705338584427399000000000000000000); 
    (-2518727210085398000000000000000000); (-2495223057374405000000000000000000); (-2495223057374397000000000000000000); 
    (-2518727210085398000000000000000000); (-2705338584427405000000000000000000); (-2693207603505392000000000000000000); 
    (-2780736008805964000000000000000000); (-2518727210085398000000000000000000); (-2558938547050586000000000000000000); 
    (-2582792688495318000000000000000000); (-2558938547050583000000000000000000); (-2518727210085401000000000000000000); 
    (-2780736008805960000000000000000000); (-2708637401158229000000000000000000); (-2495223057374401000000000000000000); 
    (-2582792688495322000000000000000000); (-2582792688495322000000000000000000); (-2495223057374402000000000000000000); 
    (-2708637401158225000000000000000000); (-2665723367984366000000000000000000); (-2495223057374395000000000000000000); 
    (-2558938547050583000000000000000000); (-2495223057374393000000000000000000); (-2665723367984371000000000000000000); 
    (-2708637401158229000000000000000000); (-2518727210085399000000000000000000); (-2518727210085406000000000000000000); 
    (-2708637401158229000000000000000000); (-2780736008805966000000000000000000); (-2705338584427399000000000000000000); 
    (-2780736008805962000000000000000000); (-2693207603505397000000000000000000); (-2693207603505389000000000000000000); 
    (-2916747997278892000000000000000000); (-1714471685374555000000000000000000); (-1164886837059732000000000000000000); 
    (-994294441743962600000000000000000); (-825944185153409700000000000000000); (-825944185153408900000000000000000); 
    (-994294441743961500000000000000000); (-1164886837059731000000000000000000); (-1714471685374560000000000000000000); 
    (-1164886837059731000000000000000000); (-716053271266960800000000000000000); (-482305622482395100000000000000000); 
    (-563293037408523300000000000000000); (-482305622482393500000000000000000); (-716053271266964400000000000000000); 
    (-1164886837059726000000000000000000); (-994294441743963900000000000000000); (-482305622482395200000000000000000); 
    (-593424318988503000000000000000000); (-593424318988499500000000000000000); (-482305622482396800000000000000000); 
    (-994294441743964200000000000000000); (-825944185153409600000000000000000); (-563293037408520100000000000000000); 
    (-593424318988499000000000000000000); (-563293037408521100000000000000000); (-825944185153409300000000000000000); 
    (-825944185153410400000000000000000); (-482305622482394600000000000000000); (-482305622482399100000000000000000); 
    (-825944185153410900000000000000000); (-994294441743960700000000000000000); (-716053271266962700000000000000000); 
    (-994294441743962200000000000000000); (-1164886837059741000000000000000000); (-1164886837059733000000000000000000); 
    (-1714471685374554000000000000000000); 298418424296193500000000000000000; 783577043966391800000000000000000; 1230060420522890000000000000000000; 
    1267491420849066000000000000000000; 1230060420522881000000000000000000; 783577043966395500000000000000000; 298418424296195800000000000000000; 
    783577043966395400000000000000000; 1558964683004125000000000000000000; 1573042862951921000000000000000000; 1573042862951919000000000000000000; 
    1558964683004126000000000000000000; 783577043966392800000000000000000; 1230060420522882000000000000000000; 1573042862951921000000000000000000; 
    1780272956965494000000000000000000; 1573042862951918000000000000000000; 1230060420522881000000000000000000; 1267491420849060000000000000000000; 
    1573042862951919000000000000000000; 1573042862951922000000000000000000; 1267491420849064000000000000000000; 1230060420522884000000000000000000; 
    1558964683004127000000000000000000; 1230060420522884000000000000000000; 783577043966391900000000000000000; 783577043966395400000000000000000; 
    298418424296195200000000000000000; 2640206848111379000000000000000000; 3216021534259102000000000000000000; 3378139500587987000000000000000000; 
    3378139500587990000000000000000000; 3216021534259101000000000000000000; 2640206848111382000000000000000000; 3216021534259102000000000000000000; 
    3431481431744671000000000000000000; 3523549792015369000000000000000000; 3431481431744676000000000000000000; 3216021534259102000000000000000000; 
    3378139500587990000000000000000000; 3523549792015370000000000000000000; 3523549792015367000000000000000000; 3378139500587991000000000000000000; 
    3378139500587986000000000000000000; 3431481431744670000000000000000000; 3378139500587988000000000000000000; 3216021534259104000000000000000000; 
    3216021534259104000000000000000000; 2640206848111380000000000000000000; 4984596277027568000000000000000000; 5699364197207125000000000000000000; 
    5762030273240061000000000000000000; 5699364197207124000000000000000000; 4984596277027570000000000000000000; 5699364197207125000000000000000000; 
    5753507691437761000000000000000000; 5753507691437755000000000000000000; 5699364197207129000000000000000000; 5762030273240063000000000000000000; 
    5753507691437760000000000000000000; 5762030273240062000000000000000000; 5699364197207125000000000000000000; 5699364197207124000000000000000000; 
    4984596277027566000000000000000000; 7366958868227467000000000000000000; 7732268310295799000000000000000000; 7732268310295799000000000000000000; 
    7366958868227466000000000000000000; 7732268310295800000000000000000000; 8116015753282209000000000000000000; 7732268310295796000000000000000000; 
    7732268310295795000000000000000000; 7732268310295796000000000000000000; 7366958868227474000000000000000000; 9301880604551815000000000000000000; 
    9203810860057337000000000000000000; 9301880604551829000000000000000000; 9203810860057335000000000000000000; 9203810860057334000000000000000000; 
    9301880604551805000000000000000000; 10647167243865830000000000000000000; 10647167243865830000000000000000000; 10647167243865830000000000000000000; 
    11172098814853290000000000000000000]],
   [6977149874619009000000000000000; 4223778342607621000000000000000; 10822990608272970000000000000000; 12354358631844590000000000000000; 
    14738247951942480000000000000000; 14738247951942550000000000000000; 12354358631844550000000000000000; 10822990608273120000000000000000; 
    4223778342607571000000000000000; 6977149874619148000000000000000; 4223778342607482000000000000000; 18906596211846490000000000000000; 
    21891678639766160000000000000000; 36331547434545310000000000000000; 40441402941921500000000000000000; 36331547434545620000000000000000; 
    21891678639765850000000000000000; 18906596211846420000000000000000; 4223778342607468000000000000000; 10822990608272990000000000000000; 
    21891678639765890000000000000000; 45213967291675180000000000000000; 45293546565822980000000000000000; 45293546565823280000000000000000; 
    45213967291675150000000000000000; 21891678639765900000000000000000; 10822990608272870000000000000000; 12354358631844600000000000000000; 
    36331547434545450000000000000000; 45293546565823140000000000000000; 38939162369916810000000000000000; 45293546565823080000000000000000; 
    36331547434545350000000000000000; 12354358631844970000000000000000; 14738247951942450000000000000000; 40441402941921700000000000000000; 
    45293546565823250000000000000000; 45293546565823270000000000000000; 40441402941921740000000000000000; 14738247951942360000000000000000; 
    14738247951942370000000000000000; 36331547434545360000000000000000; 45213967291675170000000000000000; 36331547434545410000000000000000; 
    14738247951942360000000000000000; 12354358631844690000000000000000; 21891678639765740000000000000000; 21891678639765550000000000000000; 
    12354358631844730000000000000000; 10822990608272760000000000000000; 18906596211846890000000000000000; 10822990608273190000000000000000; 
    4223778342607576000000000000000; 4223778342607475000000000000000; 6977149874618904000000000000000; 4223778342607720000000000000000; 
    18906596211846610000000000000000; 21891678639765720000000000000000; 36331547434545540000000000000000; 40441402941921670000000000000000; 
    36331547434545280000000000000000; 21891678639765990000000000000000; 18906596211846660000000000000000; 4223778342607561000000000000000; 
    18906596211846880000000000000000; 48618437724606850000000000000000; 88442053778619490000000000000000; 75427761333037020000000000000000; 
    75427761333036870000000000000000; 88442053778619570000000000000000; 48618437724606860000000000000000; 18906596211846790000000000000000; 
    21891678639765730000000000000000; 88442053778619730000000000000000; 99283647912038190000000000000000; 86923343297867960000000000000000; 
    99283647912038810000000000000000; 88442053778619470000000000000000; 21891678639765710000000000000000; 36331547434545390000000000000000; 
    75427761333036910000000000000000; 86923343297867870000000000000000; 86923343297867670000000000000000; 75427761333036930000000000000000; 
    36331547434545500000000000000000; 40441402941921670000000000000000; 75427761333037090000000000000000; 99283647912038610000000000000000; 
    75427761333036810000000000000000; 40441402941921670000000000000000; 36331547434545550000000000000000; 88442053778619630000000000000000; 
    88442053778619450000000000000000; 36331547434545300000000000000000; 21891678639766030000000000000000; 48618437724606880000000000000000; 
    21891678639765860000000000000000; 18906596211846390000000000000000; 18906596211846630000000000000000; 4223778342607854000000000000000; 
    10822990608273040000000000000000; 21891678639765660000000000000000; 45213967291675340000000000000000; 45293546565823300000000000000000; 
    45293546565823060000000000000000; 45213967291675230000000000000000; 21891678639765720000000000000000; 10822990608273060000000000000000; 
    21891678639765690000000000000000; 88442053778619730000000000000000; 99283647912038750000000000000000; 86923343297867940000000000000000; 
    99283647912038220000000000000000; 88442053778620010000000000000000; 21891678639765730000000000000000; 45213967291675170000000000000000; 
    99283647912038260000000000000000; 151052773240186100000000000000000; 151052773240186000000000000000000; 99283647912038570000000000000000; 
    45213967291675160000000000000000; 45293546565823360000000000000000; 86923343297867870000000000000000; 151052773240186200000000000000000; 
    86923343297867810000000000000000; 45293546565823260000000000000000; 45293546565823040000000000000000; 99283647912038420000000000000000; 
    99283647912038580000000000000000; 45293546565823370000000000000000; 45213967291675310000000000000000; 88442053778619870000000000000000; 
    45213967291675150000000000000000; 21891678639765890000000000000000; 21891678639765750000000000000000; 10822990608273090000000000000000; 
    12354358631844670000000000000000; 36331547434545670000000000000000; 45293546565823010000000000000000; 38939162369917010000000000000000; 
    45293546565823010000000000000000; 36331547434545740000000000000000; 12354358631844640000000000000000; 36331547434545560000000000000000; 
    75427761333036750000000000000000; 86923343297868000000000000000000; 86923343297868040000000000000000; 75427761333037040000000000000000; 
    36331547434545560000000000000000; 45293546565823150000000000000000; 86923343297868020000000000000000; 151052773240186600000000000000000; 
    86923343297867810000000000000000; 45293546565823210000000000000000; 38939162369916950000000000000000; 86923343297868340000000000000000; 
    86923343297868290000000000000000; 38939162369916840000000000000000; 45293546565823000000000000000000; 75427761333036590000000000000000; 
    45293546565823300000000000000000; 36331547434545790000000000000000; 36331547434545680000000000000000; 12354358631844510000000000000000; 
    14738247951942580000000000000000; 40441402941921510000000000000000; 45293546565822980000000000000000; 45293546565823160000000000000000; 
    40441402941921450000000000000000; 14738247951942590000000000000000; 40441402941921450000000000000000; 75427761333036700000000000000000; 
    99283647912038640000000000000000; 75427761333036800000000000000000; 40441402941921640000000000000000; 45293546565823170000000000000000; 
    99283647912039000000000000000000; 99283647912038750000000000000000; 45293546565823060000000000000000; 45293546565822990000000000000000; 
    75427761333036990000000000000000; 45293546565822920000000000000000; 40441402941921430000000000000000; 40441402941921330000000000000000; 
    14738247951942640000000000000000; 14738247951942470000000000000000; 36331547434545310000000000000000; 45213967291675240000000000000000; 
    36331547434545470000000000000000; 14738247951942380000000000000000; 36331547434545490000000000000000; 88442053778619600000000000000000; 
    88442053778619700000000000000000; 36331547434545360000000000000000; 45213967291675300000000000000000; 88442053778619840000000000000000; 
    45213967291675320000000000000000; 36331547434545420000000000000000; 36331547434545590000000000000000; 14738247951942470000000000000000; 
    12354358631844660000000000000000; 21891678639765940000000000000000; 21891678639766050000000000000000; 12354358631844700000000000000000; 
    21891678639765890000000000000000; 48618437724606900000000000000000; 21891678639766050000000000000000; 21891678639765910000000000000000; 
    21891678639765890000000000000000; 12354358631844730000000000000000; 10822990608272990000000000000000; 18906596211846430000000000000000; 
    10822990608272720000000000000000; 18906596211846510000000000000000; 18906596211846520000000000000000; 10822990608272950000000000000000; 
    4223778342607620000000000000000; 4223778342607602000000000000000; 4223778342607663000000000000000; 6977149874618929000000000000000], 13%nat).
(** vr_quad_data_tet.py:3011-4167 *)
Definition vr_tetrahedron_data_10 : list (list Z) * list Z * nat :=
  ([[(-9273734205583750000000000000000000); (-8820181165796095000000000000000000); (-7637918432934267000000000000000000); 
    (-5392633539687360000000000000000000); (-2793190734148037000000000000000000); (-4426320290757633000); 2793190734148039000000000000000000; 
    5392633539687357000000000000000000; 7637918432934267000000000000000000; 8820181165796092000000000000000000; 9273734205583756000000000000000000; 
    (-9233298497232088000000000000000000); (-7914226371451994000000000000000000); (-6435216717368489000000000000000000); 
    (-4171808846025189000000000000000000); (-1400863604171239000000000000000000); 1400863604171243000000000000000000; 4171808846025183000000000000000000; 
    6435216717368488000000000000000000; 7914226371451991000000000000000000; 9233298497232081000000000000000000; (-8624389149166895000000000000000000); 
    (-7300954114384766000000000000000000); (-5243621341498332000000000000000000); (-2619354712985205000000000000000000); 2863344291383565000; 
    2619354712985199000000000000000000; 5243621341498331000000000000000000; 7300954114384772000000000000000000; 8624389149166919000000000000000000; 
    (-7487998460248591000000000000000000); (-6034258394864093000000000000000000); (-3826665685127703000000000000000000); 
    (-1341096683912318000000000000000000); 1341096683912320000000000000000000; 3826665685127697000000000000000000; 6034258394864091000000000000000000; 
    7487998460248587000000000000000000; (-6138407393050901000000000000000000); (-4628776233091726000000000000000000); 
    (-2516806801665189000000000000000000); 5653205781580339000; 2516806801665208000000000000000000; 4628776233091735000000000000000000; 
    6138407393050903000000000000000000; (-4762632885690433000000000000000000); (-3227912628920497000000000000000000); 
    (-1207310972142498000000000000000000); 1207310972142494000000000000000000; 3227912628920495000000000000000000; 4762632885690434000000000000000000; 
    (-3345216658902875000000000000000000); (-1862449548838904000000000000000000); (-1404676251670500000); 1862449548838897000000000000000000; 
    3345216658902873000000000000000000; (-2095364920561218000000000000000000); (-865737397016284600000000000000000); 865737397016287400000000000000000; 
    2095364920561223000000000000000000; (-986470716232661200000000000000000); (-2712889132906832000); 986470716232662100000000000000000; 
    (-413117331435996400000000000000000); 413117331435994500000000000000000; (-3659776277435322000); (-9233298497232088000000000000000000); 
    (-7914226371451996000000000000000000); (-6435216717368489000000000000000000); (-4171808846025190000000000000000000); 
    (-1400863604171241000000000000000000); 1400863604171244000000000000000000; 4171808846025184000000000000000000; 6435216717368486000000000000000000; 
    7914226371452003000000000000000000; 9233298497232083000000000000000000; (-8421103241034670000000000000000000); (-7202875565694331000000000000000000); 
    (-5087919501924901000000000000000000); (-2556935945849893000000000000000000); 146016336269872300; 2556935945849887000000000000000000; 
    5087919501924902000000000000000000; 7202875565694337000000000000000000; 8421103241034686000000000000000000; (-7723356222930916000000000000000000); 
    (-5982377261431260000000000000000000); (-3609607715458237000000000000000000); (-1227696151543824000000000000000000); 
    1227696151543826000000000000000000; 3609607715458235000000000000000000; 5982377261431256000000000000000000; 7723356222930913000000000000000000; 
    (-6537523969453232000000000000000000); (-4726106802484574000000000000000000); (-2555380580448678000000000000000000); (-8690161718154644000); 
    2555380580448670000000000000000000; 4726106802484571000000000000000000; 6537523969453228000000000000000000; (-5145851253746605000000000000000000); 
    (-3489629932873329000000000000000000); (-1327684428904851000000000000000000); 1327684428904849000000000000000000; 3489629932873328000000000000000000; 
    5145851253746607000000000000000000; (-3744987649575366000000000000000000); (-2169170856634693000000000000000000); (-2173042436808945000); 
    2169170856634688000000000000000000; 3744987649575367000000000000000000; (-2365715123428040000000000000000000); (-894457759506359100000000000000000); 
    894457759506353200000000000000000; 2365715123428038000000000000000000; (-1288139505562426000000000000000000); 4361974712768598000; 
    1288139505562426000000000000000000; (-506876869582692400000000000000000); 506876869582691400000000000000000; 264725554634366900; 
    (-8624389149166896000000000000000000); (-7300954114384766000000000000000000); (-5243621341498333000000000000000000); 
    (-2619354712985205000000000000000000); 297360617068043600; 2619354712985199000000000000000000; 5243621341498330000000000000000000; 
    7300954114384770000000000000000000; 8624389149166908000000000000000000; (-7723356222930913000000000000000000); (-5982377261431260000000000000000000); 
    (-3609607715458242000000000000000000); (-1227696151543826000000000000000000); 1227696151543825000000000000000000; 3609607715458240000000000000000000; 
    5982377261431257000000000000000000; 7723356222930911000000000000000000; (-6616094372847786000000000000000000); (-4666962851973860000000000000000000); 
    (-2670669178200364000000000000000000); 4678127826680380000; 2670669178200371000000000000000000; 4666962851973866000000000000000000; 
    6616094372847786000000000000000000; (-5277067607210687000000000000000000); (-3561305696810475000000000000000000); 
    (-1327979393337321000000000000000000); 1327979393337319000000000000000000; 3561305696810472000000000000000000; 5277067607210687000000000000000000; 
    (-3973644291993387000000000000000000); (-2333609545266645000000000000000000); 1362385686020090000; 2333609545266645000000000000000000; 
    3973644291993388000000000000000000; (-2657712894225486000000000000000000); (-1057355136515626000000000000000000); 1057355136515623000000000000000000; 
    2657712894225483000000000000000000; (-1372473031349457000000000000000000); (-2642182096893611000); 1372473031349457000000000000000000; 
    (-422402108546143000000000000000000); 422402108546141200000000000000000; (-2149723520204236000); (-7487998460248593000000000000000000); 
    (-6034258394864095000000000000000000); (-3826665685127703000000000000000000); (-1341096683912313000000000000000000); 
    1341096683912328000000000000000000; 3826665685127704000000000000000000; 6034258394864092000000000000000000; 7487998460248592000000000000000000; 
    (-6537523969453236000000000000000000); (-4726106802484573000000000000000000); (-2555380580448672000000000000000000); (-2163643881134258000); 
    2555380580448674000000000000000000; 4726106802484576000000000000000000; 6537523969453236000000000000000000; (-5277067607210689000000000000000000); 
    (-3561305696810471000000000000000000); (-1327979393337319000000000000000000); 1327979393337317000000000000000000; 3561305696810469000000000000000000; 
    5277067607210686000000000000000000; (-4024320818667430000000000000000000); (-2281183151859924000000000000000000); (-82905862151936520); 
    2281183151859920000000000000000000; 4024320818667435000000000000000000; (-2683224134755112000000000000000000); (-1005925116361796000000000000000000); 
    1005925116361800000000000000000000; 2683224134755117000000000000000000; (-1450401922082984000000000000000000); 2120680412756729000; 
    1450401922082988000000000000000000; (-503265574589137300000000000000000); 503265574589143100000000000000000; 2601288609998201000; 
    (-6138407393050903000000000000000000); (-4628776233091731000000000000000000); (-2516806801665192000000000000000000); 8878364202933523000; 
    2516806801665207000000000000000000; 4628776233091738000000000000000000; 6138407393050904000000000000000000; (-5145851253746603000000000000000000); 
    (-3489629932873324000000000000000000); (-1327684428904848000000000000000000); 1327684428904844000000000000000000; 3489629932873329000000000000000000; 
    5145851253746607000000000000000000; (-3973644291993382000000000000000000); (-2333609545266641000000000000000000); (-421184741495655500); 
    2333609545266643000000000000000000; 3973644291993387000000000000000000; (-2683224134755113000000000000000000); (-1005925116361803000000000000000000); 
    1005925116361793000000000000000000; 2683224134755114000000000000000000; (-1456837490328192000000000000000000); (-1416662241865022000); 
    1456837490328191000000000000000000; (-517075020654872500000000000000000); 517075020654869000000000000000000; (-522646340986018000); 
    (-4762632885690431000000000000000000); (-3227912628920498000000000000000000); (-1207310972142498000000000000000000); 
    1207310972142496000000000000000000; 3227912628920496000000000000000000; 4762632885690431000000000000000000; (-3744987649575366000000000000000000); 
    (-2169170856634690000000000000000000); 215868349225379600; 2169170856634689000000000000000000; 3744987649575365000000000000000000; 
    (-2657712894225484000000000000000000); (-1057355136515626000000000000000000); 1057355136515629000000000000000000; 2657712894225485000000000000000000; 
    (-1450401922082988000000000000000000); (-4239373367606729000); 1450401922082986000000000000000000; (-517075020654875200000000000000000); 
    517075020654874100000000000000000; (-720701291709533400); (-3345216658902877000000000000000000); (-1862449548838906000000000000000000); 
    2004792158808277000; 1862449548838906000000000000000000; 3345216658902874000000000000000000; (-2365715123428043000000000000000000); 
    (-894457759506356800000000000000000); 894457759506355500000000000000000; 2365715123428039000000000000000000; (-1372473031349458000000000000000000); 
    1457441608742581000; 1372473031349457000000000000000000; (-503265574589141200000000000000000); 503265574589138000000000000000000; 
    (-747651695907962800); (-2095364920561220000000000000000000); (-865737397016280700000000000000000); 865737397016285900000000000000000; 
    2095364920561223000000000000000000; (-1288139505562422000000000000000000); (-1087664870774307000); 1288139505562424000000000000000000; 
    (-422402108546136600000000000000000); 422402108546143900000000000000000; 1701174532423812000; (-986470716232653600000000000000000); 
    (-55491520977645230); 986470716232657500000000000000000; (-506876869582698800000000000000000); 506876869582688800000000000000000; 
    (-4101563434587982000); (-413117331435973700000000000000000); 413117331436001800000000000000000; 12633770107763050000; (-14982587822449980000)];
   [(-5354192939986848000000000000000000); (-5569360775396559000000000000000000); (-5548832530432229000000000000000000); 
    (-5532957427652542000000000000000000); (-5475372899288723000000000000000000); (-5499414757209472000000000000000000); 
    (-5475372899288728000000000000000000); (-5532957427652541000000000000000000); (-5548832530432226000000000000000000); 
    (-5569360775396564000000000000000000); (-5354192939986834000000000000000000); (-4853820567862159000000000000000000); 
    (-4569280725985445000000000000000000); (-4715041542496030000000000000000000); (-4559166457008779000000000000000000); 
    (-4536061429421896000000000000000000); (-4536061429421907000000000000000000); (-4559166457008780000000000000000000); 
    (-4715041542496030000000000000000000); (-4569280725985439000000000000000000); (-4853820567862162000000000000000000); 
    (-3840215129738361000000000000000000); (-3215540384851400000000000000000000); (-3027406193042533000000000000000000); 
    (-2906367778169238000000000000000000); (-2906158168879391000000000000000000); (-2906367778169242000000000000000000); 
    (-3027406193042529000000000000000000); (-3215540384851398000000000000000000); (-3840215129738384000000000000000000); 
    (-1903678924842991000000000000000000); (-1333309211886074000000000000000000); (-815243833883063900000000000000000); 
    (-774282531466104600000000000000000); (-774282531466094900000000000000000); (-815243833883062300000000000000000); 
    (-1333309211886068000000000000000000); (-1903678924842985000000000000000000); 318712316256860500000000000000000; 1054847246261636000000000000000000; 
    1453079084439681000000000000000000; 1548565062932200000000000000000000; 1453079084439685000000000000000000; 1054847246261634000000000000000000; 
    318712316256861100000000000000000; 2749707378604741000000000000000000; 3481214183160263000000000000000000; 3721611612052312000000000000000000; 
    3721611612052307000000000000000000; 3481214183160265000000000000000000; 2749707378604741000000000000000000; 5156660583031851000000000000000000; 
    5892475668894844000000000000000000; 6054812386085062000000000000000000; 5892475668894851000000000000000000; 5156660583031852000000000000000000; 
    7436636352495536000000000000000000; 7930581927347429000000000000000000; 7930581927347431000000000000000000; 7436636352495536000000000000000000; 
    9389047660170613000000000000000000; 9138561451970884000000000000000000; 9389047660170606000000000000000000; 10423181343258730000000000000000000; 
    10423181343258730000000000000000000; 10708385879973660000000000000000000; (-5330847372885083000000000000000000); 
    (-5154571720184565000000000000000000); (-5202789484646788000000000000000000); (-5140287486934604000000000000000000); 
    (-5133128234154538000000000000000000); (-5133128234154541000000000000000000); (-5140287486934602000000000000000000); 
    (-5202789484646787000000000000000000); (-5154571720184567000000000000000000); (-5330847372885103000000000000000000); 
    (-4276635228885880000000000000000000); (-4158582146793003000000000000000000); (-3970342550510973000000000000000000); 
    (-3980990412629717000000000000000000); (-4029477562233173000000000000000000); (-3980990412629715000000000000000000); 
    (-3970342550510974000000000000000000); (-4158582146793006000000000000000000); (-4276635228885889000000000000000000); 
    (-2971666413776020000000000000000000); (-2421096265821743000000000000000000); (-2084007986188763000000000000000000); 
    (-2241888628431068000000000000000000); (-2241888628431064000000000000000000); (-2084007986188766000000000000000000); 
    (-2421096265821744000000000000000000); (-2971666413776024000000000000000000); (-1042748696923155000000000000000000); 
    (-223876278640737000000000000000000); 57728258850192170000000000000000; 14357548233037780000; 57728258850186530000000000000000; 
    (-223876278640742100000000000000000); (-1042748696923153000000000000000000); 1353380648627950000000000000000000; 2014738781116586000000000000000000; 
    2184160369580893000000000000000000; 2184160369580885000000000000000000; 2014738781116581000000000000000000; 1353380648627949000000000000000000; 
    3779747585526585000000000000000000; 4204866691270450000000000000000000; 4168015972377526000000000000000000; 4204866691270450000000000000000000; 
    3779747585526587000000000000000000; 6183036183857766000000000000000000; 6391438816332723000000000000000000; 6391438816332717000000000000000000; 
    6183036183857765000000000000000000; 8174455898422808000000000000000000; 8317164293586006000000000000000000; 8174455898422810000000000000000000; 
    9431206949070434000000000000000000; 9431206949070448000000000000000000; 10661694745770200000000000000000000; (-4979293396867600000000000000000000); 
    (-4702955765431911000000000000000000); (-4612201541252751000000000000000000); (-4581147658464766000000000000000000); 
    (-4588369203292405000000000000000000); (-4581147658464767000000000000000000); (-4612201541252750000000000000000000); 
    (-4702955765431914000000000000000000); (-4979293396867600000000000000000000); (-3971333852205769000000000000000000); 
    (-3453927122281232000000000000000000); (-3304936531581426000000000000000000); (-3403430901863245000000000000000000); 
    (-3403430901863245000000000000000000); (-3304936531581426000000000000000000); (-3453927122281233000000000000000000); 
    (-3971333852205771000000000000000000); (-2235008518937414000000000000000000); (-1473543713492437000000000000000000); 
    (-1541911568950422000000000000000000); (-1533418520443148000000000000000000); (-1541911568950421000000000000000000); 
    (-1473543713492440000000000000000000); (-2235008518937416000000000000000000); 22146106264703070000000000000000; 638499395566283500000000000000000; 
    766709260221578900000000000000000; 766709260221580300000000000000000; 638499395566278100000000000000000; 22146106264704840000000000000000; 
    2294184601646198000000000000000000; 2764931506296976000000000000000000; 3083823137900838000000000000000000; 2764931506296976000000000000000000; 
    2294184601646203000000000000000000; 4559001552200062000000000000000000; 4778480245073857000000000000000000; 4778480245073857000000000000000000; 
    4559001552200067000000000000000000; 6847210060190167000000000000000000; 6907854244562461000000000000000000; 6847210060190169000000000000000000; 
    8674289617637680000000000000000000; 8674289617637679000000000000000000; 9958586793735237000000000000000000; (-4323197926716029000000000000000000); 
    (-4065001738560369000000000000000000); (-3884106343702709000000000000000000); (-3872602884460026000000000000000000); 
    (-3872602884460025000000000000000000); (-3884106343702708000000000000000000); (-4065001738560365000000000000000000); 
    (-4323197926716028000000000000000000); (-3193320193671636000000000000000000); (-2728619034633390000000000000000000); 
    (-2636891939436166000000000000000000); (-2634083413594333000000000000000000); (-2636891939436165000000000000000000); 
    (-2728619034633391000000000000000000); (-3193320193671636000000000000000000); (-1371936523259419000000000000000000); 
    (-894578529287887700000000000000000); (-766709260221579400000000000000000); (-766709260221577600000000000000000); 
    (-894578529287892200000000000000000); (-1371936523259417000000000000000000); 774877645030875500000000000000000; 1317041706797172000000000000000000; 
    1533418520443154000000000000000000; 1317041706797172000000000000000000; 774877645030872200000000000000000; 3097725239429154000000000000000000; 
    3531470468724065000000000000000000; 3531470468724064000000000000000000; 3097725239429150000000000000000000; 5256042866962133000000000000000000; 
    5457238069266790000000000000000000; 5256042866962131000000000000000000; 7258321932232003000000000000000000; 7258321932231995000000000000000000; 
    8646395853432048000000000000000000; (-3544011160773529000000000000000000); (-3269492008926692000000000000000000); 
    (-3135290118852716000000000000000000); (-3098320352993926000000000000000000); (-3135290118852714000000000000000000); 
    (-3269492008926694000000000000000000); (-3544011160773530000000000000000000); (-2373891801827735000000000000000000); 
    (-2014738781116591000000000000000000); (-1928081235859265000000000000000000); (-1928081235859265000000000000000000); 
    (-2014738781116595000000000000000000); (-2373891801827742000000000000000000); (-611973567233173100000000000000000); 
    (-185767825710998400000000000000000); 5370910876094205000; (-185767825710999000000000000000000); (-611973567233182700000000000000000); 
    1549160176496957000000000000000000; 2113849061570258000000000000000000; 2113849061570271000000000000000000; 1549160176496954000000000000000000; 
    3747263686085871000000000000000000; 4029477562233167000000000000000000; 3747263686085875000000000000000000; 5643383810754418000000000000000000; 
    5643383810754425000000000000000000; 7088022321547054000000000000000000; (-2749707378604732000000000000000000); (-2460703029960484000000000000000000); 
    (-2371821195057585000000000000000000); (-2371821195057585000000000000000000); (-2460703029960485000000000000000000); 
    (-2749707378604735000000000000000000); (-1565102822861517000000000000000000); (-1252371377996325000000000000000000); 
    (-1220928545392658000000000000000000); (-1252371377996327000000000000000000); (-1565102822861518000000000000000000); 
    140348625385710100000000000000000; 610464272696333300000000000000000; 610464272696334300000000000000000; 140348625385707800000000000000000; 
    2231472569671886000000000000000000; 2504742755992661000000000000000000; 2231472569671880000000000000000000; 4025805852822006000000000000000000; 
    4025805852822004000000000000000000; 5499414757209472000000000000000000; (-1931361738515196000000000000000000); (-1656406778300062000000000000000000); 
    (-1584795348210221000000000000000000); (-1656406778300059000000000000000000); (-1931361738515194000000000000000000); 
    (-784725233411322400000000000000000); (-516415428229746400000000000000000); (-516415428229745600000000000000000); 
    (-784725233411319600000000000000000); 792397674105110300000000000000000; 1032830856459490000000000000000000; 792397674105109400000000000000000; 
    2441132011711385000000000000000000; 2441132011711387000000000000000000; 3862723477030390000000000000000000; (-1209759500936521000000000000000000); 
    (-987581661365639300000000000000000); (-987581661365638400000000000000000); (-1209759500936517000000000000000000); 
    (-255959748139502900000000000000000); 7492650689364951000; (-255959748139498600000000000000000); 1243541409505133000000000000000000; 
    1243541409505131000000000000000000; 2419519001873038000000000000000000; (-569539133564599400000000000000000); (-585290994199113200000000000000000); 
    (-569539133564605800000000000000000); 292645497099564500000000000000000; 292645497099556100000000000000000; 1139078267129220000000000000000000; 
    (-238513402511484100000000000000000); (-238513402511486900000000000000000); 477026805022926900000000000000000; 14729402176388140000];
   [(-3785986135645834000000000000000000); (-3938132771157278000000000000000000); (-3923617109937137000000000000000000); 
    (-3912391717109589000000000000000000); (-3871673306612104000000000000000000); (-3888673467380190000000000000000000); 
    (-3871673306612106000000000000000000); (-3912391717109588000000000000000000); (-3923617109937136000000000000000000); 
    (-3938132771157285000000000000000000); (-3785986135645830000000000000000000); (-3938132771157271000000000000000000); 
    (-3851764232937718000000000000000000); (-3851372664382100000000000000000000); (-3840189449735145000000000000000000); 
    (-3840764776294717000000000000000000); (-3840764776294718000000000000000000); (-3840189449735145000000000000000000); 
    (-3851372664382101000000000000000000); (-3851764232937718000000000000000000); (-3938132771157274000000000000000000); 
    (-3923617109937134000000000000000000); (-3851372664382100000000000000000000); (-3821628754775038000000000000000000); 
    (-3831484680093193000000000000000000); (-3839218393145716000000000000000000); (-3831484680093194000000000000000000); 
    (-3821628754775037000000000000000000); (-3851372664382099000000000000000000); (-3923617109937139000000000000000000); 
    (-3912391717109591000000000000000000); (-3840189449735145000000000000000000); (-3831484680093194000000000000000000); 
    (-3833765426389418000000000000000000); (-3833765426389419000000000000000000); (-3831484680093194000000000000000000); 
    (-3840189449735146000000000000000000); (-3912391717109587000000000000000000); (-3871673306612105000000000000000000); 
    (-3840764776294718000000000000000000); (-3839218393145715000000000000000000); (-3833765426389418000000000000000000); 
    (-3839218393145715000000000000000000); (-3840764776294719000000000000000000); (-3871673306612105000000000000000000); 
    (-3888673467380189000000000000000000); (-3840764776294720000000000000000000); (-3831484680093193000000000000000000); 
    (-3831484680093193000000000000000000); (-3840764776294719000000000000000000); (-3888673467380191000000000000000000); 
    (-3871673306612098000000000000000000); (-3840189449735144000000000000000000); (-3821628754775037000000000000000000); 
    (-3840189449735144000000000000000000); (-3871673306612099000000000000000000); (-3912391717109595000000000000000000); 
    (-3851372664382104000000000000000000); (-3851372664382102000000000000000000); (-3912391717109596000000000000000000); 
    (-3923617109937125000000000000000000); (-3851764232937715000000000000000000); (-3923617109937127000000000000000000); 
    (-3938132771157308000000000000000000); (-3938132771157308000000000000000000); (-3785986135645801000000000000000000); 
    (-3263514993878346000000000000000000); (-3024037771006487000000000000000000); (-3161592909572930000000000000000000); 
    (-3018360207833822000000000000000000); (-2996384803399052000000000000000000); (-2996384803399059000000000000000000); 
    (-3018360207833821000000000000000000); (-3161592909572926000000000000000000); (-3024037771006496000000000000000000); 
    (-3263514993878330000000000000000000); (-3024037771006492000000000000000000); (-2940561636118640000000000000000000); 
    (-2807456141099802000000000000000000); (-2814985316609102000000000000000000); (-2849270908894116000000000000000000); 
    (-2814985316609102000000000000000000); (-2807456141099803000000000000000000); (-2940561636118636000000000000000000); 
    (-3024037771006499000000000000000000); (-3161592909572927000000000000000000); (-2807456141099805000000000000000000); 
    (-2768606459768065000000000000000000); (-2817256279096720000000000000000000); (-2817256279096724000000000000000000); 
    (-2768606459768065000000000000000000); (-2807456141099802000000000000000000); (-3161592909572923000000000000000000); 
    (-3018360207833826000000000000000000); (-2814985316609105000000000000000000); (-2817256279096719000000000000000000); 
    (-2793867365945346000000000000000000); (-2817256279096721000000000000000000); (-2814985316609105000000000000000000); 
    (-3018360207833821000000000000000000); (-2996384803399054000000000000000000); (-2849270908894122000000000000000000); 
    (-2817256279096718000000000000000000); (-2817256279096717000000000000000000); (-2849270908894119000000000000000000); 
    (-2996384803399060000000000000000000); (-2996384803399044000000000000000000); (-2814985316609105000000000000000000); 
    (-2768606459768061000000000000000000); (-2814985316609102000000000000000000); (-2996384803399047000000000000000000); 
    (-3018360207833821000000000000000000); (-2807456141099804000000000000000000); (-2807456141099799000000000000000000); 
    (-3018360207833821000000000000000000); (-3161592909572935000000000000000000); (-2940561636118641000000000000000000); 
    (-3161592909572936000000000000000000); (-3024037771006485000000000000000000); (-3024037771006489000000000000000000); 
    (-3263514993878356000000000000000000); (-2312717175958520000000000000000000); (-1747849660282800000000000000000000); 
    (-1580389679750352000000000000000000); (-1462988259389660000000000000000000); (-1460212733505161000000000000000000); 
    (-1462988259389665000000000000000000); (-1580389679750348000000000000000000); (-1747849660282800000000000000000000); 
    (-2312717175958534000000000000000000); (-1747849660282799000000000000000000); (-1346812736257375000000000000000000); 
    (-1041952752185305000000000000000000); (-1174587442739248000000000000000000); (-1174587442739246000000000000000000); 
    (-1041952752185307000000000000000000); (-1346812736257371000000000000000000); (-1747849660282803000000000000000000); 
    (-1580389679750351000000000000000000); (-1041952752185308000000000000000000); (-1090296126394833000000000000000000); 
    (-1084290634202400000000000000000000); (-1090296126394837000000000000000000); (-1041952752185307000000000000000000); 
    (-1580389679750343000000000000000000); (-1462988259389666000000000000000000); (-1174587442739255000000000000000000); 
    (-1084290634202395000000000000000000); (-1084290634202396000000000000000000); (-1174587442739248000000000000000000); 
    (-1462988259389670000000000000000000); (-1460212733505146000000000000000000); (-1174587442739254000000000000000000); 
    (-1090296126394828000000000000000000); (-1174587442739250000000000000000000); (-1460212733505157000000000000000000); 
    (-1462988259389660000000000000000000); (-1041952752185308000000000000000000); (-1041952752185301000000000000000000); 
    (-1462988259389660000000000000000000); (-1580389679750348000000000000000000); (-1346812736257367000000000000000000); 
    (-1580389679750351000000000000000000); (-1747849660282798000000000000000000); (-1747849660282799000000000000000000); 
    (-2312717175958556000000000000000000); (-490675130241331000000000000000000); 23007169720868550000000000000000; 508542302352091400000000000000000; 
    547921237391180400000000000000000; 547921237391182100000000000000000; 508542302352093100000000000000000; 23007169720877290000000000000000; 
    (-490675130241328800000000000000000); 23007169720872220000000000000000; 727255859171469600000000000000000; 993512150764320300000000000000000; 
    931289121981789500000000000000000; 993512150764321200000000000000000; 727255859171468700000000000000000; 23007169720876780000000000000000; 
    508542302352088000000000000000000; 993512150764319700000000000000000; 1084290634202396000000000000000000; 1084290634202394000000000000000000; 
    993512150764320400000000000000000; 508542302352091900000000000000000; 547921237391193200000000000000000; 931289121981782400000000000000000; 
    1084290634202397000000000000000000; 931289121981792000000000000000000; 547921237391185300000000000000000; 547921237391186700000000000000000; 
    993512150764320400000000000000000; 993512150764317700000000000000000; 547921237391181000000000000000000; 508542302352089000000000000000000; 
    727255859171469500000000000000000; 508542302352086000000000000000000; 23007169720880080000000000000000; 23007169720879090000000000000000; 
    (-490675130241329500000000000000000); 1591042622301230000000000000000000; 2274774446694988000000000000000000; 2649715563325419000000000000000000; 
    2737922951607043000000000000000000; 2649715563325424000000000000000000; 2274774446694984000000000000000000; 1591042622301234000000000000000000; 
    2274774446694980000000000000000000; 2849270908894106000000000000000000; 2998331571071661000000000000000000; 2998331571071654000000000000000000; 
    2849270908894110000000000000000000; 2274774446694982000000000000000000; 2649715563325429000000000000000000; 2998331571071656000000000000000000; 
    3270888379184492000000000000000000; 2998331571071655000000000000000000; 2649715563325428000000000000000000; 2737922951607044000000000000000000; 
    2998331571071654000000000000000000; 2998331571071655000000000000000000; 2737922951607044000000000000000000; 2649715563325417000000000000000000; 
    2849270908894107000000000000000000; 2649715563325414000000000000000000; 2274774446694982000000000000000000; 2274774446694981000000000000000000; 
    1591042622301235000000000000000000; 3888673467380199000000000000000000; 4562375132998782000000000000000000; 4785930637130782000000000000000000; 
    4785930637130780000000000000000000; 4562375132998783000000000000000000; 3888673467380198000000000000000000; 4562375132998784000000000000000000; 
    4902714774046743000000000000000000; 4852511964138669000000000000000000; 4902714774046733000000000000000000; 4562375132998790000000000000000000; 
    4785930637130771000000000000000000; 4852511964138678000000000000000000; 4852511964138672000000000000000000; 4785930637130774000000000000000000; 
    4785930637130773000000000000000000; 4902714774046746000000000000000000; 4785930637130786000000000000000000; 4562375132998771000000000000000000; 
    4562375132998775000000000000000000; 3888673467380188000000000000000000; 6152303990922962000000000000000000; 6835542487848091000000000000000000; 
    6982408114275738000000000000000000; 6835542487848097000000000000000000; 6152303990922963000000000000000000; 6835542487848098000000000000000000; 
    6961725018456978000000000000000000; 6961725018456984000000000000000000; 6835542487848093000000000000000000; 6982408114275737000000000000000000; 
    6961725018456970000000000000000000; 6982408114275740000000000000000000; 6835542487848105000000000000000000; 6835542487848100000000000000000000; 
    6152303990922964000000000000000000; 8315458564460508000000000000000000; 8760815234237831000000000000000000; 8760815234237836000000000000000000; 
    8315458564460513000000000000000000; 8760815234237831000000000000000000; 8821684908355937000000000000000000; 8760815234237830000000000000000000; 
    8760815234237824000000000000000000; 8760815234237826000000000000000000; 8315458564460514000000000000000000; 10159951395832840000000000000000000; 
    9899839774950701000000000000000000; 10159951395832810000000000000000000; 9899839774950694000000000000000000; 9899839774950712000000000000000000; 
    10159951395832820000000000000000000; 11139780536192910000000000000000000; 11139780536192930000000000000000000; 11139780536192900000000000000000000; 
    11357958406937460000000000000000000]],
   [3521367632335424000000000000000; 1413161827715348000000000000000; 3456523266030488000000000000000; 5453877468193948000000000000000; 
    8292469614310042000000000000000; 7831726262173584000000000000000; 8292469614309855000000000000000; 5453877468193986000000000000000; 
    3456523266030496000000000000000; 1413161827715350000000000000000; 3521367632335600000000000000000; 1413161827715597000000000000000; 
    10332460826240460000000000000000; 13089807819769500000000000000000; 20808047003388100000000000000000; 22660260679757740000000000000000; 
    22660260679757580000000000000000; 20808047003388110000000000000000; 13089807819769540000000000000000; 10332460826240480000000000000000; 
    1413161827715458000000000000000; 3456523266030487000000000000000; 13089807819769450000000000000000; 30615178856887570000000000000000; 
    33089880968107120000000000000000; 30621513345795430000000000000000; 33089880968107100000000000000000; 30615178856887760000000000000000; 
    13089807819769510000000000000000; 3456523266030419000000000000000; 5453877468193884000000000000000; 20808047003388110000000000000000; 
    33089880968107100000000000000000; 38228899229460050000000000000000; 38228899229459950000000000000000; 33089880968107100000000000000000; 
    20808047003388140000000000000000; 5453877468193975000000000000000; 8292469614310157000000000000000; 22660260679757740000000000000000; 
    30621513345795740000000000000000; 38228899229460020000000000000000; 30621513345795550000000000000000; 22660260679757590000000000000000; 
    8292469614310039000000000000000; 7831726262173552000000000000000; 22660260679757550000000000000000; 33089880968107020000000000000000; 
    33089880968107150000000000000000; 22660260679757680000000000000000; 7831726262173501000000000000000; 8292469614310278000000000000000; 
    20808047003388070000000000000000; 30615178856887690000000000000000; 20808047003388190000000000000000; 8292469614310285000000000000000; 
    5453877468193907000000000000000; 13089807819769400000000000000000; 13089807819769450000000000000000; 5453877468193824000000000000000; 
    3456523266030458000000000000000; 10332460826240540000000000000000; 3456523266030449000000000000000; 1413161827715397000000000000000; 
    1413161827715447000000000000000; 3521367632335709000000000000000; 1413161827715592000000000000000; 10332460826240380000000000000000; 
    13089807819769560000000000000000; 20808047003388070000000000000000; 22660260679757680000000000000000; 22660260679757540000000000000000; 
    20808047003388110000000000000000; 13089807819769600000000000000000; 10332460826240330000000000000000; 1413161827715437000000000000000; 
    10332460826240600000000000000000; 23999660409692170000000000000000; 50337080984312460000000000000000; 54293174712358650000000000000000; 
    48010874582846090000000000000000; 54293174712358740000000000000000; 50337080984312510000000000000000; 23999660409692310000000000000000; 
    10332460826240320000000000000000; 13089807819769320000000000000000; 50337080984312520000000000000000; 72066251421223090000000000000000; 
    70049408611758330000000000000000; 70049408611758140000000000000000; 72066251421222760000000000000000; 50337080984312580000000000000000; 
    13089807819769560000000000000000; 20808047003388130000000000000000; 54293174712358340000000000000000; 70049408611758260000000000000000; 
    91181474253211300000000000000000; 70049408611758330000000000000000; 54293174712358540000000000000000; 20808047003388160000000000000000; 
    22660260679757610000000000000000; 48010874582845570000000000000000; 70049408611758110000000000000000; 70049408611758280000000000000000; 
    48010874582845910000000000000000; 22660260679757590000000000000000; 22660260679757650000000000000000; 54293174712358340000000000000000; 
    72066251421223180000000000000000; 54293174712358620000000000000000; 22660260679757610000000000000000; 20808047003388070000000000000000; 
    50337080984312650000000000000000; 50337080984312720000000000000000; 20808047003388200000000000000000; 13089807819769340000000000000000; 
    23999660409692330000000000000000; 13089807819769380000000000000000; 10332460826240520000000000000000; 10332460826240360000000000000000; 
    1413161827715318000000000000000; 3456523266030527000000000000000; 13089807819769390000000000000000; 30615178856887600000000000000000; 
    33089880968107190000000000000000; 30621513345795660000000000000000; 33089880968107200000000000000000; 30615178856887720000000000000000; 
    13089807819769440000000000000000; 3456523266030517000000000000000; 13089807819769350000000000000000; 50337080984312370000000000000000; 
    72066251421222990000000000000000; 70049408611758360000000000000000; 70049408611758430000000000000000; 72066251421223000000000000000000; 
    50337080984312280000000000000000; 13089807819769500000000000000000; 30615178856887750000000000000000; 72066251421223250000000000000000; 
    96513511658031550000000000000000; 123017655720061100000000000000000; 96513511658031500000000000000000; 72066251421222890000000000000000; 
    30615178856887710000000000000000; 33089880968107260000000000000000; 70049408611758460000000000000000; 123017655720061400000000000000000; 
    123017655720061300000000000000000; 70049408611758830000000000000000; 33089880968107280000000000000000; 30621513345795290000000000000000; 
    70049408611758140000000000000000; 96513511658031290000000000000000; 70049408611758180000000000000000; 30621513345795370000000000000000; 
    33089880968107110000000000000000; 72066251421223080000000000000000; 72066251421222940000000000000000; 33089880968107040000000000000000; 
    30615178856887720000000000000000; 50337080984312430000000000000000; 30615178856887740000000000000000; 13089807819769460000000000000000; 
    13089807819769620000000000000000; 3456523266030522000000000000000; 5453877468193839000000000000000; 20808047003388120000000000000000; 
    33089880968107130000000000000000; 38228899229460050000000000000000; 38228899229459980000000000000000; 33089880968107060000000000000000; 
    20808047003388100000000000000000; 5453877468193871000000000000000; 20808047003388080000000000000000; 54293174712358440000000000000000; 
    70049408611758210000000000000000; 91181474253211160000000000000000; 70049408611758490000000000000000; 54293174712358270000000000000000; 
    20808047003388030000000000000000; 33089880968107330000000000000000; 70049408611758560000000000000000; 123017655720061600000000000000000; 
    123017655720061600000000000000000; 70049408611758670000000000000000; 33089880968107270000000000000000; 38228899229460030000000000000000; 
    91181474253211320000000000000000; 123017655720061300000000000000000; 91181474253211380000000000000000; 38228899229460120000000000000000; 
    38228899229459920000000000000000; 70049408611758410000000000000000; 70049408611757890000000000000000; 38228899229459870000000000000000; 
    33089880968107140000000000000000; 54293174712358050000000000000000; 33089880968106990000000000000000; 20808047003387900000000000000000; 
    20808047003387820000000000000000; 5453877468193989000000000000000; 8292469614310169000000000000000; 22660260679757700000000000000000; 
    30621513345795670000000000000000; 38228899229460080000000000000000; 30621513345795530000000000000000; 22660260679757490000000000000000; 
    8292469614309996000000000000000; 22660260679757680000000000000000; 48010874582845950000000000000000; 70049408611758170000000000000000; 
    70049408611758150000000000000000; 48010874582845830000000000000000; 22660260679757590000000000000000; 30621513345795470000000000000000; 
    70049408611758260000000000000000; 96513511658031550000000000000000; 70049408611758140000000000000000; 30621513345795600000000000000000; 
    38228899229459750000000000000000; 70049408611758100000000000000000; 70049408611758200000000000000000; 38228899229460050000000000000000; 
    30621513345795420000000000000000; 48010874582846000000000000000000; 30621513345795770000000000000000; 22660260679757790000000000000000; 
    22660260679757830000000000000000; 8292469614310112000000000000000; 7831726262173506000000000000000; 22660260679757740000000000000000; 
    33089880968107160000000000000000; 33089880968107160000000000000000; 22660260679757650000000000000000; 7831726262173504000000000000000; 
    22660260679757770000000000000000; 54293174712358320000000000000000; 72066251421223020000000000000000; 54293174712358550000000000000000; 
    22660260679757670000000000000000; 33089880968106980000000000000000; 72066251421222670000000000000000; 72066251421222970000000000000000; 
    33089880968106920000000000000000; 33089880968106990000000000000000; 54293174712358210000000000000000; 33089880968107090000000000000000; 
    22660260679757810000000000000000; 22660260679757900000000000000000; 7831726262173622000000000000000; 8292469614310196000000000000000; 
    20808047003388020000000000000000; 30615178856887760000000000000000; 20808047003388110000000000000000; 8292469614310253000000000000000; 
    20808047003388000000000000000000; 50337080984312670000000000000000; 50337080984312780000000000000000; 20808047003388100000000000000000; 
    30615178856887820000000000000000; 50337080984312570000000000000000; 30615178856887610000000000000000; 20808047003387970000000000000000; 
    20808047003387990000000000000000; 8292469614310308000000000000000; 5453877468193944000000000000000; 13089807819769550000000000000000; 
    13089807819769420000000000000000; 5453877468193884000000000000000; 13089807819769540000000000000000; 23999660409692450000000000000000; 
    13089807819769450000000000000000; 13089807819769570000000000000000; 13089807819769580000000000000000; 5453877468193845000000000000000; 
    3456523266030455000000000000000; 10332460826240510000000000000000; 3456523266030462000000000000000; 10332460826240210000000000000000; 
    10332460826240310000000000000000; 3456523266030520000000000000000; 1413161827715346000000000000000; 1413161827715393000000000000000; 
    1413161827715380000000000000000; 3521367632335686000000000000000], 15%nat).
(** vr_quad_data_tet.py: the dictionary tetrahedron_data *)
Definition vr_tetrahedron_data : dec_table :=
  [(0%nat, vr_tetrahedron_data_0); (1%nat, vr_tetrahedron_data_1); (2%nat, vr_tetrahedron_data_2); (3%nat, vr_tetrahedron_data_3); 
    (4%nat, vr_tetrahedron_data_4); (5%nat, vr_tetrahedron_data_5); (6%nat, vr_tetrahedron_data_6); (7%nat, vr_tetrahedron_data_7); 
    (8%nat, vr_tetrahedron_data_8); (9%nat, vr_tetrahedron_data_9); (10%nat, vr_tetrahedron_data_10)].
