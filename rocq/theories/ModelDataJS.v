(** * The table of modepy/quadrature/jaskowiec_sukumar_tet_data.py

    Generated from the text of the file.  Decimal literals are written as integers, over
    the power of ten given at each table. *)
From Coq Require Import List ZArith.
From Verif Require Import ModelTables.
Import ListNotations.
Local Open Scope Z_scope.

(** Points over 10^25, weights over 10^21. *)
(** jaskowiec_sukumar_tet_data.py:32-36 *)
Definition js_tet_data_0 : list (list Z) * list Z * nat :=
  ([[2500000000000000000000000];
   [2500000000000000000000000];
   [2500000000000000000000000]],
   [1000000000000000000000], 1%nat).
(** jaskowiec_sukumar_tet_data.py:37-60 *)
Definition js_tet_data_1 : list (list Z) * list Z * nat :=
  ([[1381966011250105000000000; 5854101966249684000000000; 1381966011250105000000000; 1381966011250105000000000];
   [1381966011250105000000000; 1381966011250105000000000; 5854101966249684000000000; 1381966011250105000000000];
   [1381966011250105000000000; 1381966011250105000000000; 1381966011250105000000000; 5854101966249684000000000]],
   [250000000000000000000; 250000000000000000000; 250000000000000000000; 250000000000000000000], 2%nat).
(** jaskowiec_sukumar_tet_data.py:61-105 *)
Definition js_tet_data_2 : list (list Z) * list Z * nat :=
  ([[3286811466653490000000000; 139565600039530000000000; 3286811466653490000000000; 3286811466653490000000000; 1119207275092916000000000; 
    6642378174721254000000000; 1119207275092916000000000; 1119207275092916000000000];
   [3286811466653490000000000; 3286811466653490000000000; 139565600039530000000000; 3286811466653490000000000; 1119207275092916000000000; 
    1119207275092916000000000; 6642378174721254000000000; 1119207275092916000000000];
   [3286811466653490000000000; 3286811466653490000000000; 3286811466653490000000000; 139565600039530000000000; 1119207275092916000000000; 
    1119207275092916000000000; 1119207275092916000000000; 6642378174721254000000000]],
   [127491311557506400000; 127491311557506400000; 127491311557506400000; 127491311557506400000; 122508688442493600000; 122508688442493600000; 
    122508688442493600000; 122508688442493600000], 3%nat).
(** jaskowiec_sukumar_tet_data.py:106-174 *)
Definition js_tet_data_3 : list (list Z) * list Z * nat :=
  ([[3095821653179519000000000; 712535040461443000000000; 3095821653179519000000000; 3095821653179519000000000; 834427723039776000000000; 
    7496716830880673000000000; 834427723039776000000000; 834427723039776000000000; 772209540700587000000000; 4227790459299413000000000; 
    772209540700587000000000; 4227790459299413000000000; 772209540700587000000000; 4227790459299413000000000];
   [3095821653179519000000000; 3095821653179519000000000; 712535040461443000000000; 3095821653179519000000000; 834427723039776000000000; 
    834427723039776000000000; 7496716830880673000000000; 834427723039776000000000; 4227790459299413000000000; 772209540700587000000000; 
    772209540700587000000000; 4227790459299413000000000; 4227790459299413000000000; 772209540700587000000000];
   [3095821653179519000000000; 3095821653179519000000000; 3095821653179519000000000; 712535040461443000000000; 834427723039776000000000; 
    834427723039776000000000; 834427723039776000000000; 7496716830880673000000000; 4227790459299413000000000; 4227790459299413000000000; 
    4227790459299413000000000; 772209540700587000000000; 772209540700587000000000; 772209540700587000000000]],
   [65409163634452200000; 65409163634452200000; 65409163634452200000; 65409163634452200000; 59355264231004800000; 59355264231004800000; 
    59355264231004800000; 59355264231004800000; 83490381423028700000; 83490381423028700000; 83490381423028700000; 83490381423028700000; 
    83490381423028700000; 83490381423028700000], 4%nat).
(** jaskowiec_sukumar_tet_data.py:175-243 *)
Definition js_tet_data_4 : list (list Z) * list Z * nat :=
  ([[3108859192633006000000000; 673422422100982000000000; 3108859192633006000000000; 3108859192633006000000000; 927352503108912000000000; 
    7217942490673264000000000; 927352503108912000000000; 927352503108912000000000; 455037041256496000000000; 4544962958743504000000000; 
    455037041256496000000000; 4544962958743504000000000; 455037041256496000000000; 4544962958743504000000000];
   [3108859192633006000000000; 3108859192633006000000000; 673422422100982000000000; 3108859192633006000000000; 927352503108912000000000; 
    927352503108912000000000; 7217942490673264000000000; 927352503108912000000000; 4544962958743504000000000; 455037041256496000000000; 
    455037041256496000000000; 4544962958743504000000000; 4544962958743504000000000; 455037041256496000000000];
   [3108859192633006000000000; 3108859192633006000000000; 3108859192633006000000000; 673422422100982000000000; 927352503108912000000000; 
    927352503108912000000000; 927352503108912000000000; 7217942490673264000000000; 4544962958743504000000000; 4544962958743504000000000; 
    4544962958743504000000000; 455037041256496000000000; 455037041256496000000000; 455037041256496000000000]],
   [112687925718015800000; 112687925718015800000; 112687925718015800000; 112687925718015800000; 73493043116362000000; 73493043116362000000; 
    73493043116362000000; 73493043116362000000; 42546020777081500000; 42546020777081500000; 42546020777081500000; 42546020777081500000; 
    42546020777081500000; 42546020777081500000], 5%nat).
(** jaskowiec_sukumar_tet_data.py:244-352 *)
Definition js_tet_data_5 : list (list Z) * list Z * nat :=
  ([[406739585346114000000000; 8779781243961660000000000; 406739585346114000000000; 406739585346114000000000; 3223378901422755000000000; 
    329863295731735000000000; 3223378901422755000000000; 3223378901422755000000000; 2146028712591520000000000; 3561913862225439000000000; 
    2146028712591520000000000; 2146028712591520000000000; 6030056647916492000000000; 636610018750175000000000; 636610018750175000000000; 
    2696723314583158000000000; 2696723314583158000000000; 2696723314583158000000000; 636610018750175000000000; 6030056647916492000000000; 
    636610018750175000000000; 636610018750175000000000; 6030056647916492000000000; 636610018750175000000000];
   [406739585346114000000000; 406739585346114000000000; 8779781243961660000000000; 406739585346114000000000; 3223378901422755000000000; 
    3223378901422755000000000; 329863295731735000000000; 3223378901422755000000000; 2146028712591520000000000; 2146028712591520000000000; 
    3561913862225439000000000; 2146028712591520000000000; 636610018750175000000000; 6030056647916492000000000; 636610018750175000000000; 
    636610018750175000000000; 6030056647916492000000000; 636610018750175000000000; 2696723314583158000000000; 2696723314583158000000000; 
    2696723314583158000000000; 636610018750175000000000; 636610018750175000000000; 6030056647916492000000000];
   [406739585346114000000000; 406739585346114000000000; 406739585346114000000000; 8779781243961660000000000; 3223378901422755000000000; 
    3223378901422755000000000; 3223378901422755000000000; 329863295731735000000000; 2146028712591520000000000; 2146028712591520000000000; 
    2146028712591520000000000; 3561913862225439000000000; 636610018750175000000000; 636610018750175000000000; 6030056647916492000000000; 
    636610018750175000000000; 636610018750175000000000; 6030056647916492000000000; 636610018750175000000000; 636610018750175000000000; 
    6030056647916492000000000; 2696723314583158000000000; 2696723314583158000000000; 2696723314583158000000000]],
   [10077211055320600000; 10077211055320600000; 10077211055320600000; 10077211055320600000; 55357181543654700000; 55357181543654700000; 
    55357181543654700000; 55357181543654700000; 39922750258167500000; 39922750258167500000; 39922750258167500000; 39922750258167500000; 
    48214285714285700000; 48214285714285700000; 48214285714285700000; 48214285714285700000; 48214285714285700000; 48214285714285700000; 
    48214285714285700000; 48214285714285700000; 48214285714285700000; 48214285714285700000; 48214285714285700000; 48214285714285700000], 6%nat).
(** jaskowiec_sukumar_tet_data.py:353-505 *)
Definition js_tet_data_6 : list (list Z) * list Z * nat :=
  ([[2500000000000000000000000; 3157011497782028000000000; 528965506653916000000000; 3157011497782028000000000; 3157011497782028000000000; 
    504898225983964000000000; 4495101774016036000000000; 504898225983964000000000; 4495101774016036000000000; 504898225983964000000000; 
    4495101774016036000000000; 8108302410985485000000000; 212654725414832000000000; 212654725414832000000000; 1466388138184850000000000; 
    1466388138184850000000000; 1466388138184850000000000; 212654725414832000000000; 8108302410985485000000000; 212654725414832000000000; 
    212654725414832000000000; 8108302410985485000000000; 212654725414832000000000; 5751716375870001000000000; 1888338310260010000000000; 
    1888338310260010000000000; 471607003609979000000000; 471607003609979000000000; 471607003609979000000000; 1888338310260010000000000; 
    5751716375870001000000000; 1888338310260010000000000; 1888338310260010000000000; 5751716375870001000000000; 1888338310260010000000000];
   [2500000000000000000000000; 3157011497782028000000000; 3157011497782028000000000; 528965506653916000000000; 3157011497782028000000000; 
    4495101774016036000000000; 504898225983964000000000; 504898225983964000000000; 4495101774016036000000000; 4495101774016036000000000; 
    504898225983964000000000; 212654725414832000000000; 8108302410985485000000000; 212654725414832000000000; 212654725414832000000000; 
    8108302410985485000000000; 212654725414832000000000; 1466388138184850000000000; 1466388138184850000000000; 1466388138184850000000000; 
    212654725414832000000000; 212654725414832000000000; 8108302410985485000000000; 1888338310260010000000000; 5751716375870001000000000; 
    1888338310260010000000000; 1888338310260010000000000; 5751716375870001000000000; 1888338310260010000000000; 471607003609979000000000; 
    471607003609979000000000; 471607003609979000000000; 1888338310260010000000000; 1888338310260010000000000; 5751716375870001000000000];
   [2500000000000000000000000; 3157011497782028000000000; 3157011497782028000000000; 3157011497782028000000000; 528965506653916000000000; 
    4495101774016036000000000; 4495101774016036000000000; 4495101774016036000000000; 504898225983964000000000; 504898225983964000000000; 
    504898225983964000000000; 212654725414832000000000; 212654725414832000000000; 8108302410985485000000000; 212654725414832000000000; 
    212654725414832000000000; 8108302410985485000000000; 212654725414832000000000; 212654725414832000000000; 8108302410985485000000000; 
    1466388138184850000000000; 1466388138184850000000000; 1466388138184850000000000; 1888338310260010000000000; 1888338310260010000000000; 
    5751716375870001000000000; 1888338310260010000000000; 1888338310260010000000000; 5751716375870001000000000; 1888338310260010000000000; 
    1888338310260010000000000; 5751716375870001000000000; 471607003609979000000000; 471607003609979000000000; 471607003609979000000000]],
   [95485289464130800000; 42329581209967000000; 42329581209967000000; 42329581209967000000; 42329581209967000000; 31896927832857600000; 
    31896927832857600000; 31896927832857600000; 31896927832857600000; 31896927832857600000; 31896927832857600000; 8110770829903300000; 
    8110770829903300000; 8110770829903300000; 8110770829903300000; 8110770829903300000; 8110770829903300000; 8110770829903300000; 8110770829903300000; 
    8110770829903300000; 8110770829903300000; 8110770829903300000; 8110770829903300000; 37207130728334600000; 37207130728334600000; 37207130728334600000; 
    37207130728334600000; 37207130728334600000; 37207130728334600000; 37207130728334600000; 37207130728334600000; 37207130728334600000; 
    37207130728334600000; 37207130728334600000; 37207130728334600000], 7%nat).
(** jaskowiec_sukumar_tet_data.py:506-702 *)
Definition js_tet_data_7 : list (list Z) * list Z * nat :=
  ([[1868127582707210000000000; 4395617251878371000000000; 1868127582707210000000000; 1868127582707210000000000; 1144624067612305000000000; 
    6566127797163085000000000; 1144624067612305000000000; 1144624067612305000000000; 3138065922724016000000000; 585802231827951000000000; 
    3138065922724016000000000; 3138065922724016000000000; 445773794488462000000000; 8662678616534613000000000; 445773794488462000000000; 
    445773794488462000000000; 4345165094561576000000000; 654834905438424000000000; 4345165094561576000000000; 654834905438424000000000; 
    4345165094561576000000000; 654834905438424000000000; 50733207504216000000000; 2038931746621103000000000; 2038931746621103000000000; 
    5871403299253578000000000; 5871403299253578000000000; 5871403299253578000000000; 2038931746621103000000000; 50733207504216000000000; 
    2038931746621103000000000; 2038931746621103000000000; 50733207504216000000000; 2038931746621103000000000; 7146769263933049000000000; 
    212477796695717000000000; 212477796695717000000000; 2428275142675518000000000; 2428275142675518000000000; 2428275142675518000000000; 
    212477796695717000000000; 7146769263933049000000000; 212477796695717000000000; 212477796695717000000000; 7146769263933049000000000; 
    212477796695717000000000];
   [1868127582707210000000000; 1868127582707210000000000; 4395617251878371000000000; 1868127582707210000000000; 1144624067612305000000000; 
    1144624067612305000000000; 6566127797163085000000000; 1144624067612305000000000; 3138065922724016000000000; 3138065922724016000000000; 
    585802231827951000000000; 3138065922724016000000000; 445773794488462000000000; 445773794488462000000000; 8662678616534613000000000; 
    445773794488462000000000; 654834905438424000000000; 4345165094561576000000000; 4345165094561576000000000; 654834905438424000000000; 
    654834905438424000000000; 4345165094561576000000000; 2038931746621103000000000; 50733207504216000000000; 2038931746621103000000000; 
    2038931746621103000000000; 50733207504216000000000; 2038931746621103000000000; 5871403299253578000000000; 5871403299253578000000000; 
    5871403299253578000000000; 2038931746621103000000000; 2038931746621103000000000; 50733207504216000000000; 212477796695717000000000; 
    7146769263933049000000000; 212477796695717000000000; 212477796695717000000000; 7146769263933049000000000; 212477796695717000000000; 
    2428275142675518000000000; 2428275142675518000000000; 2428275142675518000000000; 212477796695717000000000; 212477796695717000000000; 
    7146769263933049000000000];
   [1868127582707210000000000; 1868127582707210000000000; 1868127582707210000000000; 4395617251878371000000000; 1144624067612305000000000; 
    1144624067612305000000000; 1144624067612305000000000; 6566127797163085000000000; 3138065922724016000000000; 3138065922724016000000000; 
    3138065922724016000000000; 585802231827951000000000; 445773794488462000000000; 445773794488462000000000; 445773794488462000000000; 
    8662678616534613000000000; 654834905438424000000000; 654834905438424000000000; 654834905438424000000000; 4345165094561576000000000; 
    4345165094561576000000000; 4345165094561576000000000; 2038931746621103000000000; 2038931746621103000000000; 50733207504216000000000; 
    2038931746621103000000000; 2038931746621103000000000; 50733207504216000000000; 2038931746621103000000000; 2038931746621103000000000; 
    50733207504216000000000; 5871403299253578000000000; 5871403299253578000000000; 5871403299253578000000000; 212477796695717000000000; 
    212477796695717000000000; 7146769263933049000000000; 212477796695717000000000; 212477796695717000000000; 7146769263933049000000000; 
    212477796695717000000000; 212477796695717000000000; 7146769263933049000000000; 2428275142675518000000000; 2428275142675518000000000; 
    2428275142675518000000000]],
   [47812988034306700000; 47812988034306700000; 47812988034306700000; 47812988034306700000; 29727854086794200000; 29727854086794200000; 
    29727854086794200000; 29727854086794200000; 43527324218975300000; 43527324218975300000; 43527324218975300000; 43527324218975300000; 
    8632736020815000000; 8632736020815000000; 8632736020815000000; 8632736020815000000; 36890541269866400000; 36890541269866400000; 36890541269866400000; 
    36890541269866400000; 36890541269866400000; 36890541269866400000; 14497026710859500000; 14497026710859500000; 14497026710859500000; 
    14497026710859500000; 14497026710859500000; 14497026710859500000; 14497026710859500000; 14497026710859500000; 14497026710859500000; 
    14497026710859500000; 14497026710859500000; 14497026710859500000; 7157401867243600000; 7157401867243600000; 7157401867243600000; 7157401867243600000; 
    7157401867243600000; 7157401867243600000; 7157401867243600000; 7157401867243600000; 7157401867243600000; 7157401867243600000; 7157401867243600000; 
    7157401867243600000], 8%nat).
(** jaskowiec_sukumar_tet_data.py:703-951 *)
Definition js_tet_data_8 : list (list Z) * list Z * nat :=
  ([[2500000000000000000000000; 1679066052367427800000000; 4962801842897716100000000; 1679066052367427800000000; 1679066052367427800000000; 
    914362705140762540000000; 7256911884577712500000000; 914362705140762540000000; 914362705140762540000000; 3218556648176532600000000; 
    344330055470402010000000; 3218556648176532600000000; 3218556648176532600000000; 418376959003656030000000; 8744869122989031900000000; 
    418376959003656030000000; 418376959003656030000000; 3932705614251536500000000; 1067294385748463600000000; 3932705614251536500000000; 
    1067294385748463600000000; 3932705614251536500000000; 1067294385748463600000000; 7183930939814243700000000; 339571681830888870000000; 
    339571681830888870000000; 2136925696523978300000000; 2136925696523978300000000; 2136925696523978300000000; 339571681830888870000000; 
    7183930939814243700000000; 339571681830888870000000; 339571681830888870000000; 7183930939814243700000000; 339571681830888870000000; 
    786836344766879280000000; 4606581810547776300000000; 4606581810547776300000000; 34137568036933633; 34137568036933633; 34137568036933633; 
    4606581810547776300000000; 786836344766879280000000; 4606581810547776300000000; 4606581810547776300000000; 786836344766879280000000; 
    4606581810547776300000000; 5972107227618499400000000; 1843879435000151900000000; 1843879435000151900000000; 340133902381196600000000; 
    340133902381196600000000; 340133902381196600000000; 1843879435000151900000000; 5972107227618499400000000; 1843879435000151900000000; 
    1843879435000151900000000; 5972107227618499400000000; 1843879435000151900000000];
   [2500000000000000000000000; 1679066052367427800000000; 1679066052367427800000000; 4962801842897716100000000; 1679066052367427800000000; 
    914362705140762540000000; 914362705140762540000000; 7256911884577712500000000; 914362705140762540000000; 3218556648176532600000000; 
    3218556648176532600000000; 344330055470402010000000; 3218556648176532600000000; 418376959003656030000000; 418376959003656030000000; 
    8744869122989031900000000; 418376959003656030000000; 1067294385748463600000000; 3932705614251536500000000; 3932705614251536500000000; 
    1067294385748463600000000; 1067294385748463600000000; 3932705614251536500000000; 339571681830888870000000; 7183930939814243700000000; 
    339571681830888870000000; 339571681830888870000000; 7183930939814243700000000; 339571681830888870000000; 2136925696523978300000000; 
    2136925696523978300000000; 2136925696523978300000000; 339571681830888870000000; 339571681830888870000000; 7183930939814243700000000; 
    4606581810547776300000000; 786836344766879280000000; 4606581810547776300000000; 4606581810547776300000000; 786836344766879280000000; 
    4606581810547776300000000; 34137568036933633; 34137568036933633; 34137568036933633; 4606581810547776300000000; 4606581810547776300000000; 
    786836344766879280000000; 1843879435000151900000000; 5972107227618499400000000; 1843879435000151900000000; 1843879435000151900000000; 
    5972107227618499400000000; 1843879435000151900000000; 340133902381196600000000; 340133902381196600000000; 340133902381196600000000; 
    1843879435000151900000000; 1843879435000151900000000; 5972107227618499400000000];
   [2500000000000000000000000; 1679066052367427800000000; 1679066052367427800000000; 1679066052367427800000000; 4962801842897716100000000; 
    914362705140762540000000; 914362705140762540000000; 914362705140762540000000; 7256911884577712500000000; 3218556648176532600000000; 
    3218556648176532600000000; 3218556648176532600000000; 344330055470402010000000; 418376959003656030000000; 418376959003656030000000; 
    418376959003656030000000; 8744869122989031900000000; 1067294385748463600000000; 1067294385748463600000000; 1067294385748463600000000; 
    3932705614251536500000000; 3932705614251536500000000; 3932705614251536500000000; 339571681830888870000000; 339571681830888870000000; 
    7183930939814243700000000; 339571681830888870000000; 339571681830888870000000; 7183930939814243700000000; 339571681830888870000000; 
    339571681830888870000000; 7183930939814243700000000; 2136925696523978300000000; 2136925696523978300000000; 2136925696523978300000000; 
    4606581810547776300000000; 4606581810547776300000000; 786836344766879280000000; 4606581810547776300000000; 4606581810547776300000000; 
    786836344766879280000000; 4606581810547776300000000; 4606581810547776300000000; 786836344766879280000000; 34137568036933633; 34137568036933633; 
    34137568036933633; 1843879435000151900000000; 1843879435000151900000000; 5972107227618499400000000; 1843879435000151900000000; 
    1843879435000151900000000; 5972107227618499400000000; 1843879435000151900000000; 1843879435000151900000000; 5972107227618499400000000; 
    340133902381196600000000; 340133902381196600000000; 340133902381196600000000]],
   [56866624253551700000; 25694276689523200000; 25694276689523200000; 25694276689523200000; 25694276689523200000; 2298923353028400000; 
    2298923353028400000; 2298923353028400000; 2298923353028400000; 30456038667591000000; 30456038667591000000; 30456038667591000000; 
    30456038667591000000; 7123722340238900000; 7123722340238900000; 7123722340238900000; 7123722340238900000; 36843655480943900000; 36843655480943900000; 
    36843655480943900000; 36843655480943900000; 36843655480943900000; 36843655480943900000; 10322056782209800000; 10322056782209800000; 
    10322056782209800000; 10322056782209800000; 10322056782209800000; 10322056782209800000; 10322056782209800000; 10322056782209800000; 
    10322056782209800000; 10322056782209800000; 10322056782209800000; 10322056782209800000; 7634887153980900000; 7634887153980900000; 
    7634887153980900000; 7634887153980900000; 7634887153980900000; 7634887153980900000; 7634887153980900000; 7634887153980900000; 7634887153980900000; 
    7634887153980900000; 7634887153980900000; 7634887153980900000; 20358022618747600000; 20358022618747600000; 20358022618747600000; 
    20358022618747600000; 20358022618747600000; 20358022618747600000; 20358022618747600000; 20358022618747600000; 20358022618747600000; 
    20358022618747600000; 20358022618747600000; 20358022618747600000], 9%nat).
(** jaskowiec_sukumar_tet_data.py:952-1288 *)
Definition js_tet_data_9 : list (list Z) * list Z * nat :=
  ([[2500000000000000000000000; 725517574174378010000000; 7823447277476866000000000; 725517574174378010000000; 725517574174378010000000; 
    3078959478669228700000000; 763121563992313210000000; 3078959478669228700000000; 3078959478669228700000000; 4762808603927790600000000; 
    237191396072209300000000; 4762808603927790600000000; 237191396072209300000000; 4762808603927790600000000; 237191396072209300000000; 
    965797730691072550000000; 4034202269308927400000000; 965797730691072550000000; 4034202269308927400000000; 965797730691072550000000; 
    4034202269308927400000000; 738541810184862040000000; 2017386068476798900000000; 2017386068476798900000000; 5226686052861540000000000; 
    5226686052861540000000000; 5226686052861540000000000; 2017386068476798900000000; 738541810184862040000000; 2017386068476798900000000; 
    2017386068476798900000000; 738541810184862040000000; 2017386068476798900000000; 6875048558830395600000000; 1548397007438618000000000; 
    1548397007438618000000000; 28157426292368397000000; 28157426292368397000000; 28157426292368397000000; 1548397007438618000000000; 
    6875048558830395600000000; 1548397007438618000000000; 1548397007438618000000000; 6875048558830395600000000; 1548397007438618000000000; 
    1741437164939321200000000; 4125991504993639100000000; 4125991504993639100000000; 6579825073400680600000; 6579825073400680600000; 
    6579825073400680600000; 4125991504993639100000000; 1741437164939321200000000; 4125991504993639100000000; 4125991504993639100000000; 
    1741437164939321200000000; 4125991504993639100000000; 2657575065627199000000000; 388907275578065090000000; 388907275578065090000000; 
    6564610383216671300000000; 6564610383216671300000000; 6564610383216671300000000; 388907275578065090000000; 2657575065627199000000000; 
    388907275578065090000000; 388907275578065090000000; 2657575065627199000000000; 388907275578065090000000; 932413490352584080000000; 
    56048479510213377000000; 56048479510213377000000; 8955489550626989400000000; 8955489550626989400000000; 8955489550626989400000000; 
    56048479510213377000000; 932413490352584080000000; 56048479510213377000000; 56048479510213377000000; 932413490352584080000000; 56048479510213377000000];
   [2500000000000000000000000; 725517574174378010000000; 725517574174378010000000; 7823447277476866000000000; 725517574174378010000000; 
    3078959478669228700000000; 3078959478669228700000000; 763121563992313210000000; 3078959478669228700000000; 237191396072209300000000; 
    4762808603927790600000000; 4762808603927790600000000; 237191396072209300000000; 237191396072209300000000; 4762808603927790600000000; 
    4034202269308927400000000; 965797730691072550000000; 965797730691072550000000; 4034202269308927400000000; 4034202269308927400000000; 
    965797730691072550000000; 2017386068476798900000000; 738541810184862040000000; 2017386068476798900000000; 2017386068476798900000000; 
    738541810184862040000000; 2017386068476798900000000; 5226686052861540000000000; 5226686052861540000000000; 5226686052861540000000000; 
    2017386068476798900000000; 2017386068476798900000000; 738541810184862040000000; 1548397007438618000000000; 6875048558830395600000000; 
    1548397007438618000000000; 1548397007438618000000000; 6875048558830395600000000; 1548397007438618000000000; 28157426292368397000000; 
    28157426292368397000000; 28157426292368397000000; 1548397007438618000000000; 1548397007438618000000000; 6875048558830395600000000; 
    4125991504993639100000000; 1741437164939321200000000; 4125991504993639100000000; 4125991504993639100000000; 1741437164939321200000000; 
    4125991504993639100000000; 6579825073400680600000; 6579825073400680600000; 6579825073400680600000; 4125991504993639100000000; 
    4125991504993639100000000; 1741437164939321200000000; 388907275578065090000000; 2657575065627199000000000; 388907275578065090000000; 
    388907275578065090000000; 2657575065627199000000000; 388907275578065090000000; 6564610383216671300000000; 6564610383216671300000000; 
    6564610383216671300000000; 388907275578065090000000; 388907275578065090000000; 2657575065627199000000000; 56048479510213377000000; 
    932413490352584080000000; 56048479510213377000000; 56048479510213377000000; 932413490352584080000000; 56048479510213377000000; 
    8955489550626989400000000; 8955489550626989400000000; 8955489550626989400000000; 56048479510213377000000; 56048479510213377000000; 
    932413490352584080000000];
   [2500000000000000000000000; 725517574174378010000000; 725517574174378010000000; 725517574174378010000000; 7823447277476866000000000; 
    3078959478669228700000000; 3078959478669228700000000; 3078959478669228700000000; 763121563992313210000000; 237191396072209300000000; 
    237191396072209300000000; 237191396072209300000000; 4762808603927790600000000; 4762808603927790600000000; 4762808603927790600000000; 
    4034202269308927400000000; 4034202269308927400000000; 4034202269308927400000000; 965797730691072550000000; 965797730691072550000000; 
    965797730691072550000000; 2017386068476798900000000; 2017386068476798900000000; 738541810184862040000000; 2017386068476798900000000; 
    2017386068476798900000000; 738541810184862040000000; 2017386068476798900000000; 2017386068476798900000000; 738541810184862040000000; 
    5226686052861540000000000; 5226686052861540000000000; 5226686052861540000000000; 1548397007438618000000000; 1548397007438618000000000; 
    6875048558830395600000000; 1548397007438618000000000; 1548397007438618000000000; 6875048558830395600000000; 1548397007438618000000000; 
    1548397007438618000000000; 6875048558830395600000000; 28157426292368397000000; 28157426292368397000000; 28157426292368397000000; 
    4125991504993639100000000; 4125991504993639100000000; 1741437164939321200000000; 4125991504993639100000000; 4125991504993639100000000; 
    1741437164939321200000000; 4125991504993639100000000; 4125991504993639100000000; 1741437164939321200000000; 6579825073400680600000; 
    6579825073400680600000; 6579825073400680600000; 388907275578065090000000; 388907275578065090000000; 2657575065627199000000000; 
    388907275578065090000000; 388907275578065090000000; 2657575065627199000000000; 388907275578065090000000; 388907275578065090000000; 
    2657575065627199000000000; 6564610383216671300000000; 6564610383216671300000000; 6564610383216671300000000; 56048479510213377000000; 
    56048479510213377000000; 932413490352584080000000; 56048479510213377000000; 56048479510213377000000; 932413490352584080000000; 
    56048479510213377000000; 56048479510213377000000; 932413490352584080000000; 8955489550626989400000000; 8955489550626989400000000; 
    8955489550626989400000000]],
   [51650892256097500000; 13467972671660300000; 13467972671660300000; 13467972671660300000; 13467972671660300000; 26466919249689500000; 
    26466919249689500000; 26466919249689500000; 26466919249689500000; 5107047828143500000; 5107047828143500000; 5107047828143500000; 5107047828143500000; 
    5107047828143500000; 5107047828143500000; 23649996158245600000; 23649996158245600000; 23649996158245600000; 23649996158245600000; 
    23649996158245600000; 23649996158245600000; 25317366650968200000; 25317366650968200000; 25317366650968200000; 25317366650968200000; 
    25317366650968200000; 25317366650968200000; 25317366650968200000; 25317366650968200000; 25317366650968200000; 25317366650968200000; 
    25317366650968200000; 25317366650968200000; 5416263407447900000; 5416263407447900000; 5416263407447900000; 5416263407447900000; 5416263407447900000; 
    5416263407447900000; 5416263407447900000; 5416263407447900000; 5416263407447900000; 5416263407447900000; 5416263407447900000; 5416263407447900000; 
    8153659012054200000; 8153659012054200000; 8153659012054200000; 8153659012054200000; 8153659012054200000; 8153659012054200000; 8153659012054200000; 
    8153659012054200000; 8153659012054200000; 8153659012054200000; 8153659012054200000; 8153659012054200000; 11125971759612800000; 11125971759612800000; 
    11125971759612800000; 11125971759612800000; 11125971759612800000; 11125971759612800000; 11125971759612800000; 11125971759612800000; 
    11125971759612800000; 11125971759612800000; 11125971759612800000; 11125971759612800000; 1325678848264200000; 1325678848264200000; 
    1325678848264200000; 1325678848264200000; 1325678848264200000; 1325678848264200000; 1325678848264200000; 1325678848264200000; 1325678848264200000; 
    1325678848264200000; 1325678848264200000; 1325678848264200000], 10%nat).
(** jaskowiec_sukumar_tet_data.py:1289-1741 *)
Definition js_tet_data_10 : list (list Z) * list Z * nat :=
  ([[2993130923993425000000000; 1020607228019725000000000; 2993130923993425000000000; 2993130923993425000000000; 326328439651818000000000; 
    9021014681044546000000000; 326328439651818000000000; 326328439651818000000000; 3257955845153108000000000; 1742044154846892000000000; 
    3257955845153108000000000; 1742044154846892000000000; 3257955845153108000000000; 1742044154846892000000000; 987846241416251000000000; 
    4012153758583749000000000; 987846241416251000000000; 4012153758583749000000000; 987846241416251000000000; 4012153758583749000000000; 
    57019051227004000000000; 4942980948772996000000000; 57019051227004000000000; 4942980948772996000000000; 57019051227004000000000; 
    4942980948772996000000000; 7273303463463835000000000; 1231206549747224000000000; 1231206549747224000000000; 264283437041718000000000; 
    264283437041718000000000; 264283437041718000000000; 1231206549747224000000000; 7273303463463835000000000; 1231206549747224000000000; 
    1231206549747224000000000; 7273303463463835000000000; 1231206549747224000000000; 1702280734892642000000000; 130038704855902000000000; 
    130038704855902000000000; 8037641855395553000000000; 8037641855395553000000000; 8037641855395553000000000; 130038704855902000000000; 
    1702280734892642000000000; 130038704855902000000000; 130038704855902000000000; 1702280734892642000000000; 130038704855902000000000; 
    6182598097891158000000000; 429354011719257000000000; 429354011719257000000000; 2958693878670327000000000; 2958693878670327000000000; 
    2958693878670327000000000; 429354011719257000000000; 6182598097891158000000000; 429354011719257000000000; 429354011719257000000000; 
    6182598097891158000000000; 429354011719257000000000; 5399001168557016000000000; 1844240320470778000000000; 1844240320470778000000000; 
    912518190501429000000000; 912518190501429000000000; 912518190501429000000000; 1844240320470778000000000; 5399001168557016000000000; 
    1844240320470778000000000; 1844240320470778000000000; 5399001168557016000000000; 1844240320470778000000000; 4554353196219595000000000; 
    2591694074642826000000000; 2591694074642826000000000; 262258654494752000000000; 262258654494752000000000; 262258654494752000000000; 
    2591694074642826000000000; 4554353196219595000000000; 2591694074642826000000000; 2591694074642826000000000; 4554353196219595000000000; 
    2591694074642826000000000; 109775723659603000000000; 109775723659603000000000; 5351420009314595000000000; 1124285605067612000000000; 
    5351420009314595000000000; 1124285605067612000000000; 3414518661958190000000000; 3414518661958190000000000; 3414518661958190000000000; 
    3414518661958190000000000; 3414518661958190000000000; 3414518661958190000000000; 5351420009314595000000000; 1124285605067612000000000; 
    109775723659603000000000; 109775723659603000000000; 1124285605067612000000000; 5351420009314595000000000; 5351420009314595000000000; 
    1124285605067612000000000; 109775723659603000000000; 109775723659603000000000; 1124285605067612000000000; 5351420009314595000000000];
   [2993130923993425000000000; 2993130923993425000000000; 1020607228019725000000000; 2993130923993425000000000; 326328439651818000000000; 
    326328439651818000000000; 9021014681044546000000000; 326328439651818000000000; 1742044154846892000000000; 3257955845153108000000000; 
    3257955845153108000000000; 1742044154846892000000000; 1742044154846892000000000; 3257955845153108000000000; 4012153758583749000000000; 
    987846241416251000000000; 987846241416251000000000; 4012153758583749000000000; 4012153758583749000000000; 987846241416251000000000; 
    4942980948772996000000000; 57019051227004000000000; 57019051227004000000000; 4942980948772996000000000; 4942980948772996000000000; 
    57019051227004000000000; 1231206549747224000000000; 7273303463463835000000000; 1231206549747224000000000; 1231206549747224000000000; 
    7273303463463835000000000; 1231206549747224000000000; 264283437041718000000000; 264283437041718000000000; 264283437041718000000000; 
    1231206549747224000000000; 1231206549747224000000000; 7273303463463835000000000; 130038704855902000000000; 1702280734892642000000000; 
    130038704855902000000000; 130038704855902000000000; 1702280734892642000000000; 130038704855902000000000; 8037641855395553000000000; 
    8037641855395553000000000; 8037641855395553000000000; 130038704855902000000000; 130038704855902000000000; 1702280734892642000000000; 
    429354011719257000000000; 6182598097891158000000000; 429354011719257000000000; 429354011719257000000000; 6182598097891158000000000; 
    429354011719257000000000; 2958693878670327000000000; 2958693878670327000000000; 2958693878670327000000000; 429354011719257000000000; 
    429354011719257000000000; 6182598097891158000000000; 1844240320470778000000000; 5399001168557016000000000; 1844240320470778000000000; 
    1844240320470778000000000; 5399001168557016000000000; 1844240320470778000000000; 912518190501429000000000; 912518190501429000000000; 
    912518190501429000000000; 1844240320470778000000000; 1844240320470778000000000; 5399001168557016000000000; 2591694074642826000000000; 
    4554353196219595000000000; 2591694074642826000000000; 2591694074642826000000000; 4554353196219595000000000; 2591694074642826000000000; 
    262258654494752000000000; 262258654494752000000000; 262258654494752000000000; 2591694074642826000000000; 2591694074642826000000000; 
    4554353196219595000000000; 5351420009314595000000000; 1124285605067612000000000; 109775723659603000000000; 109775723659603000000000; 
    1124285605067612000000000; 5351420009314595000000000; 5351420009314595000000000; 1124285605067612000000000; 109775723659603000000000; 
    109775723659603000000000; 1124285605067612000000000; 5351420009314595000000000; 3414518661958190000000000; 3414518661958190000000000; 
    3414518661958190000000000; 3414518661958190000000000; 3414518661958190000000000; 3414518661958190000000000; 1124285605067612000000000; 
    5351420009314595000000000; 1124285605067612000000000; 5351420009314595000000000; 109775723659603000000000; 109775723659603000000000];
   [2993130923993425000000000; 2993130923993425000000000; 2993130923993425000000000; 1020607228019725000000000; 326328439651818000000000; 
    326328439651818000000000; 326328439651818000000000; 9021014681044546000000000; 1742044154846892000000000; 1742044154846892000000000; 
    1742044154846892000000000; 3257955845153108000000000; 3257955845153108000000000; 3257955845153108000000000; 4012153758583749000000000; 
    4012153758583749000000000; 4012153758583749000000000; 987846241416251000000000; 987846241416251000000000; 987846241416251000000000; 
    4942980948772996000000000; 4942980948772996000000000; 4942980948772996000000000; 57019051227004000000000; 57019051227004000000000; 
    57019051227004000000000; 1231206549747224000000000; 1231206549747224000000000; 7273303463463835000000000; 1231206549747224000000000; 
    1231206549747224000000000; 7273303463463835000000000; 1231206549747224000000000; 1231206549747224000000000; 7273303463463835000000000; 
    264283437041718000000000; 264283437041718000000000; 264283437041718000000000; 130038704855902000000000; 130038704855902000000000; 
    1702280734892642000000000; 130038704855902000000000; 130038704855902000000000; 1702280734892642000000000; 130038704855902000000000; 
    130038704855902000000000; 1702280734892642000000000; 8037641855395553000000000; 8037641855395553000000000; 8037641855395553000000000; 
    429354011719257000000000; 429354011719257000000000; 6182598097891158000000000; 429354011719257000000000; 429354011719257000000000; 
    6182598097891158000000000; 429354011719257000000000; 429354011719257000000000; 6182598097891158000000000; 2958693878670327000000000; 
    2958693878670327000000000; 2958693878670327000000000; 1844240320470778000000000; 1844240320470778000000000; 5399001168557016000000000; 
    1844240320470778000000000; 1844240320470778000000000; 5399001168557016000000000; 1844240320470778000000000; 1844240320470778000000000; 
    5399001168557016000000000; 912518190501429000000000; 912518190501429000000000; 912518190501429000000000; 2591694074642826000000000; 
    2591694074642826000000000; 4554353196219595000000000; 2591694074642826000000000; 2591694074642826000000000; 4554353196219595000000000; 
    2591694074642826000000000; 2591694074642826000000000; 4554353196219595000000000; 262258654494752000000000; 262258654494752000000000; 
    262258654494752000000000; 1124285605067612000000000; 5351420009314595000000000; 1124285605067612000000000; 5351420009314595000000000; 
    109775723659603000000000; 109775723659603000000000; 1124285605067612000000000; 5351420009314595000000000; 1124285605067612000000000; 
    5351420009314595000000000; 109775723659603000000000; 109775723659603000000000; 1124285605067612000000000; 5351420009314595000000000; 
    1124285605067612000000000; 5351420009314595000000000; 109775723659603000000000; 109775723659603000000000; 3414518661958190000000000; 
    3414518661958190000000000; 3414518661958190000000000; 3414518661958190000000000; 3414518661958190000000000; 3414518661958190000000000]],
   [14689343586130700000; 14689343586130700000; 14689343586130700000; 14689343586130700000; 3380869530621700000; 3380869530621700000; 
    3380869530621700000; 3380869530621700000; 16766768677225600000; 16766768677225600000; 16766768677225600000; 16766768677225600000; 
    16766768677225600000; 16766768677225600000; 19323640347758500000; 19323640347758500000; 19323640347758500000; 19323640347758500000; 
    19323640347758500000; 19323640347758500000; 1653253610375800000; 1653253610375800000; 1653253610375800000; 1653253610375800000; 1653253610375800000; 
    1653253610375800000; 9799971247032900000; 9799971247032900000; 9799971247032900000; 9799971247032900000; 9799971247032900000; 9799971247032900000; 
    9799971247032900000; 9799971247032900000; 9799971247032900000; 9799971247032900000; 9799971247032900000; 9799971247032900000; 2036278491304800000; 
    2036278491304800000; 2036278491304800000; 2036278491304800000; 2036278491304800000; 2036278491304800000; 2036278491304800000; 2036278491304800000; 
    2036278491304800000; 2036278491304800000; 2036278491304800000; 2036278491304800000; 8207613752916700000; 8207613752916700000; 8207613752916700000; 
    8207613752916700000; 8207613752916700000; 8207613752916700000; 8207613752916700000; 8207613752916700000; 8207613752916700000; 8207613752916700000; 
    8207613752916700000; 8207613752916700000; 15104987366663500000; 15104987366663500000; 15104987366663500000; 15104987366663500000; 
    15104987366663500000; 15104987366663500000; 15104987366663500000; 15104987366663500000; 15104987366663500000; 15104987366663500000; 
    15104987366663500000; 15104987366663500000; 12742392666106400000; 12742392666106400000; 12742392666106400000; 12742392666106400000; 
    12742392666106400000; 12742392666106400000; 12742392666106400000; 12742392666106400000; 12742392666106400000; 12742392666106400000; 
    12742392666106400000; 12742392666106400000; 5273427059689100000; 5273427059689100000; 5273427059689100000; 5273427059689100000; 5273427059689100000; 
    5273427059689100000; 5273427059689100000; 5273427059689100000; 5273427059689100000; 5273427059689100000; 5273427059689100000; 5273427059689100000; 
    5273427059689100000; 5273427059689100000; 5273427059689100000; 5273427059689100000; 5273427059689100000; 5273427059689100000; 5273427059689100000; 
    5273427059689100000; 5273427059689100000; 5273427059689100000; 5273427059689100000; 5273427059689100000], 11%nat).
(** jaskowiec_sukumar_tet_data.py:1742-2426 *)
Definition js_tet_data_11 : list (list Z) * list Z * nat :=
  ([[2135679944533018000000000; 3592960166400945800000000; 2135679944533018000000000; 2135679944533018000000000; 808046995114734270000000; 
    7575859014655796900000000; 808046995114734270000000; 808046995114734270000000; 1460894685275485300000000; 5617315944173544300000000; 
    1460894685275485300000000; 1460894685275485300000000; 640653770377988960000000; 4359346229622010900000000; 640653770377988960000000; 
    4359346229622010900000000; 640653770377988960000000; 4359346229622010900000000; 1276183049246016900000000; 3723816950753983100000000; 
    1276183049246016900000000; 3723816950753983100000000; 1276183049246016900000000; 3723816950753983100000000; 6940351772721453600000000; 
    148147260674486490000000; 148147260674486490000000; 2763353705929573200000000; 2763353705929573200000000; 2763353705929573200000000; 
    148147260674486490000000; 6940351772721453600000000; 148147260674486490000000; 148147260674486490000000; 6940351772721453600000000; 
    148147260674486490000000; 5787943875724941600000; 440679196756297990000000; 440679196756297990000000; 9112853662611679600000000; 
    9112853662611679600000000; 9112853662611679600000000; 440679196756297990000000; 5787943875724941600000; 440679196756297990000000; 
    440679196756297990000000; 5787943875724941600000; 440679196756297990000000; 7927838364729655800000000; 290048145551581940000000; 
    290048145551581940000000; 1492065344167180500000000; 1492065344167180500000000; 1492065344167180500000000; 290048145551581940000000; 
    7927838364729655800000000; 290048145551581940000000; 290048145551581940000000; 7927838364729655800000000; 290048145551581940000000; 
    7217318354185757700000000; 1384125788015035900000000; 1384125788015035900000000; 14430069784170444000000; 14430069784170444000000; 
    14430069784170444000000; 1384125788015035900000000; 7217318354185757700000000; 1384125788015035900000000; 1384125788015035900000000; 
    7217318354185757700000000; 1384125788015035900000000; 2002685156661767100000000; 2002685156661767100000000; 115518352710014210000000; 
    3422240474937236500000000; 115518352710014210000000; 3422240474937236500000000; 4459556015690981900000000; 4459556015690981900000000; 
    4459556015690981900000000; 4459556015690981900000000; 4459556015690981900000000; 4459556015690981900000000; 115518352710014210000000; 
    3422240474937236500000000; 2002685156661767100000000; 2002685156661767100000000; 3422240474937236500000000; 115518352710014210000000; 
    115518352710014210000000; 3422240474937236500000000; 2002685156661767100000000; 2002685156661767100000000; 3422240474937236500000000; 
    115518352710014210000000; 2545920450251540300000000; 2545920450251540300000000; 729586319508262610000000; 2495160363595660700000000; 
    729586319508262610000000; 2495160363595660700000000; 4229332866644536200000000; 4229332866644536200000000; 4229332866644536200000000; 
    4229332866644536200000000; 4229332866644536200000000; 4229332866644536200000000; 729586319508262610000000; 2495160363595660700000000; 
    2545920450251540300000000; 2545920450251540300000000; 2495160363595660700000000; 729586319508262610000000; 729586319508262610000000; 
    2495160363595660700000000; 2545920450251540300000000; 2545920450251540300000000; 2495160363595660700000000; 729586319508262610000000; 
    3937338659984053200000000; 3937338659984053200000000; 500181076151871020000000; 23982547005395663000000; 500181076151871020000000; 
    23982547005395663000000; 5538497716858680200000000; 5538497716858680200000000; 5538497716858680200000000; 5538497716858680200000000; 
    5538497716858680200000000; 5538497716858680200000000; 500181076151871020000000; 23982547005395663000000; 3937338659984053200000000; 
    3937338659984053200000000; 23982547005395663000000; 500181076151871020000000; 500181076151871020000000; 23982547005395663000000; 
    3937338659984053200000000; 3937338659984053200000000; 23982547005395663000000; 500181076151871020000000; 360873566665786400000000; 
    360873566665786400000000; 2518367824271116100000000; 1135272318519076900000000; 2518367824271116100000000; 1135272318519076900000000; 
    5985486290544020900000000; 5985486290544020900000000; 5985486290544020900000000; 5985486290544020900000000; 5985486290544020900000000; 
    5985486290544020900000000; 2518367824271116100000000; 1135272318519076900000000; 360873566665786400000000; 360873566665786400000000; 
    1135272318519076900000000; 2518367824271116100000000; 2518367824271116100000000; 1135272318519076900000000; 360873566665786400000000; 
    360873566665786400000000; 1135272318519076900000000; 2518367824271116100000000];
   [2135679944533018000000000; 2135679944533018000000000; 3592960166400945800000000; 2135679944533018000000000; 808046995114734270000000; 
    808046995114734270000000; 7575859014655796900000000; 808046995114734270000000; 1460894685275485300000000; 1460894685275485300000000; 
    5617315944173544300000000; 1460894685275485300000000; 4359346229622010900000000; 640653770377988960000000; 640653770377988960000000; 
    4359346229622010900000000; 4359346229622010900000000; 640653770377988960000000; 3723816950753983100000000; 1276183049246016900000000; 
    1276183049246016900000000; 3723816950753983100000000; 3723816950753983100000000; 1276183049246016900000000; 148147260674486490000000; 
    6940351772721453600000000; 148147260674486490000000; 148147260674486490000000; 6940351772721453600000000; 148147260674486490000000; 
    2763353705929573200000000; 2763353705929573200000000; 2763353705929573200000000; 148147260674486490000000; 148147260674486490000000; 
    6940351772721453600000000; 440679196756297990000000; 5787943875724941600000; 440679196756297990000000; 440679196756297990000000; 
    5787943875724941600000; 440679196756297990000000; 9112853662611679600000000; 9112853662611679600000000; 9112853662611679600000000; 
    440679196756297990000000; 440679196756297990000000; 5787943875724941600000; 290048145551581940000000; 7927838364729655800000000; 
    290048145551581940000000; 290048145551581940000000; 7927838364729655800000000; 290048145551581940000000; 1492065344167180500000000; 
    1492065344167180500000000; 1492065344167180500000000; 290048145551581940000000; 290048145551581940000000; 7927838364729655800000000; 
    1384125788015035900000000; 7217318354185757700000000; 1384125788015035900000000; 1384125788015035900000000; 7217318354185757700000000; 
    1384125788015035900000000; 14430069784170444000000; 14430069784170444000000; 14430069784170444000000; 1384125788015035900000000; 
    1384125788015035900000000; 7217318354185757700000000; 115518352710014210000000; 3422240474937236500000000; 2002685156661767100000000; 
    2002685156661767100000000; 3422240474937236500000000; 115518352710014210000000; 115518352710014210000000; 3422240474937236500000000; 
    2002685156661767100000000; 2002685156661767100000000; 3422240474937236500000000; 115518352710014210000000; 4459556015690981900000000; 
    4459556015690981900000000; 4459556015690981900000000; 4459556015690981900000000; 4459556015690981900000000; 4459556015690981900000000; 
    3422240474937236500000000; 115518352710014210000000; 3422240474937236500000000; 115518352710014210000000; 2002685156661767100000000; 
    2002685156661767100000000; 729586319508262610000000; 2495160363595660700000000; 2545920450251540300000000; 2545920450251540300000000; 
    2495160363595660700000000; 729586319508262610000000; 729586319508262610000000; 2495160363595660700000000; 2545920450251540300000000; 
    2545920450251540300000000; 2495160363595660700000000; 729586319508262610000000; 4229332866644536200000000; 4229332866644536200000000; 
    4229332866644536200000000; 4229332866644536200000000; 4229332866644536200000000; 4229332866644536200000000; 2495160363595660700000000; 
    729586319508262610000000; 2495160363595660700000000; 729586319508262610000000; 2545920450251540300000000; 2545920450251540300000000; 
    500181076151871020000000; 23982547005395663000000; 3937338659984053200000000; 3937338659984053200000000; 23982547005395663000000; 
    500181076151871020000000; 500181076151871020000000; 23982547005395663000000; 3937338659984053200000000; 3937338659984053200000000; 
    23982547005395663000000; 500181076151871020000000; 5538497716858680200000000; 5538497716858680200000000; 5538497716858680200000000; 
    5538497716858680200000000; 5538497716858680200000000; 5538497716858680200000000; 23982547005395663000000; 500181076151871020000000; 
    23982547005395663000000; 500181076151871020000000; 3937338659984053200000000; 3937338659984053200000000; 2518367824271116100000000; 
    1135272318519076900000000; 360873566665786400000000; 360873566665786400000000; 1135272318519076900000000; 2518367824271116100000000; 
    2518367824271116100000000; 1135272318519076900000000; 360873566665786400000000; 360873566665786400000000; 1135272318519076900000000; 
    2518367824271116100000000; 5985486290544020900000000; 5985486290544020900000000; 5985486290544020900000000; 5985486290544020900000000; 
    5985486290544020900000000; 5985486290544020900000000; 1135272318519076900000000; 2518367824271116100000000; 1135272318519076900000000; 
    2518367824271116100000000; 360873566665786400000000; 360873566665786400000000];
   [2135679944533018000000000; 2135679944533018000000000; 2135679944533018000000000; 3592960166400945800000000; 808046995114734270000000; 
    808046995114734270000000; 808046995114734270000000; 7575859014655796900000000; 1460894685275485300000000; 1460894685275485300000000; 
    1460894685275485300000000; 5617315944173544300000000; 4359346229622010900000000; 4359346229622010900000000; 4359346229622010900000000; 
    640653770377988960000000; 640653770377988960000000; 640653770377988960000000; 3723816950753983100000000; 3723816950753983100000000; 
    3723816950753983100000000; 1276183049246016900000000; 1276183049246016900000000; 1276183049246016900000000; 148147260674486490000000; 
    148147260674486490000000; 6940351772721453600000000; 148147260674486490000000; 148147260674486490000000; 6940351772721453600000000; 
    148147260674486490000000; 148147260674486490000000; 6940351772721453600000000; 2763353705929573200000000; 2763353705929573200000000; 
    2763353705929573200000000; 440679196756297990000000; 440679196756297990000000; 5787943875724941600000; 440679196756297990000000; 
    440679196756297990000000; 5787943875724941600000; 440679196756297990000000; 440679196756297990000000; 5787943875724941600000; 
    9112853662611679600000000; 9112853662611679600000000; 9112853662611679600000000; 290048145551581940000000; 290048145551581940000000; 
    7927838364729655800000000; 290048145551581940000000; 290048145551581940000000; 7927838364729655800000000; 290048145551581940000000; 
    290048145551581940000000; 7927838364729655800000000; 1492065344167180500000000; 1492065344167180500000000; 1492065344167180500000000; 
    1384125788015035900000000; 1384125788015035900000000; 7217318354185757700000000; 1384125788015035900000000; 1384125788015035900000000; 
    7217318354185757700000000; 1384125788015035900000000; 1384125788015035900000000; 7217318354185757700000000; 14430069784170444000000; 
    14430069784170444000000; 14430069784170444000000; 3422240474937236500000000; 115518352710014210000000; 3422240474937236500000000; 
    115518352710014210000000; 2002685156661767100000000; 2002685156661767100000000; 3422240474937236500000000; 115518352710014210000000; 
    3422240474937236500000000; 115518352710014210000000; 2002685156661767100000000; 2002685156661767100000000; 3422240474937236500000000; 
    115518352710014210000000; 3422240474937236500000000; 115518352710014210000000; 2002685156661767100000000; 2002685156661767100000000; 
    4459556015690981900000000; 4459556015690981900000000; 4459556015690981900000000; 4459556015690981900000000; 4459556015690981900000000; 
    4459556015690981900000000; 2495160363595660700000000; 729586319508262610000000; 2495160363595660700000000; 729586319508262610000000; 
    2545920450251540300000000; 2545920450251540300000000; 2495160363595660700000000; 729586319508262610000000; 2495160363595660700000000; 
    729586319508262610000000; 2545920450251540300000000; 2545920450251540300000000; 2495160363595660700000000; 729586319508262610000000; 
    2495160363595660700000000; 729586319508262610000000; 2545920450251540300000000; 2545920450251540300000000; 4229332866644536200000000; 
    4229332866644536200000000; 4229332866644536200000000; 4229332866644536200000000; 4229332866644536200000000; 4229332866644536200000000; 
    23982547005395663000000; 500181076151871020000000; 23982547005395663000000; 500181076151871020000000; 3937338659984053200000000; 
    3937338659984053200000000; 23982547005395663000000; 500181076151871020000000; 23982547005395663000000; 500181076151871020000000; 
    3937338659984053200000000; 3937338659984053200000000; 23982547005395663000000; 500181076151871020000000; 23982547005395663000000; 
    500181076151871020000000; 3937338659984053200000000; 3937338659984053200000000; 5538497716858680200000000; 5538497716858680200000000; 
    5538497716858680200000000; 5538497716858680200000000; 5538497716858680200000000; 5538497716858680200000000; 1135272318519076900000000; 
    2518367824271116100000000; 1135272318519076900000000; 2518367824271116100000000; 360873566665786400000000; 360873566665786400000000; 
    1135272318519076900000000; 2518367824271116100000000; 1135272318519076900000000; 2518367824271116100000000; 360873566665786400000000; 
    360873566665786400000000; 1135272318519076900000000; 2518367824271116100000000; 1135272318519076900000000; 2518367824271116100000000; 
    360873566665786400000000; 360873566665786400000000; 5985486290544020900000000; 5985486290544020900000000; 5985486290544020900000000; 
    5985486290544020900000000; 5985486290544020900000000; 5985486290544020900000000]],
   [17614915535032600000; 17614915535032600000; 17614915535032600000; 17614915535032600000; 8351235933432700000; 8351235933432700000; 
    8351235933432700000; 8351235933432700000; 17775719206694400000; 17775719206694400000; 17775719206694400000; 17775719206694400000; 
    10168024397572100000; 10168024397572100000; 10168024397572100000; 10168024397572100000; 10168024397572100000; 10168024397572100000; 
    15740400023953800000; 15740400023953800000; 15740400023953800000; 15740400023953800000; 15740400023953800000; 15740400023953800000; 
    1511281145864300000; 1511281145864300000; 1511281145864300000; 1511281145864300000; 1511281145864300000; 1511281145864300000; 1511281145864300000; 
    1511281145864300000; 1511281145864300000; 1511281145864300000; 1511281145864300000; 1511281145864300000; 872656988748600000; 872656988748600000; 
    872656988748600000; 872656988748600000; 872656988748600000; 872656988748600000; 872656988748600000; 872656988748600000; 872656988748600000; 
    872656988748600000; 872656988748600000; 872656988748600000; 3712882661457500000; 3712882661457500000; 3712882661457500000; 3712882661457500000; 
    3712882661457500000; 3712882661457500000; 3712882661457500000; 3712882661457500000; 3712882661457500000; 3712882661457500000; 3712882661457500000; 
    3712882661457500000; 2358314255727400000; 2358314255727400000; 2358314255727400000; 2358314255727400000; 2358314255727400000; 2358314255727400000; 
    2358314255727400000; 2358314255727400000; 2358314255727400000; 2358314255727400000; 2358314255727400000; 2358314255727400000; 4490847036271700000; 
    4490847036271700000; 4490847036271700000; 4490847036271700000; 4490847036271700000; 4490847036271700000; 4490847036271700000; 4490847036271700000; 
    4490847036271700000; 4490847036271700000; 4490847036271700000; 4490847036271700000; 4490847036271700000; 4490847036271700000; 4490847036271700000; 
    4490847036271700000; 4490847036271700000; 4490847036271700000; 4490847036271700000; 4490847036271700000; 4490847036271700000; 4490847036271700000; 
    4490847036271700000; 4490847036271700000; 7549616048899500000; 7549616048899500000; 7549616048899500000; 7549616048899500000; 7549616048899500000; 
    7549616048899500000; 7549616048899500000; 7549616048899500000; 7549616048899500000; 7549616048899500000; 7549616048899500000; 7549616048899500000; 
    7549616048899500000; 7549616048899500000; 7549616048899500000; 7549616048899500000; 7549616048899500000; 7549616048899500000; 7549616048899500000; 
    7549616048899500000; 7549616048899500000; 7549616048899500000; 7549616048899500000; 7549616048899500000; 1850514589067700000; 1850514589067700000; 
    1850514589067700000; 1850514589067700000; 1850514589067700000; 1850514589067700000; 1850514589067700000; 1850514589067700000; 1850514589067700000; 
    1850514589067700000; 1850514589067700000; 1850514589067700000; 1850514589067700000; 1850514589067700000; 1850514589067700000; 1850514589067700000; 
    1850514589067700000; 1850514589067700000; 1850514589067700000; 1850514589067700000; 1850514589067700000; 1850514589067700000; 1850514589067700000; 
    1850514589067700000; 9780703581954100000; 9780703581954100000; 9780703581954100000; 9780703581954100000; 9780703581954100000; 9780703581954100000; 
    9780703581954100000; 9780703581954100000; 9780703581954100000; 9780703581954100000; 9780703581954100000; 9780703581954100000; 9780703581954100000; 
    9780703581954100000; 9780703581954100000; 9780703581954100000; 9780703581954100000; 9780703581954100000; 9780703581954100000; 9780703581954100000; 
    9780703581954100000; 9780703581954100000; 9780703581954100000; 9780703581954100000], 12%nat).
(** jaskowiec_sukumar_tet_data.py:2427-3127 *)
Definition js_tet_data_12 : list (list Z) * list Z * nat :=
  ([[202381678618097430000000; 9392854964145708200000000; 202381678618097430000000; 202381678618097430000000; 2890147352435263300000000; 
    1329557942694209200000000; 2890147352435263300000000; 2890147352435263300000000; 940287000821270760000000; 7179138997536187400000000; 
    940287000821270760000000; 940287000821270760000000; 1976498544437255100000000; 4070504366688234000000000; 1976498544437255100000000; 
    1976498544437255100000000; 4595381032398163600000000; 404618967601836350000000; 4595381032398163600000000; 404618967601836350000000; 
    4595381032398163600000000; 404618967601836350000000; 1951480306442735300; 4999998048519693800000000; 1951480306442735300; 4999998048519693800000000; 
    1951480306442735300; 4999998048519693800000000; 6118971302042934800000000; 675292649528024260000000; 675292649528024260000000; 
    2530443398901017200000000; 2530443398901017200000000; 2530443398901017200000000; 675292649528024260000000; 6118971302042934800000000; 
    675292649528024260000000; 675292649528024260000000; 6118971302042934800000000; 675292649528024260000000; 4868308338798159100000000; 
    1360105145132029200000000; 1360105145132029200000000; 2411481370937782200000000; 2411481370937782200000000; 2411481370937782200000000; 
    1360105145132029200000000; 4868308338798159100000000; 1360105145132029200000000; 1360105145132029200000000; 4868308338798159100000000; 
    1360105145132029200000000; 4273786080349000200000000; 2780783459563701500000000; 2780783459563701500000000; 164647000523597200000000; 
    164647000523597200000000; 164647000523597200000000; 2780783459563701500000000; 4273786080349000200000000; 2780783459563701500000000; 
    2780783459563701500000000; 4273786080349000200000000; 2780783459563701500000000; 5667528680967984800000000; 1967550197192860800000000; 
    1967550197192860800000000; 397370924646293510000000; 397370924646293510000000; 397370924646293510000000; 1967550197192860800000000; 
    5667528680967984800000000; 1967550197192860800000000; 1967550197192860800000000; 5667528680967984800000000; 1967550197192860800000000; 
    620197072419754260000000; 3862498629203496800000000; 3862498629203496800000000; 1654805669173252100000000; 1654805669173252100000000; 
    1654805669173252100000000; 3862498629203496800000000; 620197072419754260000000; 3862498629203496800000000; 3862498629203496800000000; 
    620197072419754260000000; 3862498629203496800000000; 1086607820833198800000000; 235355190546527730000000; 235355190546527730000000; 
    8442681798073745600000000; 8442681798073745600000000; 8442681798073745600000000; 235355190546527730000000; 1086607820833198800000000; 
    235355190546527730000000; 235355190546527730000000; 1086607820833198800000000; 235355190546527730000000; 5446964977019161900000000; 
    5446964977019161900000000; 3362108930747719200000000; 35000598698798190000000; 3362108930747719200000000; 35000598698798190000000; 
    1155925493534320500000000; 1155925493534320500000000; 1155925493534320500000000; 1155925493534320500000000; 1155925493534320500000000; 
    1155925493534320500000000; 3362108930747719200000000; 35000598698798190000000; 5446964977019161900000000; 5446964977019161900000000; 
    35000598698798190000000; 3362108930747719200000000; 3362108930747719200000000; 35000598698798190000000; 5446964977019161900000000; 
    5446964977019161900000000; 35000598698798190000000; 3362108930747719200000000; 288616049407555040000000; 288616049407555040000000; 
    6859816301235152100000000; 105734346867289010000000; 6859816301235152100000000; 105734346867289010000000; 2745833302490003900000000; 
    2745833302490003900000000; 2745833302490003900000000; 2745833302490003900000000; 2745833302490003900000000; 2745833302490003900000000; 
    6859816301235152100000000; 105734346867289010000000; 288616049407555040000000; 288616049407555040000000; 105734346867289010000000; 
    6859816301235152100000000; 6859816301235152100000000; 105734346867289010000000; 288616049407555040000000; 288616049407555040000000; 
    105734346867289010000000; 6859816301235152100000000; 1545866468273804400000000; 1545866468273804400000000; 7356772467818597500000000; 
    987023928216723410000000; 7356772467818597500000000; 987023928216723410000000; 110337135690874320000000; 110337135690874320000000; 
    110337135690874320000000; 110337135690874320000000; 110337135690874320000000; 110337135690874320000000; 7356772467818597500000000; 
    987023928216723410000000; 1545866468273804400000000; 1545866468273804400000000; 987023928216723410000000; 7356772467818597500000000; 
    7356772467818597500000000; 987023928216723410000000; 1545866468273804400000000; 1545866468273804400000000; 987023928216723410000000; 
    7356772467818597500000000];
   [202381678618097430000000; 202381678618097430000000; 9392854964145708200000000; 202381678618097430000000; 2890147352435263300000000; 
    2890147352435263300000000; 1329557942694209200000000; 2890147352435263300000000; 940287000821270760000000; 940287000821270760000000; 
    7179138997536187400000000; 940287000821270760000000; 1976498544437255100000000; 1976498544437255100000000; 4070504366688234000000000; 
    1976498544437255100000000; 404618967601836350000000; 4595381032398163600000000; 4595381032398163600000000; 404618967601836350000000; 
    404618967601836350000000; 4595381032398163600000000; 4999998048519693800000000; 1951480306442735300; 1951480306442735300; 4999998048519693800000000; 
    4999998048519693800000000; 1951480306442735300; 675292649528024260000000; 6118971302042934800000000; 675292649528024260000000; 
    675292649528024260000000; 6118971302042934800000000; 675292649528024260000000; 2530443398901017200000000; 2530443398901017200000000; 
    2530443398901017200000000; 675292649528024260000000; 675292649528024260000000; 6118971302042934800000000; 1360105145132029200000000; 
    4868308338798159100000000; 1360105145132029200000000; 1360105145132029200000000; 4868308338798159100000000; 1360105145132029200000000; 
    2411481370937782200000000; 2411481370937782200000000; 2411481370937782200000000; 1360105145132029200000000; 1360105145132029200000000; 
    4868308338798159100000000; 2780783459563701500000000; 4273786080349000200000000; 2780783459563701500000000; 2780783459563701500000000; 
    4273786080349000200000000; 2780783459563701500000000; 164647000523597200000000; 164647000523597200000000; 164647000523597200000000; 
    2780783459563701500000000; 2780783459563701500000000; 4273786080349000200000000; 1967550197192860800000000; 5667528680967984800000000; 
    1967550197192860800000000; 1967550197192860800000000; 5667528680967984800000000; 1967550197192860800000000; 397370924646293510000000; 
    397370924646293510000000; 397370924646293510000000; 1967550197192860800000000; 1967550197192860800000000; 5667528680967984800000000; 
    3862498629203496800000000; 620197072419754260000000; 3862498629203496800000000; 3862498629203496800000000; 620197072419754260000000; 
    3862498629203496800000000; 1654805669173252100000000; 1654805669173252100000000; 1654805669173252100000000; 3862498629203496800000000; 
    3862498629203496800000000; 620197072419754260000000; 235355190546527730000000; 1086607820833198800000000; 235355190546527730000000; 
    235355190546527730000000; 1086607820833198800000000; 235355190546527730000000; 8442681798073745600000000; 8442681798073745600000000; 
    8442681798073745600000000; 235355190546527730000000; 235355190546527730000000; 1086607820833198800000000; 3362108930747719200000000; 
    35000598698798190000000; 5446964977019161900000000; 5446964977019161900000000; 35000598698798190000000; 3362108930747719200000000; 
    3362108930747719200000000; 35000598698798190000000; 5446964977019161900000000; 5446964977019161900000000; 35000598698798190000000; 
    3362108930747719200000000; 1155925493534320500000000; 1155925493534320500000000; 1155925493534320500000000; 1155925493534320500000000; 
    1155925493534320500000000; 1155925493534320500000000; 35000598698798190000000; 3362108930747719200000000; 35000598698798190000000; 
    3362108930747719200000000; 5446964977019161900000000; 5446964977019161900000000; 6859816301235152100000000; 105734346867289010000000; 
    288616049407555040000000; 288616049407555040000000; 105734346867289010000000; 6859816301235152100000000; 6859816301235152100000000; 
    105734346867289010000000; 288616049407555040000000; 288616049407555040000000; 105734346867289010000000; 6859816301235152100000000; 
    2745833302490003900000000; 2745833302490003900000000; 2745833302490003900000000; 2745833302490003900000000; 2745833302490003900000000; 
    2745833302490003900000000; 105734346867289010000000; 6859816301235152100000000; 105734346867289010000000; 6859816301235152100000000; 
    288616049407555040000000; 288616049407555040000000; 7356772467818597500000000; 987023928216723410000000; 1545866468273804400000000; 
    1545866468273804400000000; 987023928216723410000000; 7356772467818597500000000; 7356772467818597500000000; 987023928216723410000000; 
    1545866468273804400000000; 1545866468273804400000000; 987023928216723410000000; 7356772467818597500000000; 110337135690874320000000; 
    110337135690874320000000; 110337135690874320000000; 110337135690874320000000; 110337135690874320000000; 110337135690874320000000; 
    987023928216723410000000; 7356772467818597500000000; 987023928216723410000000; 7356772467818597500000000; 1545866468273804400000000; 
    1545866468273804400000000];
   [202381678618097430000000; 202381678618097430000000; 202381678618097430000000; 9392854964145708200000000; 2890147352435263300000000; 
    2890147352435263300000000; 2890147352435263300000000; 1329557942694209200000000; 940287000821270760000000; 940287000821270760000000; 
    940287000821270760000000; 7179138997536187400000000; 1976498544437255100000000; 1976498544437255100000000; 1976498544437255100000000; 
    4070504366688234000000000; 404618967601836350000000; 404618967601836350000000; 404618967601836350000000; 4595381032398163600000000; 
    4595381032398163600000000; 4595381032398163600000000; 4999998048519693800000000; 4999998048519693800000000; 4999998048519693800000000; 
    1951480306442735300; 1951480306442735300; 1951480306442735300; 675292649528024260000000; 675292649528024260000000; 6118971302042934800000000; 
    675292649528024260000000; 675292649528024260000000; 6118971302042934800000000; 675292649528024260000000; 675292649528024260000000; 
    6118971302042934800000000; 2530443398901017200000000; 2530443398901017200000000; 2530443398901017200000000; 1360105145132029200000000; 
    1360105145132029200000000; 4868308338798159100000000; 1360105145132029200000000; 1360105145132029200000000; 4868308338798159100000000; 
    1360105145132029200000000; 1360105145132029200000000; 4868308338798159100000000; 2411481370937782200000000; 2411481370937782200000000; 
    2411481370937782200000000; 2780783459563701500000000; 2780783459563701500000000; 4273786080349000200000000; 2780783459563701500000000; 
    2780783459563701500000000; 4273786080349000200000000; 2780783459563701500000000; 2780783459563701500000000; 4273786080349000200000000; 
    164647000523597200000000; 164647000523597200000000; 164647000523597200000000; 1967550197192860800000000; 1967550197192860800000000; 
    5667528680967984800000000; 1967550197192860800000000; 1967550197192860800000000; 5667528680967984800000000; 1967550197192860800000000; 
    1967550197192860800000000; 5667528680967984800000000; 397370924646293510000000; 397370924646293510000000; 397370924646293510000000; 
    3862498629203496800000000; 3862498629203496800000000; 620197072419754260000000; 3862498629203496800000000; 3862498629203496800000000; 
    620197072419754260000000; 3862498629203496800000000; 3862498629203496800000000; 620197072419754260000000; 1654805669173252100000000; 
    1654805669173252100000000; 1654805669173252100000000; 235355190546527730000000; 235355190546527730000000; 1086607820833198800000000; 
    235355190546527730000000; 235355190546527730000000; 1086607820833198800000000; 235355190546527730000000; 235355190546527730000000; 
    1086607820833198800000000; 8442681798073745600000000; 8442681798073745600000000; 8442681798073745600000000; 35000598698798190000000; 
    3362108930747719200000000; 35000598698798190000000; 3362108930747719200000000; 5446964977019161900000000; 5446964977019161900000000; 
    35000598698798190000000; 3362108930747719200000000; 35000598698798190000000; 3362108930747719200000000; 5446964977019161900000000; 
    5446964977019161900000000; 35000598698798190000000; 3362108930747719200000000; 35000598698798190000000; 3362108930747719200000000; 
    5446964977019161900000000; 5446964977019161900000000; 1155925493534320500000000; 1155925493534320500000000; 1155925493534320500000000; 
    1155925493534320500000000; 1155925493534320500000000; 1155925493534320500000000; 105734346867289010000000; 6859816301235152100000000; 
    105734346867289010000000; 6859816301235152100000000; 288616049407555040000000; 288616049407555040000000; 105734346867289010000000; 
    6859816301235152100000000; 105734346867289010000000; 6859816301235152100000000; 288616049407555040000000; 288616049407555040000000; 
    105734346867289010000000; 6859816301235152100000000; 105734346867289010000000; 6859816301235152100000000; 288616049407555040000000; 
    288616049407555040000000; 2745833302490003900000000; 2745833302490003900000000; 2745833302490003900000000; 2745833302490003900000000; 
    2745833302490003900000000; 2745833302490003900000000; 987023928216723410000000; 7356772467818597500000000; 987023928216723410000000; 
    7356772467818597500000000; 1545866468273804400000000; 1545866468273804400000000; 987023928216723410000000; 7356772467818597500000000; 
    987023928216723410000000; 7356772467818597500000000; 1545866468273804400000000; 1545866468273804400000000; 987023928216723410000000; 
    7356772467818597500000000; 987023928216723410000000; 7356772467818597500000000; 1545866468273804400000000; 1545866468273804400000000; 
    110337135690874320000000; 110337135690874320000000; 110337135690874320000000; 110337135690874320000000; 110337135690874320000000; 
    110337135690874320000000]],
   [860641778914100000; 860641778914100000; 860641778914100000; 860641778914100000; 22607326817739200000; 22607326817739200000; 22607326817739200000; 
    22607326817739200000; 9680037326838900000; 9680037326838900000; 9680037326838900000; 9680037326838900000; 7170940325572700000; 7170940325572700000; 
    7170940325572700000; 7170940325572700000; 7784870979280400000; 7784870979280400000; 7784870979280400000; 7784870979280400000; 7784870979280400000; 
    7784870979280400000; 512027148171600000; 512027148171600000; 512027148171600000; 512027148171600000; 512027148171600000; 512027148171600000; 
    8880272171423000000; 8880272171423000000; 8880272171423000000; 8880272171423000000; 8880272171423000000; 8880272171423000000; 8880272171423000000; 
    8880272171423000000; 8880272171423000000; 8880272171423000000; 8880272171423000000; 8880272171423000000; 10621447790493700000; 10621447790493700000; 
    10621447790493700000; 10621447790493700000; 10621447790493700000; 10621447790493700000; 10621447790493700000; 10621447790493700000; 
    10621447790493700000; 10621447790493700000; 10621447790493700000; 10621447790493700000; 5873089331995900000; 5873089331995900000; 
    5873089331995900000; 5873089331995900000; 5873089331995900000; 5873089331995900000; 5873089331995900000; 5873089331995900000; 5873089331995900000; 
    5873089331995900000; 5873089331995900000; 5873089331995900000; 9235535397556000000; 9235535397556000000; 9235535397556000000; 9235535397556000000; 
    9235535397556000000; 9235535397556000000; 9235535397556000000; 9235535397556000000; 9235535397556000000; 9235535397556000000; 9235535397556000000; 
    9235535397556000000; 14567322079165200000; 14567322079165200000; 14567322079165200000; 14567322079165200000; 14567322079165200000; 
    14567322079165200000; 14567322079165200000; 14567322079165200000; 14567322079165200000; 14567322079165200000; 14567322079165200000; 
    14567322079165200000; 2658739862173400000; 2658739862173400000; 2658739862173400000; 2658739862173400000; 2658739862173400000; 2658739862173400000; 
    2658739862173400000; 2658739862173400000; 2658739862173400000; 2658739862173400000; 2658739862173400000; 2658739862173400000; 3221852775001800000; 
    3221852775001800000; 3221852775001800000; 3221852775001800000; 3221852775001800000; 3221852775001800000; 3221852775001800000; 3221852775001800000; 
    3221852775001800000; 3221852775001800000; 3221852775001800000; 3221852775001800000; 3221852775001800000; 3221852775001800000; 3221852775001800000; 
    3221852775001800000; 3221852775001800000; 3221852775001800000; 3221852775001800000; 3221852775001800000; 3221852775001800000; 3221852775001800000; 
    3221852775001800000; 3221852775001800000; 1464206741104000000; 1464206741104000000; 1464206741104000000; 1464206741104000000; 1464206741104000000; 
    1464206741104000000; 1464206741104000000; 1464206741104000000; 1464206741104000000; 1464206741104000000; 1464206741104000000; 1464206741104000000; 
    1464206741104000000; 1464206741104000000; 1464206741104000000; 1464206741104000000; 1464206741104000000; 1464206741104000000; 1464206741104000000; 
    1464206741104000000; 1464206741104000000; 1464206741104000000; 1464206741104000000; 1464206741104000000; 2268354927450100000; 2268354927450100000; 
    2268354927450100000; 2268354927450100000; 2268354927450100000; 2268354927450100000; 2268354927450100000; 2268354927450100000; 2268354927450100000; 
    2268354927450100000; 2268354927450100000; 2268354927450100000; 2268354927450100000; 2268354927450100000; 2268354927450100000; 2268354927450100000; 
    2268354927450100000; 2268354927450100000; 2268354927450100000; 2268354927450100000; 2268354927450100000; 2268354927450100000; 2268354927450100000; 
    2268354927450100000], 13%nat).
(** jaskowiec_sukumar_tet_data.py:3128-3956 *)
Definition js_tet_data_13 : list (list Z) * list Z * nat :=
  ([[3298151517846193000000000; 105545446461421000000000; 3298151517846193000000000; 3298151517846193000000000; 575382826897592000000000; 
    8273851519307224000000000; 575382826897592000000000; 575382826897592000000000; 58561686137835000000000; 9824314941586495000000000; 
    58561686137835000000000; 58561686137835000000000; 1605554758479567000000000; 5183335724561301000000000; 1605554758479567000000000; 
    1605554758479567000000000; 987396460740491000000000; 7037810617778527000000000; 987396460740491000000000; 987396460740491000000000; 
    2080531961597265000000000; 3758404115208205000000000; 2080531961597265000000000; 2080531961597265000000000; 97520288122235000000000; 
    4902479711877765000000000; 97520288122235000000000; 4902479711877765000000000; 97520288122235000000000; 4902479711877765000000000; 
    3970605998844674000000000; 1029394001155326000000000; 3970605998844674000000000; 1029394001155326000000000; 3970605998844674000000000; 
    1029394001155326000000000; 4620865365387848000000000; 379134634612151000000000; 4620865365387848000000000; 379134634612151000000000; 
    4620865365387848000000000; 379134634612151000000000; 1814264238161396000000000; 3185735761838604000000000; 1814264238161396000000000; 
    3185735761838604000000000; 1814264238161396000000000; 3185735761838604000000000; 4189387788376669000000000; 2499092188634998000000000; 
    2499092188634998000000000; 812427834353334000000000; 812427834353334000000000; 812427834353334000000000; 2499092188634998000000000; 
    4189387788376669000000000; 2499092188634998000000000; 2499092188634998000000000; 4189387788376669000000000; 2499092188634998000000000; 
    5628766802497838000000000; 2132633780618757000000000; 2132633780618757000000000; 105965636264648000000000; 105965636264648000000000; 
    105965636264648000000000; 2132633780618757000000000; 5628766802497838000000000; 2132633780618757000000000; 2132633780618757000000000; 
    5628766802497838000000000; 2132633780618757000000000; 8954689727140162000000000; 491812849401591000000000; 491812849401591000000000; 
    61684574056657000000000; 61684574056657000000000; 61684574056657000000000; 491812849401591000000000; 8954689727140162000000000; 
    491812849401591000000000; 491812849401591000000000; 8954689727140162000000000; 491812849401591000000000; 206635789296735000000000; 
    3928626179700601000000000; 3928626179700601000000000; 1936111851302063000000000; 1936111851302063000000000; 1936111851302063000000000; 
    3928626179700601000000000; 206635789296735000000000; 3928626179700601000000000; 3928626179700601000000000; 206635789296735000000000; 
    3928626179700601000000000; 1269022024074958000000000; 126176055325707000000000; 126176055325707000000000; 8478625865273628000000000; 
    8478625865273628000000000; 8478625865273628000000000; 126176055325707000000000; 1269022024074958000000000; 126176055325707000000000; 
    126176055325707000000000; 1269022024074958000000000; 126176055325707000000000; 621400031176215000000000; 621400031176215000000000; 
    1216187843486990000000000; 5767406174550948000000000; 1216187843486990000000000; 5767406174550948000000000; 2395005950785847000000000; 
    2395005950785847000000000; 2395005950785847000000000; 2395005950785847000000000; 2395005950785847000000000; 2395005950785847000000000; 
    1216187843486990000000000; 5767406174550948000000000; 621400031176215000000000; 621400031176215000000000; 5767406174550948000000000; 
    1216187843486990000000000; 1216187843486990000000000; 5767406174550948000000000; 621400031176215000000000; 621400031176215000000000; 
    5767406174550948000000000; 1216187843486990000000000; 5517941321184247000000000; 5517941321184247000000000; 3489022960470246000000000; 
    155221192232079000000000; 3489022960470246000000000; 155221192232079000000000; 837814526113429000000000; 837814526113429000000000; 
    837814526113429000000000; 837814526113429000000000; 837814526113429000000000; 837814526113429000000000; 3489022960470246000000000; 
    155221192232079000000000; 5517941321184247000000000; 5517941321184247000000000; 155221192232079000000000; 3489022960470246000000000; 
    3489022960470246000000000; 155221192232079000000000; 5517941321184247000000000; 5517941321184247000000000; 155221192232079000000000; 
    3489022960470246000000000; 178416406476546000000000; 178416406476546000000000; 6822383201682893000000000; 154792973131725000000000; 
    6822383201682893000000000; 154792973131725000000000; 2844407418708836000000000; 2844407418708836000000000; 2844407418708836000000000; 
    2844407418708836000000000; 2844407418708836000000000; 2844407418708836000000000; 6822383201682893000000000; 154792973131725000000000; 
    178416406476546000000000; 178416406476546000000000; 154792973131725000000000; 6822383201682893000000000; 6822383201682893000000000; 
    154792973131725000000000; 178416406476546000000000; 178416406476546000000000; 154792973131725000000000; 6822383201682893000000000; 
    1695395507001622000000000; 1695395507001622000000000; 7339982986585810000000000; 177766027701428000000000; 7339982986585810000000000; 
    177766027701428000000000; 786855478711139000000000; 786855478711139000000000; 786855478711139000000000; 786855478711139000000000; 
    786855478711139000000000; 786855478711139000000000; 7339982986585810000000000; 177766027701428000000000; 1695395507001622000000000; 
    1695395507001622000000000; 177766027701428000000000; 7339982986585810000000000; 7339982986585810000000000; 177766027701428000000000; 
    1695395507001622000000000; 1695395507001622000000000; 177766027701428000000000; 7339982986585810000000000];
   [3298151517846193000000000; 3298151517846193000000000; 105545446461421000000000; 3298151517846193000000000; 575382826897592000000000; 
    575382826897592000000000; 8273851519307224000000000; 575382826897592000000000; 58561686137835000000000; 58561686137835000000000; 
    9824314941586495000000000; 58561686137835000000000; 1605554758479567000000000; 1605554758479567000000000; 5183335724561301000000000; 
    1605554758479567000000000; 987396460740491000000000; 987396460740491000000000; 7037810617778527000000000; 987396460740491000000000; 
    2080531961597265000000000; 2080531961597265000000000; 3758404115208205000000000; 2080531961597265000000000; 4902479711877765000000000; 
    97520288122235000000000; 97520288122235000000000; 4902479711877765000000000; 4902479711877765000000000; 97520288122235000000000; 
    1029394001155326000000000; 3970605998844674000000000; 3970605998844674000000000; 1029394001155326000000000; 1029394001155326000000000; 
    3970605998844674000000000; 379134634612151000000000; 4620865365387848000000000; 4620865365387848000000000; 379134634612151000000000; 
    379134634612151000000000; 4620865365387848000000000; 3185735761838604000000000; 1814264238161396000000000; 1814264238161396000000000; 
    3185735761838604000000000; 3185735761838604000000000; 1814264238161396000000000; 2499092188634998000000000; 4189387788376669000000000; 
    2499092188634998000000000; 2499092188634998000000000; 4189387788376669000000000; 2499092188634998000000000; 812427834353334000000000; 
    812427834353334000000000; 812427834353334000000000; 2499092188634998000000000; 2499092188634998000000000; 4189387788376669000000000; 
    2132633780618757000000000; 5628766802497838000000000; 2132633780618757000000000; 2132633780618757000000000; 5628766802497838000000000; 
    2132633780618757000000000; 105965636264648000000000; 105965636264648000000000; 105965636264648000000000; 2132633780618757000000000; 
    2132633780618757000000000; 5628766802497838000000000; 491812849401591000000000; 8954689727140162000000000; 491812849401591000000000; 
    491812849401591000000000; 8954689727140162000000000; 491812849401591000000000; 61684574056657000000000; 61684574056657000000000; 
    61684574056657000000000; 491812849401591000000000; 491812849401591000000000; 8954689727140162000000000; 3928626179700601000000000; 
    206635789296735000000000; 3928626179700601000000000; 3928626179700601000000000; 206635789296735000000000; 3928626179700601000000000; 
    1936111851302063000000000; 1936111851302063000000000; 1936111851302063000000000; 3928626179700601000000000; 3928626179700601000000000; 
    206635789296735000000000; 126176055325707000000000; 1269022024074958000000000; 126176055325707000000000; 126176055325707000000000; 
    1269022024074958000000000; 126176055325707000000000; 8478625865273628000000000; 8478625865273628000000000; 8478625865273628000000000; 
    126176055325707000000000; 126176055325707000000000; 1269022024074958000000000; 1216187843486990000000000; 5767406174550948000000000; 
    621400031176215000000000; 621400031176215000000000; 5767406174550948000000000; 1216187843486990000000000; 1216187843486990000000000; 
    5767406174550948000000000; 621400031176215000000000; 621400031176215000000000; 5767406174550948000000000; 1216187843486990000000000; 
    2395005950785847000000000; 2395005950785847000000000; 2395005950785847000000000; 2395005950785847000000000; 2395005950785847000000000; 
    2395005950785847000000000; 5767406174550948000000000; 1216187843486990000000000; 5767406174550948000000000; 1216187843486990000000000; 
    621400031176215000000000; 621400031176215000000000; 3489022960470246000000000; 155221192232079000000000; 5517941321184247000000000; 
    5517941321184247000000000; 155221192232079000000000; 3489022960470246000000000; 3489022960470246000000000; 155221192232079000000000; 
    5517941321184247000000000; 5517941321184247000000000; 155221192232079000000000; 3489022960470246000000000; 837814526113429000000000; 
    837814526113429000000000; 837814526113429000000000; 837814526113429000000000; 837814526113429000000000; 837814526113429000000000; 
    155221192232079000000000; 3489022960470246000000000; 155221192232079000000000; 3489022960470246000000000; 5517941321184247000000000; 
    5517941321184247000000000; 6822383201682893000000000; 154792973131725000000000; 178416406476546000000000; 178416406476546000000000; 
    154792973131725000000000; 6822383201682893000000000; 6822383201682893000000000; 154792973131725000000000; 178416406476546000000000; 
    178416406476546000000000; 154792973131725000000000; 6822383201682893000000000; 2844407418708836000000000; 2844407418708836000000000; 
    2844407418708836000000000; 2844407418708836000000000; 2844407418708836000000000; 2844407418708836000000000; 154792973131725000000000; 
    6822383201682893000000000; 154792973131725000000000; 6822383201682893000000000; 178416406476546000000000; 178416406476546000000000; 
    7339982986585810000000000; 177766027701428000000000; 1695395507001622000000000; 1695395507001622000000000; 177766027701428000000000; 
    7339982986585810000000000; 7339982986585810000000000; 177766027701428000000000; 1695395507001622000000000; 1695395507001622000000000; 
    177766027701428000000000; 7339982986585810000000000; 786855478711139000000000; 786855478711139000000000; 786855478711139000000000; 
    786855478711139000000000; 786855478711139000000000; 786855478711139000000000; 177766027701428000000000; 7339982986585810000000000; 
    177766027701428000000000; 7339982986585810000000000; 1695395507001622000000000; 1695395507001622000000000];
   [3298151517846193000000000; 3298151517846193000000000; 3298151517846193000000000; 105545446461421000000000; 575382826897592000000000; 
    575382826897592000000000; 575382826897592000000000; 8273851519307224000000000; 58561686137835000000000; 58561686137835000000000; 
    58561686137835000000000; 9824314941586495000000000; 1605554758479567000000000; 1605554758479567000000000; 1605554758479567000000000; 
    5183335724561301000000000; 987396460740491000000000; 987396460740491000000000; 987396460740491000000000; 7037810617778527000000000; 
    2080531961597265000000000; 2080531961597265000000000; 2080531961597265000000000; 3758404115208205000000000; 4902479711877765000000000; 
    4902479711877765000000000; 4902479711877765000000000; 97520288122235000000000; 97520288122235000000000; 97520288122235000000000; 
    1029394001155326000000000; 1029394001155326000000000; 1029394001155326000000000; 3970605998844674000000000; 3970605998844674000000000; 
    3970605998844674000000000; 379134634612151000000000; 379134634612151000000000; 379134634612151000000000; 4620865365387848000000000; 
    4620865365387848000000000; 4620865365387848000000000; 3185735761838604000000000; 3185735761838604000000000; 3185735761838604000000000; 
    1814264238161396000000000; 1814264238161396000000000; 1814264238161396000000000; 2499092188634998000000000; 2499092188634998000000000; 
    4189387788376669000000000; 2499092188634998000000000; 2499092188634998000000000; 4189387788376669000000000; 2499092188634998000000000; 
    2499092188634998000000000; 4189387788376669000000000; 812427834353334000000000; 812427834353334000000000; 812427834353334000000000; 
    2132633780618757000000000; 2132633780618757000000000; 5628766802497838000000000; 2132633780618757000000000; 2132633780618757000000000; 
    5628766802497838000000000; 2132633780618757000000000; 2132633780618757000000000; 5628766802497838000000000; 105965636264648000000000; 
    105965636264648000000000; 105965636264648000000000; 491812849401591000000000; 491812849401591000000000; 8954689727140162000000000; 
    491812849401591000000000; 491812849401591000000000; 8954689727140162000000000; 491812849401591000000000; 491812849401591000000000; 
    8954689727140162000000000; 61684574056657000000000; 61684574056657000000000; 61684574056657000000000; 3928626179700601000000000; 
    3928626179700601000000000; 206635789296735000000000; 3928626179700601000000000; 3928626179700601000000000; 206635789296735000000000; 
    3928626179700601000000000; 3928626179700601000000000; 206635789296735000000000; 1936111851302063000000000; 1936111851302063000000000; 
    1936111851302063000000000; 126176055325707000000000; 126176055325707000000000; 1269022024074958000000000; 126176055325707000000000; 
    126176055325707000000000; 1269022024074958000000000; 126176055325707000000000; 126176055325707000000000; 1269022024074958000000000; 
    8478625865273628000000000; 8478625865273628000000000; 8478625865273628000000000; 5767406174550948000000000; 1216187843486990000000000; 
    5767406174550948000000000; 1216187843486990000000000; 621400031176215000000000; 621400031176215000000000; 5767406174550948000000000; 
    1216187843486990000000000; 5767406174550948000000000; 1216187843486990000000000; 621400031176215000000000; 621400031176215000000000; 
    5767406174550948000000000; 1216187843486990000000000; 5767406174550948000000000; 1216187843486990000000000; 621400031176215000000000; 
    621400031176215000000000; 2395005950785847000000000; 2395005950785847000000000; 2395005950785847000000000; 2395005950785847000000000; 
    2395005950785847000000000; 2395005950785847000000000; 155221192232079000000000; 3489022960470246000000000; 155221192232079000000000; 
    3489022960470246000000000; 5517941321184247000000000; 5517941321184247000000000; 155221192232079000000000; 3489022960470246000000000; 
    155221192232079000000000; 3489022960470246000000000; 5517941321184247000000000; 5517941321184247000000000; 155221192232079000000000; 
    3489022960470246000000000; 155221192232079000000000; 3489022960470246000000000; 5517941321184247000000000; 5517941321184247000000000; 
    837814526113429000000000; 837814526113429000000000; 837814526113429000000000; 837814526113429000000000; 837814526113429000000000; 
    837814526113429000000000; 154792973131725000000000; 6822383201682893000000000; 154792973131725000000000; 6822383201682893000000000; 
    178416406476546000000000; 178416406476546000000000; 154792973131725000000000; 6822383201682893000000000; 154792973131725000000000; 
    6822383201682893000000000; 178416406476546000000000; 178416406476546000000000; 154792973131725000000000; 6822383201682893000000000; 
    154792973131725000000000; 6822383201682893000000000; 178416406476546000000000; 178416406476546000000000; 2844407418708836000000000; 
    2844407418708836000000000; 2844407418708836000000000; 2844407418708836000000000; 2844407418708836000000000; 2844407418708836000000000; 
    177766027701428000000000; 7339982986585810000000000; 177766027701428000000000; 7339982986585810000000000; 1695395507001622000000000; 
    1695395507001622000000000; 177766027701428000000000; 7339982986585810000000000; 177766027701428000000000; 7339982986585810000000000; 
    1695395507001622000000000; 1695395507001622000000000; 177766027701428000000000; 7339982986585810000000000; 177766027701428000000000; 
    7339982986585810000000000; 1695395507001622000000000; 1695395507001622000000000; 786855478711139000000000; 786855478711139000000000; 
    786855478711139000000000; 786855478711139000000000; 786855478711139000000000; 786855478711139000000000]],
   [3445433050323400000; 3445433050323400000; 3445433050323400000; 3445433050323400000; 2621255271870500000; 2621255271870500000; 2621255271870500000; 
    2621255271870500000; 110738324189400000; 110738324189400000; 110738324189400000; 110738324189400000; 10028585372473800000; 10028585372473800000; 
    10028585372473800000; 10028585372473800000; 6790408457809400000; 6790408457809400000; 6790408457809400000; 6790408457809400000; 7118148341899300000; 
    7118148341899300000; 7118148341899300000; 7118148341899300000; 1060052294564100000; 1060052294564100000; 1060052294564100000; 1060052294564100000; 
    1060052294564100000; 1060052294564100000; 13669830994980900000; 13669830994980900000; 13669830994980900000; 13669830994980900000; 
    13669830994980900000; 13669830994980900000; 2690741094676200000; 2690741094676200000; 2690741094676200000; 2690741094676200000; 2690741094676200000; 
    2690741094676200000; 10164601225842700000; 10164601225842700000; 10164601225842700000; 10164601225842700000; 10164601225842700000; 
    10164601225842700000; 13544399637727400000; 13544399637727400000; 13544399637727400000; 13544399637727400000; 13544399637727400000; 
    13544399637727400000; 13544399637727400000; 13544399637727400000; 13544399637727400000; 13544399637727400000; 13544399637727400000; 
    13544399637727400000; 4623340047669800000; 4623340047669800000; 4623340047669800000; 4623340047669800000; 4623340047669800000; 4623340047669800000; 
    4623340047669800000; 4623340047669800000; 4623340047669800000; 4623340047669800000; 4623340047669800000; 4623340047669800000; 833149845247300000; 
    833149845247300000; 833149845247300000; 833149845247300000; 833149845247300000; 833149845247300000; 833149845247300000; 833149845247300000; 
    833149845247300000; 833149845247300000; 833149845247300000; 833149845247300000; 7240296760857200000; 7240296760857200000; 7240296760857200000; 
    7240296760857200000; 7240296760857200000; 7240296760857200000; 7240296760857200000; 7240296760857200000; 7240296760857200000; 7240296760857200000; 
    7240296760857200000; 7240296760857200000; 875180780997800000; 875180780997800000; 875180780997800000; 875180780997800000; 875180780997800000; 
    875180780997800000; 875180780997800000; 875180780997800000; 875180780997800000; 875180780997800000; 875180780997800000; 875180780997800000; 
    7172536518098400000; 7172536518098400000; 7172536518098400000; 7172536518098400000; 7172536518098400000; 7172536518098400000; 7172536518098400000; 
    7172536518098400000; 7172536518098400000; 7172536518098400000; 7172536518098400000; 7172536518098400000; 7172536518098400000; 7172536518098400000; 
    7172536518098400000; 7172536518098400000; 7172536518098400000; 7172536518098400000; 7172536518098400000; 7172536518098400000; 7172536518098400000; 
    7172536518098400000; 7172536518098400000; 7172536518098400000; 4286856342790800000; 4286856342790800000; 4286856342790800000; 4286856342790800000; 
    4286856342790800000; 4286856342790800000; 4286856342790800000; 4286856342790800000; 4286856342790800000; 4286856342790800000; 4286856342790800000; 
    4286856342790800000; 4286856342790800000; 4286856342790800000; 4286856342790800000; 4286856342790800000; 4286856342790800000; 4286856342790800000; 
    4286856342790800000; 4286856342790800000; 4286856342790800000; 4286856342790800000; 4286856342790800000; 4286856342790800000; 975752764150700000; 
    975752764150700000; 975752764150700000; 975752764150700000; 975752764150700000; 975752764150700000; 975752764150700000; 975752764150700000; 
    975752764150700000; 975752764150700000; 975752764150700000; 975752764150700000; 975752764150700000; 975752764150700000; 975752764150700000; 
    975752764150700000; 975752764150700000; 975752764150700000; 975752764150700000; 975752764150700000; 975752764150700000; 975752764150700000; 
    975752764150700000; 975752764150700000; 3757936299766700000; 3757936299766700000; 3757936299766700000; 3757936299766700000; 3757936299766700000; 
    3757936299766700000; 3757936299766700000; 3757936299766700000; 3757936299766700000; 3757936299766700000; 3757936299766700000; 3757936299766700000; 
    3757936299766700000; 3757936299766700000; 3757936299766700000; 3757936299766700000; 3757936299766700000; 3757936299766700000; 3757936299766700000; 
    3757936299766700000; 3757936299766700000; 3757936299766700000; 3757936299766700000; 3757936299766700000], 14%nat).
(** jaskowiec_sukumar_tet_data.py:3957-5025 *)
Definition js_tet_data_14 : list (list Z) * list Z * nat :=
  ([[169264215854722000000000; 9492207352435834000000000; 169264215854722000000000; 169264215854722000000000; 2836779254595722000000000; 
    1489662236212833000000000; 2836779254595722000000000; 2836779254595722000000000; 1821984139975859000000000; 4534047580072424000000000; 
    1821984139975859000000000; 1821984139975859000000000; 4854919948478154000000000; 145080051521846000000000; 4854919948478154000000000; 
    145080051521846000000000; 4854919948478154000000000; 145080051521846000000000; 3572558562341436000000000; 1427441437658564000000000; 
    3572558562341436000000000; 1427441437658564000000000; 3572558562341436000000000; 1427441437658564000000000; 7766357493733004000000000; 
    732172725619535000000000; 732172725619535000000000; 769297055027926000000000; 769297055027926000000000; 769297055027926000000000; 
    732172725619535000000000; 7766357493733004000000000; 732172725619535000000000; 732172725619535000000000; 7766357493733004000000000; 
    732172725619535000000000; 2225606554924344000000000; 105655841048970000000000; 105655841048970000000000; 7563081762977716000000000; 
    7563081762977716000000000; 7563081762977716000000000; 105655841048970000000000; 2225606554924344000000000; 105655841048970000000000; 
    105655841048970000000000; 2225606554924344000000000; 105655841048970000000000; 557502224056597000000000; 2637972626688146000000000; 
    2637972626688146000000000; 4166552522567110000000000; 4166552522567110000000000; 4166552522567110000000000; 2637972626688146000000000; 
    557502224056597000000000; 2637972626688146000000000; 2637972626688146000000000; 557502224056597000000000; 2637972626688146000000000; 
    1112909267055329000000000; 4354902702993817000000000; 4354902702993817000000000; 177285326957037000000000; 177285326957037000000000; 
    177285326957037000000000; 4354902702993817000000000; 1112909267055329000000000; 4354902702993817000000000; 4354902702993817000000000; 
    1112909267055329000000000; 4354902702993817000000000; 5448865322975603000000000; 534725936418519000000000; 534725936418519000000000; 
    3481682804187358000000000; 3481682804187358000000000; 3481682804187358000000000; 534725936418519000000000; 5448865322975603000000000; 
    534725936418519000000000; 534725936418519000000000; 5448865322975603000000000; 534725936418519000000000; 7694703779405406000000000; 
    1105308939580100000000000; 1105308939580100000000000; 94678341434394000000000; 94678341434394000000000; 94678341434394000000000; 
    1105308939580100000000000; 7694703779405406000000000; 1105308939580100000000000; 1105308939580100000000000; 7694703779405406000000000; 
    1105308939580100000000000; 6030936440770986000000000; 6030936440770986000000000; 410467051499108000000000; 3535307263575092000000000; 
    410467051499108000000000; 3535307263575092000000000; 23289244154814000000000; 23289244154814000000000; 23289244154814000000000; 
    23289244154814000000000; 23289244154814000000000; 23289244154814000000000; 410467051499108000000000; 3535307263575092000000000; 
    6030936440770986000000000; 6030936440770986000000000; 3535307263575092000000000; 410467051499108000000000; 410467051499108000000000; 
    3535307263575092000000000; 6030936440770986000000000; 6030936440770986000000000; 3535307263575092000000000; 410467051499108000000000; 
    293931933291708000000000; 293931933291708000000000; 920166732769526000000000; 113255282696951000000000; 920166732769526000000000; 
    113255282696951000000000; 8672646051241815000000000; 8672646051241815000000000; 8672646051241815000000000; 8672646051241815000000000; 
    8672646051241815000000000; 8672646051241815000000000; 920166732769526000000000; 113255282696951000000000; 293931933291708000000000; 
    293931933291708000000000; 113255282696951000000000; 920166732769526000000000; 920166732769526000000000; 113255282696951000000000; 
    293931933291708000000000; 293931933291708000000000; 113255282696951000000000; 920166732769526000000000; 7077814873155971000000000; 
    7077814873155971000000000; 682262786800005000000000; 2019857964457858000000000; 682262786800005000000000; 2019857964457858000000000; 
    220064375586166000000000; 220064375586166000000000; 220064375586166000000000; 220064375586166000000000; 220064375586166000000000; 
    220064375586166000000000; 682262786800005000000000; 2019857964457858000000000; 7077814873155971000000000; 7077814873155971000000000; 
    2019857964457858000000000; 682262786800005000000000; 682262786800005000000000; 2019857964457858000000000; 7077814873155971000000000; 
    7077814873155971000000000; 2019857964457858000000000; 682262786800005000000000; 1295809597674534000000000; 1295809597674534000000000; 
    1890015556386176000000000; 6133421548059226000000000; 1890015556386176000000000; 6133421548059226000000000; 680753297880064000000000; 
    680753297880064000000000; 680753297880064000000000; 680753297880064000000000; 680753297880064000000000; 680753297880064000000000; 
    1890015556386176000000000; 6133421548059226000000000; 1295809597674534000000000; 1295809597674534000000000; 6133421548059226000000000; 
    1890015556386176000000000; 1890015556386176000000000; 6133421548059226000000000; 1295809597674534000000000; 1295809597674534000000000; 
    6133421548059226000000000; 1890015556386176000000000; 4695333003662676000000000; 4695333003662676000000000; 3054799663906012000000000; 
    1524718900094398000000000; 3054799663906012000000000; 1524718900094398000000000; 725148432336915000000000; 725148432336915000000000; 
    725148432336915000000000; 725148432336915000000000; 725148432336915000000000; 725148432336915000000000; 3054799663906012000000000; 
    1524718900094398000000000; 4695333003662676000000000; 4695333003662676000000000; 1524718900094398000000000; 3054799663906012000000000; 
    3054799663906012000000000; 1524718900094398000000000; 4695333003662676000000000; 4695333003662676000000000; 1524718900094398000000000; 
    3054799663906012000000000; 5778346261482753000000000; 5778346261482753000000000; 1509145500825105000000000; 2601230834564079000000000; 
    1509145500825105000000000; 2601230834564079000000000; 111277403128063000000000; 111277403128063000000000; 111277403128063000000000; 
    111277403128063000000000; 111277403128063000000000; 111277403128063000000000; 1509145500825105000000000; 2601230834564079000000000; 
    5778346261482753000000000; 5778346261482753000000000; 2601230834564079000000000; 1509145500825105000000000; 1509145500825105000000000; 
    2601230834564079000000000; 5778346261482753000000000; 5778346261482753000000000; 2601230834564079000000000; 1509145500825105000000000; 
    108219475368229000000000; 108219475368229000000000; 3368450658547645000000000; 2347260337441091000000000; 3368450658547645000000000; 
    2347260337441091000000000; 4176069528643034000000000; 4176069528643034000000000; 4176069528643034000000000; 4176069528643034000000000; 
    4176069528643034000000000; 4176069528643034000000000; 3368450658547645000000000; 2347260337441091000000000; 108219475368229000000000; 
    108219475368229000000000; 2347260337441091000000000; 3368450658547645000000000; 3368450658547645000000000; 2347260337441091000000000; 
    108219475368229000000000; 108219475368229000000000; 2347260337441091000000000; 3368450658547645000000000];
   [169264215854722000000000; 169264215854722000000000; 9492207352435834000000000; 169264215854722000000000; 2836779254595722000000000; 
    2836779254595722000000000; 1489662236212833000000000; 2836779254595722000000000; 1821984139975859000000000; 1821984139975859000000000; 
    4534047580072424000000000; 1821984139975859000000000; 145080051521846000000000; 4854919948478154000000000; 4854919948478154000000000; 
    145080051521846000000000; 145080051521846000000000; 4854919948478154000000000; 1427441437658564000000000; 3572558562341436000000000; 
    3572558562341436000000000; 1427441437658564000000000; 1427441437658564000000000; 3572558562341436000000000; 732172725619535000000000; 
    7766357493733004000000000; 732172725619535000000000; 732172725619535000000000; 7766357493733004000000000; 732172725619535000000000; 
    769297055027926000000000; 769297055027926000000000; 769297055027926000000000; 732172725619535000000000; 732172725619535000000000; 
    7766357493733004000000000; 105655841048970000000000; 2225606554924344000000000; 105655841048970000000000; 105655841048970000000000; 
    2225606554924344000000000; 105655841048970000000000; 7563081762977716000000000; 7563081762977716000000000; 7563081762977716000000000; 
    105655841048970000000000; 105655841048970000000000; 2225606554924344000000000; 2637972626688146000000000; 557502224056597000000000; 
    2637972626688146000000000; 2637972626688146000000000; 557502224056597000000000; 2637972626688146000000000; 4166552522567110000000000; 
    4166552522567110000000000; 4166552522567110000000000; 2637972626688146000000000; 2637972626688146000000000; 557502224056597000000000; 
    4354902702993817000000000; 1112909267055329000000000; 4354902702993817000000000; 4354902702993817000000000; 1112909267055329000000000; 
    4354902702993817000000000; 177285326957037000000000; 177285326957037000000000; 177285326957037000000000; 4354902702993817000000000; 
    4354902702993817000000000; 1112909267055329000000000; 534725936418519000000000; 5448865322975603000000000; 534725936418519000000000; 
    534725936418519000000000; 5448865322975603000000000; 534725936418519000000000; 3481682804187358000000000; 3481682804187358000000000; 
    3481682804187358000000000; 534725936418519000000000; 534725936418519000000000; 5448865322975603000000000; 1105308939580100000000000; 
    7694703779405406000000000; 1105308939580100000000000; 1105308939580100000000000; 7694703779405406000000000; 1105308939580100000000000; 
    94678341434394000000000; 94678341434394000000000; 94678341434394000000000; 1105308939580100000000000; 1105308939580100000000000; 
    7694703779405406000000000; 410467051499108000000000; 3535307263575092000000000; 6030936440770986000000000; 6030936440770986000000000; 
    3535307263575092000000000; 410467051499108000000000; 410467051499108000000000; 3535307263575092000000000; 6030936440770986000000000; 
    6030936440770986000000000; 3535307263575092000000000; 410467051499108000000000; 23289244154814000000000; 23289244154814000000000; 
    23289244154814000000000; 23289244154814000000000; 23289244154814000000000; 23289244154814000000000; 3535307263575092000000000; 
    410467051499108000000000; 3535307263575092000000000; 410467051499108000000000; 6030936440770986000000000; 6030936440770986000000000; 
    920166732769526000000000; 113255282696951000000000; 293931933291708000000000; 293931933291708000000000; 113255282696951000000000; 
    920166732769526000000000; 920166732769526000000000; 113255282696951000000000; 293931933291708000000000; 293931933291708000000000; 
    113255282696951000000000; 920166732769526000000000; 8672646051241815000000000; 8672646051241815000000000; 8672646051241815000000000; 
    8672646051241815000000000; 8672646051241815000000000; 8672646051241815000000000; 113255282696951000000000; 920166732769526000000000; 
    113255282696951000000000; 920166732769526000000000; 293931933291708000000000; 293931933291708000000000; 682262786800005000000000; 
    2019857964457858000000000; 7077814873155971000000000; 7077814873155971000000000; 2019857964457858000000000; 682262786800005000000000; 
    682262786800005000000000; 2019857964457858000000000; 7077814873155971000000000; 7077814873155971000000000; 2019857964457858000000000; 
    682262786800005000000000; 220064375586166000000000; 220064375586166000000000; 220064375586166000000000; 220064375586166000000000; 
    220064375586166000000000; 220064375586166000000000; 2019857964457858000000000; 682262786800005000000000; 2019857964457858000000000; 
    682262786800005000000000; 7077814873155971000000000; 7077814873155971000000000; 1890015556386176000000000; 6133421548059226000000000; 
    1295809597674534000000000; 1295809597674534000000000; 6133421548059226000000000; 1890015556386176000000000; 1890015556386176000000000; 
    6133421548059226000000000; 1295809597674534000000000; 1295809597674534000000000; 6133421548059226000000000; 1890015556386176000000000; 
    680753297880064000000000; 680753297880064000000000; 680753297880064000000000; 680753297880064000000000; 680753297880064000000000; 
    680753297880064000000000; 6133421548059226000000000; 1890015556386176000000000; 6133421548059226000000000; 1890015556386176000000000; 
    1295809597674534000000000; 1295809597674534000000000; 3054799663906012000000000; 1524718900094398000000000; 4695333003662676000000000; 
    4695333003662676000000000; 1524718900094398000000000; 3054799663906012000000000; 3054799663906012000000000; 1524718900094398000000000; 
    4695333003662676000000000; 4695333003662676000000000; 1524718900094398000000000; 3054799663906012000000000; 725148432336915000000000; 
    725148432336915000000000; 725148432336915000000000; 725148432336915000000000; 725148432336915000000000; 725148432336915000000000; 
    1524718900094398000000000; 3054799663906012000000000; 1524718900094398000000000; 3054799663906012000000000; 4695333003662676000000000; 
    4695333003662676000000000; 1509145500825105000000000; 2601230834564079000000000; 5778346261482753000000000; 5778346261482753000000000; 
    2601230834564079000000000; 1509145500825105000000000; 1509145500825105000000000; 2601230834564079000000000; 5778346261482753000000000; 
    5778346261482753000000000; 2601230834564079000000000; 1509145500825105000000000; 111277403128063000000000; 111277403128063000000000; 
    111277403128063000000000; 111277403128063000000000; 111277403128063000000000; 111277403128063000000000; 2601230834564079000000000; 
    1509145500825105000000000; 2601230834564079000000000; 1509145500825105000000000; 5778346261482753000000000; 5778346261482753000000000; 
    3368450658547645000000000; 2347260337441091000000000; 108219475368229000000000; 108219475368229000000000; 2347260337441091000000000; 
    3368450658547645000000000; 3368450658547645000000000; 2347260337441091000000000; 108219475368229000000000; 108219475368229000000000; 
    2347260337441091000000000; 3368450658547645000000000; 4176069528643034000000000; 4176069528643034000000000; 4176069528643034000000000; 
    4176069528643034000000000; 4176069528643034000000000; 4176069528643034000000000; 2347260337441091000000000; 3368450658547645000000000; 
    2347260337441091000000000; 3368450658547645000000000; 108219475368229000000000; 108219475368229000000000];
   [169264215854722000000000; 169264215854722000000000; 169264215854722000000000; 9492207352435834000000000; 2836779254595722000000000; 
    2836779254595722000000000; 2836779254595722000000000; 1489662236212833000000000; 1821984139975859000000000; 1821984139975859000000000; 
    1821984139975859000000000; 4534047580072424000000000; 145080051521846000000000; 145080051521846000000000; 145080051521846000000000; 
    4854919948478154000000000; 4854919948478154000000000; 4854919948478154000000000; 1427441437658564000000000; 1427441437658564000000000; 
    1427441437658564000000000; 3572558562341436000000000; 3572558562341436000000000; 3572558562341436000000000; 732172725619535000000000; 
    732172725619535000000000; 7766357493733004000000000; 732172725619535000000000; 732172725619535000000000; 7766357493733004000000000; 
    732172725619535000000000; 732172725619535000000000; 7766357493733004000000000; 769297055027926000000000; 769297055027926000000000; 
    769297055027926000000000; 105655841048970000000000; 105655841048970000000000; 2225606554924344000000000; 105655841048970000000000; 
    105655841048970000000000; 2225606554924344000000000; 105655841048970000000000; 105655841048970000000000; 2225606554924344000000000; 
    7563081762977716000000000; 7563081762977716000000000; 7563081762977716000000000; 2637972626688146000000000; 2637972626688146000000000; 
    557502224056597000000000; 2637972626688146000000000; 2637972626688146000000000; 557502224056597000000000; 2637972626688146000000000; 
    2637972626688146000000000; 557502224056597000000000; 4166552522567110000000000; 4166552522567110000000000; 4166552522567110000000000; 
    4354902702993817000000000; 4354902702993817000000000; 1112909267055329000000000; 4354902702993817000000000; 4354902702993817000000000; 
    1112909267055329000000000; 4354902702993817000000000; 4354902702993817000000000; 1112909267055329000000000; 177285326957037000000000; 
    177285326957037000000000; 177285326957037000000000; 534725936418519000000000; 534725936418519000000000; 5448865322975603000000000; 
    534725936418519000000000; 534725936418519000000000; 5448865322975603000000000; 534725936418519000000000; 534725936418519000000000; 
    5448865322975603000000000; 3481682804187358000000000; 3481682804187358000000000; 3481682804187358000000000; 1105308939580100000000000; 
    1105308939580100000000000; 7694703779405406000000000; 1105308939580100000000000; 1105308939580100000000000; 7694703779405406000000000; 
    1105308939580100000000000; 1105308939580100000000000; 7694703779405406000000000; 94678341434394000000000; 94678341434394000000000; 
    94678341434394000000000; 3535307263575092000000000; 410467051499108000000000; 3535307263575092000000000; 410467051499108000000000; 
    6030936440770986000000000; 6030936440770986000000000; 3535307263575092000000000; 410467051499108000000000; 3535307263575092000000000; 
    410467051499108000000000; 6030936440770986000000000; 6030936440770986000000000; 3535307263575092000000000; 410467051499108000000000; 
    3535307263575092000000000; 410467051499108000000000; 6030936440770986000000000; 6030936440770986000000000; 23289244154814000000000; 
    23289244154814000000000; 23289244154814000000000; 23289244154814000000000; 23289244154814000000000; 23289244154814000000000; 
    113255282696951000000000; 920166732769526000000000; 113255282696951000000000; 920166732769526000000000; 293931933291708000000000; 
    293931933291708000000000; 113255282696951000000000; 920166732769526000000000; 113255282696951000000000; 920166732769526000000000; 
    293931933291708000000000; 293931933291708000000000; 113255282696951000000000; 920166732769526000000000; 113255282696951000000000; 
    920166732769526000000000; 293931933291708000000000; 293931933291708000000000; 8672646051241815000000000; 8672646051241815000000000; 
    8672646051241815000000000; 8672646051241815000000000; 8672646051241815000000000; 8672646051241815000000000; 2019857964457858000000000; 
    682262786800005000000000; 2019857964457858000000000; 682262786800005000000000; 7077814873155971000000000; 7077814873155971000000000; 
    2019857964457858000000000; 682262786800005000000000; 2019857964457858000000000; 682262786800005000000000; 7077814873155971000000000; 
    7077814873155971000000000; 2019857964457858000000000; 682262786800005000000000; 2019857964457858000000000; 682262786800005000000000; 
    7077814873155971000000000; 7077814873155971000000000; 220064375586166000000000; 220064375586166000000000; 220064375586166000000000; 
    220064375586166000000000; 220064375586166000000000; 220064375586166000000000; 6133421548059226000000000; 1890015556386176000000000; 
    6133421548059226000000000; 1890015556386176000000000; 1295809597674534000000000; 1295809597674534000000000; 6133421548059226000000000; 
    1890015556386176000000000; 6133421548059226000000000; 1890015556386176000000000; 1295809597674534000000000; 1295809597674534000000000; 
    6133421548059226000000000; 1890015556386176000000000; 6133421548059226000000000; 1890015556386176000000000; 1295809597674534000000000; 
    1295809597674534000000000; 680753297880064000000000; 680753297880064000000000; 680753297880064000000000; 680753297880064000000000; 
    680753297880064000000000; 680753297880064000000000; 1524718900094398000000000; 3054799663906012000000000; 1524718900094398000000000; 
    3054799663906012000000000; 4695333003662676000000000; 4695333003662676000000000; 1524718900094398000000000; 3054799663906012000000000; 
    1524718900094398000000000; 3054799663906012000000000; 4695333003662676000000000; 4695333003662676000000000; 1524718900094398000000000; 
    3054799663906012000000000; 1524718900094398000000000; 3054799663906012000000000; 4695333003662676000000000; 4695333003662676000000000; 
    725148432336915000000000; 725148432336915000000000; 725148432336915000000000; 725148432336915000000000; 725148432336915000000000; 
    725148432336915000000000; 2601230834564079000000000; 1509145500825105000000000; 2601230834564079000000000; 1509145500825105000000000; 
    5778346261482753000000000; 5778346261482753000000000; 2601230834564079000000000; 1509145500825105000000000; 2601230834564079000000000; 
    1509145500825105000000000; 5778346261482753000000000; 5778346261482753000000000; 2601230834564079000000000; 1509145500825105000000000; 
    2601230834564079000000000; 1509145500825105000000000; 5778346261482753000000000; 5778346261482753000000000; 111277403128063000000000; 
    111277403128063000000000; 111277403128063000000000; 111277403128063000000000; 111277403128063000000000; 111277403128063000000000; 
    2347260337441091000000000; 3368450658547645000000000; 2347260337441091000000000; 3368450658547645000000000; 108219475368229000000000; 
    108219475368229000000000; 2347260337441091000000000; 3368450658547645000000000; 2347260337441091000000000; 3368450658547645000000000; 
    108219475368229000000000; 108219475368229000000000; 2347260337441091000000000; 3368450658547645000000000; 2347260337441091000000000; 
    3368450658547645000000000; 108219475368229000000000; 108219475368229000000000; 4176069528643034000000000; 4176069528643034000000000; 
    4176069528643034000000000; 4176069528643034000000000; 4176069528643034000000000; 4176069528643034000000000]],
   [511202977145500000; 511202977145500000; 511202977145500000; 511202977145500000; 16207405920226600000; 16207405920226600000; 16207405920226600000; 
    16207405920226600000; 15525786020413100000; 15525786020413100000; 15525786020413100000; 15525786020413100000; 1219010259975400000; 
    1219010259975400000; 1219010259975400000; 1219010259975400000; 1219010259975400000; 1219010259975400000; 8472862853125900000; 8472862853125900000; 
    8472862853125900000; 8472862853125900000; 8472862853125900000; 8472862853125900000; 1797534305405700000; 1797534305405700000; 1797534305405700000; 
    1797534305405700000; 1797534305405700000; 1797534305405700000; 1797534305405700000; 1797534305405700000; 1797534305405700000; 1797534305405700000; 
    1797534305405700000; 1797534305405700000; 819801522076000000; 819801522076000000; 819801522076000000; 819801522076000000; 819801522076000000; 
    819801522076000000; 819801522076000000; 819801522076000000; 819801522076000000; 819801522076000000; 819801522076000000; 819801522076000000; 
    7681775272473000000; 7681775272473000000; 7681775272473000000; 7681775272473000000; 7681775272473000000; 7681775272473000000; 7681775272473000000; 
    7681775272473000000; 7681775272473000000; 7681775272473000000; 7681775272473000000; 7681775272473000000; 4479850385774800000; 4479850385774800000; 
    4479850385774800000; 4479850385774800000; 4479850385774800000; 4479850385774800000; 4479850385774800000; 4479850385774800000; 4479850385774800000; 
    4479850385774800000; 4479850385774800000; 4479850385774800000; 5615298608384400000; 5615298608384400000; 5615298608384400000; 5615298608384400000; 
    5615298608384400000; 5615298608384400000; 5615298608384400000; 5615298608384400000; 5615298608384400000; 5615298608384400000; 5615298608384400000; 
    5615298608384400000; 1769703685797300000; 1769703685797300000; 1769703685797300000; 1769703685797300000; 1769703685797300000; 1769703685797300000; 
    1769703685797300000; 1769703685797300000; 1769703685797300000; 1769703685797300000; 1769703685797300000; 1769703685797300000; 1131138329187000000; 
    1131138329187000000; 1131138329187000000; 1131138329187000000; 1131138329187000000; 1131138329187000000; 1131138329187000000; 1131138329187000000; 
    1131138329187000000; 1131138329187000000; 1131138329187000000; 1131138329187000000; 1131138329187000000; 1131138329187000000; 1131138329187000000; 
    1131138329187000000; 1131138329187000000; 1131138329187000000; 1131138329187000000; 1131138329187000000; 1131138329187000000; 1131138329187000000; 
    1131138329187000000; 1131138329187000000; 840499340757700000; 840499340757700000; 840499340757700000; 840499340757700000; 840499340757700000; 
    840499340757700000; 840499340757700000; 840499340757700000; 840499340757700000; 840499340757700000; 840499340757700000; 840499340757700000; 
    840499340757700000; 840499340757700000; 840499340757700000; 840499340757700000; 840499340757700000; 840499340757700000; 840499340757700000; 
    840499340757700000; 840499340757700000; 840499340757700000; 840499340757700000; 840499340757700000; 3011968607402700000; 3011968607402700000; 
    3011968607402700000; 3011968607402700000; 3011968607402700000; 3011968607402700000; 3011968607402700000; 3011968607402700000; 3011968607402700000; 
    3011968607402700000; 3011968607402700000; 3011968607402700000; 3011968607402700000; 3011968607402700000; 3011968607402700000; 3011968607402700000; 
    3011968607402700000; 3011968607402700000; 3011968607402700000; 3011968607402700000; 3011968607402700000; 3011968607402700000; 3011968607402700000; 
    3011968607402700000; 5084429327522700000; 5084429327522700000; 5084429327522700000; 5084429327522700000; 5084429327522700000; 5084429327522700000; 
    5084429327522700000; 5084429327522700000; 5084429327522700000; 5084429327522700000; 5084429327522700000; 5084429327522700000; 5084429327522700000; 
    5084429327522700000; 5084429327522700000; 5084429327522700000; 5084429327522700000; 5084429327522700000; 5084429327522700000; 5084429327522700000; 
    5084429327522700000; 5084429327522700000; 5084429327522700000; 5084429327522700000; 7139383728004000000; 7139383728004000000; 7139383728004000000; 
    7139383728004000000; 7139383728004000000; 7139383728004000000; 7139383728004000000; 7139383728004000000; 7139383728004000000; 7139383728004000000; 
    7139383728004000000; 7139383728004000000; 7139383728004000000; 7139383728004000000; 7139383728004000000; 7139383728004000000; 7139383728004000000; 
    7139383728004000000; 7139383728004000000; 7139383728004000000; 7139383728004000000; 7139383728004000000; 7139383728004000000; 7139383728004000000; 
    3378550568229300000; 3378550568229300000; 3378550568229300000; 3378550568229300000; 3378550568229300000; 3378550568229300000; 3378550568229300000; 
    3378550568229300000; 3378550568229300000; 3378550568229300000; 3378550568229300000; 3378550568229300000; 3378550568229300000; 3378550568229300000; 
    3378550568229300000; 3378550568229300000; 3378550568229300000; 3378550568229300000; 3378550568229300000; 3378550568229300000; 3378550568229300000; 
    3378550568229300000; 3378550568229300000; 3378550568229300000; 2201680777701500000; 2201680777701500000; 2201680777701500000; 2201680777701500000; 
    2201680777701500000; 2201680777701500000; 2201680777701500000; 2201680777701500000; 2201680777701500000; 2201680777701500000; 2201680777701500000; 
    2201680777701500000; 2201680777701500000; 2201680777701500000; 2201680777701500000; 2201680777701500000; 2201680777701500000; 2201680777701500000; 
    2201680777701500000; 2201680777701500000; 2201680777701500000; 2201680777701500000; 2201680777701500000; 2201680777701500000], 15%nat).
(** jaskowiec_sukumar_tet_data.py:5026-6254 *)
Definition js_tet_data_15 : list (list Z) * list Z * nat :=
  ([[3296714738440606000000000; 109855784678181000000000; 3296714738440606000000000; 3296714738440606000000000; 1120421044173788000000000; 
    6638736867478636000000000; 1120421044173788000000000; 1120421044173788000000000; 2804460259110929000000000; 1586619222667212000000000; 
    2804460259110929000000000; 2804460259110929000000000; 394216444407617000000000; 8817350666777151000000000; 394216444407617000000000; 
    394216444407617000000000; 4250825814352324000000000; 749174185647676000000000; 4250825814352324000000000; 749174185647676000000000; 
    4250825814352324000000000; 749174185647676000000000; 1643068970443654000000000; 3356931029556346000000000; 1643068970443654000000000; 
    3356931029556346000000000; 1643068970443654000000000; 3356931029556346000000000; 7646870675801803000000000; 490489875955668000000000; 
    490489875955668000000000; 1372149572286861000000000; 1372149572286861000000000; 1372149572286861000000000; 490489875955668000000000; 
    7646870675801803000000000; 490489875955668000000000; 490489875955668000000000; 7646870675801803000000000; 490489875955668000000000; 
    2328268045894251000000000; 141260956830925000000000; 141260956830925000000000; 7389210040443899000000000; 7389210040443899000000000; 
    7389210040443899000000000; 141260956830925000000000; 2328268045894251000000000; 141260956830925000000000; 141260956830925000000000; 
    2328268045894251000000000; 141260956830925000000000; 2832417683077947000000000; 623965205815433000000000; 623965205815433000000000; 
    5919651905291188000000000; 5919651905291188000000000; 5919651905291188000000000; 623965205815433000000000; 2832417683077947000000000; 
    623965205815433000000000; 623965205815433000000000; 2832417683077947000000000; 623965205815433000000000; 128318740561182000000000; 
    1890959275696560000000000; 1890959275696560000000000; 6089762708045698000000000; 6089762708045698000000000; 6089762708045698000000000; 
    1890959275696560000000000; 128318740561182000000000; 1890959275696560000000000; 1890959275696560000000000; 128318740561182000000000; 
    1890959275696560000000000; 3872709603194903000000000; 2750176001295444000000000; 2750176001295444000000000; 626938394214209000000000; 
    626938394214209000000000; 626938394214209000000000; 2750176001295444000000000; 3872709603194903000000000; 2750176001295444000000000; 
    2750176001295444000000000; 3872709603194903000000000; 2750176001295444000000000; 372380593552354000000000; 59448982525699000000000; 
    59448982525699000000000; 9508721441396247000000000; 9508721441396247000000000; 9508721441396247000000000; 59448982525699000000000; 
    372380593552354000000000; 59448982525699000000000; 59448982525699000000000; 372380593552354000000000; 59448982525699000000000; 
    7482941078308859000000000; 1183058071099944000000000; 1183058071099944000000000; 150942779491252000000000; 150942779491252000000000; 
    150942779491252000000000; 1183058071099944000000000; 7482941078308859000000000; 1183058071099944000000000; 1183058071099944000000000; 
    7482941078308859000000000; 1183058071099944000000000; 5146357887888395000000000; 5146357887888395000000000; 801184612787250000000000; 
    144436385136434000000000; 801184612787250000000000; 144436385136434000000000; 3908021114187921000000000; 3908021114187921000000000; 
    3908021114187921000000000; 3908021114187921000000000; 3908021114187921000000000; 3908021114187921000000000; 801184612787250000000000; 
    144436385136434000000000; 5146357887888395000000000; 5146357887888395000000000; 144436385136434000000000; 801184612787250000000000; 
    801184612787250000000000; 144436385136434000000000; 5146357887888395000000000; 5146357887888395000000000; 144436385136434000000000; 
    801184612787250000000000; 1645739468379099000000000; 1645739468379099000000000; 3102585498627273000000000; 4552165700697292000000000; 
    3102585498627273000000000; 4552165700697292000000000; 699509332296337000000000; 699509332296337000000000; 699509332296337000000000; 
    699509332296337000000000; 699509332296337000000000; 699509332296337000000000; 3102585498627273000000000; 4552165700697292000000000; 
    1645739468379099000000000; 1645739468379099000000000; 4552165700697292000000000; 3102585498627273000000000; 3102585498627273000000000; 
    4552165700697292000000000; 1645739468379099000000000; 1645739468379099000000000; 4552165700697292000000000; 3102585498627273000000000; 
    343586795014570000000000; 343586795014570000000000; 1085240801928985000000000; 14015410850694000000000; 1085240801928985000000000; 
    14015410850694000000000; 8557156992205752000000000; 8557156992205752000000000; 8557156992205752000000000; 8557156992205752000000000; 
    8557156992205752000000000; 8557156992205752000000000; 1085240801928985000000000; 14015410850694000000000; 343586795014570000000000; 
    343586795014570000000000; 14015410850694000000000; 1085240801928985000000000; 1085240801928985000000000; 14015410850694000000000; 
    343586795014570000000000; 343586795014570000000000; 14015410850694000000000; 1085240801928985000000000; 6625317544850510000000000; 
    6625317544850510000000000; 2483824987814955000000000; 781025122458046000000000; 2483824987814955000000000; 781025122458046000000000; 
    109832344876490000000000; 109832344876490000000000; 109832344876490000000000; 109832344876490000000000; 109832344876490000000000; 
    109832344876490000000000; 2483824987814955000000000; 781025122458046000000000; 6625317544850510000000000; 6625317544850510000000000; 
    781025122458046000000000; 2483824987814955000000000; 2483824987814955000000000; 781025122458046000000000; 6625317544850510000000000; 
    6625317544850510000000000; 781025122458046000000000; 2483824987814955000000000; 122689867800652000000000; 122689867800652000000000; 
    3960091211067035000000000; 5729400176172562000000000; 3960091211067035000000000; 5729400176172562000000000; 187818744959751000000000; 
    187818744959751000000000; 187818744959751000000000; 187818744959751000000000; 187818744959751000000000; 187818744959751000000000; 
    3960091211067035000000000; 5729400176172562000000000; 122689867800652000000000; 122689867800652000000000; 5729400176172562000000000; 
    3960091211067035000000000; 3960091211067035000000000; 5729400176172562000000000; 122689867800652000000000; 122689867800652000000000; 
    5729400176172562000000000; 3960091211067035000000000; 2054604991324105000000000; 2054604991324105000000000; 636751619713731000000000; 
    5946193880076269000000000; 636751619713731000000000; 5946193880076269000000000; 1362449508885895000000000; 1362449508885895000000000; 
    1362449508885895000000000; 1362449508885895000000000; 1362449508885895000000000; 1362449508885895000000000; 636751619713731000000000; 
    5946193880076269000000000; 2054604991324105000000000; 2054604991324105000000000; 5946193880076269000000000; 636751619713731000000000; 
    636751619713731000000000; 5946193880076269000000000; 2054604991324105000000000; 2054604991324105000000000; 5946193880076269000000000; 
    636751619713731000000000; 4610678860796995000000000; 4610678860796995000000000; 1757650466139104000000000; 2244134963451648000000000; 
    1757650466139104000000000; 2244134963451648000000000; 1387535709612253000000000; 1387535709612253000000000; 1387535709612253000000000; 
    1387535709612253000000000; 1387535709612253000000000; 1387535709612253000000000; 1757650466139104000000000; 2244134963451648000000000; 
    4610678860796995000000000; 4610678860796995000000000; 2244134963451648000000000; 1757650466139104000000000; 1757650466139104000000000; 
    2244134963451648000000000; 4610678860796995000000000; 4610678860796995000000000; 2244134963451648000000000; 1757650466139104000000000; 
    134478861029963000000000; 134478861029963000000000; 4779942532006705000000000; 1864180300424337000000000; 4779942532006705000000000; 
    1864180300424337000000000; 3221398306538996000000000; 3221398306538996000000000; 3221398306538996000000000; 3221398306538996000000000; 
    3221398306538996000000000; 3221398306538996000000000; 4779942532006705000000000; 1864180300424337000000000; 134478861029963000000000; 
    134478861029963000000000; 1864180300424337000000000; 4779942532006705000000000; 4779942532006705000000000; 1864180300424337000000000; 
    134478861029963000000000; 134478861029963000000000; 1864180300424337000000000; 4779942532006705000000000];
   [3296714738440606000000000; 3296714738440606000000000; 109855784678181000000000; 3296714738440606000000000; 1120421044173788000000000; 
    1120421044173788000000000; 6638736867478636000000000; 1120421044173788000000000; 2804460259110929000000000; 2804460259110929000000000; 
    1586619222667212000000000; 2804460259110929000000000; 394216444407617000000000; 394216444407617000000000; 8817350666777151000000000; 
    394216444407617000000000; 749174185647676000000000; 4250825814352324000000000; 4250825814352324000000000; 749174185647676000000000; 
    749174185647676000000000; 4250825814352324000000000; 3356931029556346000000000; 1643068970443654000000000; 1643068970443654000000000; 
    3356931029556346000000000; 3356931029556346000000000; 1643068970443654000000000; 490489875955668000000000; 7646870675801803000000000; 
    490489875955668000000000; 490489875955668000000000; 7646870675801803000000000; 490489875955668000000000; 1372149572286861000000000; 
    1372149572286861000000000; 1372149572286861000000000; 490489875955668000000000; 490489875955668000000000; 7646870675801803000000000; 
    141260956830925000000000; 2328268045894251000000000; 141260956830925000000000; 141260956830925000000000; 2328268045894251000000000; 
    141260956830925000000000; 7389210040443899000000000; 7389210040443899000000000; 7389210040443899000000000; 141260956830925000000000; 
    141260956830925000000000; 2328268045894251000000000; 623965205815433000000000; 2832417683077947000000000; 623965205815433000000000; 
    623965205815433000000000; 2832417683077947000000000; 623965205815433000000000; 5919651905291188000000000; 5919651905291188000000000; 
    5919651905291188000000000; 623965205815433000000000; 623965205815433000000000; 2832417683077947000000000; 1890959275696560000000000; 
    128318740561182000000000; 1890959275696560000000000; 1890959275696560000000000; 128318740561182000000000; 1890959275696560000000000; 
    6089762708045698000000000; 6089762708045698000000000; 6089762708045698000000000; 1890959275696560000000000; 1890959275696560000000000; 
    128318740561182000000000; 2750176001295444000000000; 3872709603194903000000000; 2750176001295444000000000; 2750176001295444000000000; 
    3872709603194903000000000; 2750176001295444000000000; 626938394214209000000000; 626938394214209000000000; 626938394214209000000000; 
    2750176001295444000000000; 2750176001295444000000000; 3872709603194903000000000; 59448982525699000000000; 372380593552354000000000; 
    59448982525699000000000; 59448982525699000000000; 372380593552354000000000; 59448982525699000000000; 9508721441396247000000000; 
    9508721441396247000000000; 9508721441396247000000000; 59448982525699000000000; 59448982525699000000000; 372380593552354000000000; 
    1183058071099944000000000; 7482941078308859000000000; 1183058071099944000000000; 1183058071099944000000000; 7482941078308859000000000; 
    1183058071099944000000000; 150942779491252000000000; 150942779491252000000000; 150942779491252000000000; 1183058071099944000000000; 
    1183058071099944000000000; 7482941078308859000000000; 801184612787250000000000; 144436385136434000000000; 5146357887888395000000000; 
    5146357887888395000000000; 144436385136434000000000; 801184612787250000000000; 801184612787250000000000; 144436385136434000000000; 
    5146357887888395000000000; 5146357887888395000000000; 144436385136434000000000; 801184612787250000000000; 3908021114187921000000000; 
    3908021114187921000000000; 3908021114187921000000000; 3908021114187921000000000; 3908021114187921000000000; 3908021114187921000000000; 
    144436385136434000000000; 801184612787250000000000; 144436385136434000000000; 801184612787250000000000; 5146357887888395000000000; 
    5146357887888395000000000; 3102585498627273000000000; 4552165700697292000000000; 1645739468379099000000000; 1645739468379099000000000; 
    4552165700697292000000000; 3102585498627273000000000; 3102585498627273000000000; 4552165700697292000000000; 1645739468379099000000000; 
    1645739468379099000000000; 4552165700697292000000000; 3102585498627273000000000; 699509332296337000000000; 699509332296337000000000; 
    699509332296337000000000; 699509332296337000000000; 699509332296337000000000; 699509332296337000000000; 4552165700697292000000000; 
    3102585498627273000000000; 4552165700697292000000000; 3102585498627273000000000; 1645739468379099000000000; 1645739468379099000000000; 
    1085240801928985000000000; 14015410850694000000000; 343586795014570000000000; 343586795014570000000000; 14015410850694000000000; 
    1085240801928985000000000; 1085240801928985000000000; 14015410850694000000000; 343586795014570000000000; 343586795014570000000000; 
    14015410850694000000000; 1085240801928985000000000; 8557156992205752000000000; 8557156992205752000000000; 8557156992205752000000000; 
    8557156992205752000000000; 8557156992205752000000000; 8557156992205752000000000; 14015410850694000000000; 1085240801928985000000000; 
    14015410850694000000000; 1085240801928985000000000; 343586795014570000000000; 343586795014570000000000; 2483824987814955000000000; 
    781025122458046000000000; 6625317544850510000000000; 6625317544850510000000000; 781025122458046000000000; 2483824987814955000000000; 
    2483824987814955000000000; 781025122458046000000000; 6625317544850510000000000; 6625317544850510000000000; 781025122458046000000000; 
    2483824987814955000000000; 109832344876490000000000; 109832344876490000000000; 109832344876490000000000; 109832344876490000000000; 
    109832344876490000000000; 109832344876490000000000; 781025122458046000000000; 2483824987814955000000000; 781025122458046000000000; 
    2483824987814955000000000; 6625317544850510000000000; 6625317544850510000000000; 3960091211067035000000000; 5729400176172562000000000; 
    122689867800652000000000; 122689867800652000000000; 5729400176172562000000000; 3960091211067035000000000; 3960091211067035000000000; 
    5729400176172562000000000; 122689867800652000000000; 122689867800652000000000; 5729400176172562000000000; 3960091211067035000000000; 
    187818744959751000000000; 187818744959751000000000; 187818744959751000000000; 187818744959751000000000; 187818744959751000000000; 
    187818744959751000000000; 5729400176172562000000000; 3960091211067035000000000; 5729400176172562000000000; 3960091211067035000000000; 
    122689867800652000000000; 122689867800652000000000; 636751619713731000000000; 5946193880076269000000000; 2054604991324105000000000; 
    2054604991324105000000000; 5946193880076269000000000; 636751619713731000000000; 636751619713731000000000; 5946193880076269000000000; 
    2054604991324105000000000; 2054604991324105000000000; 5946193880076269000000000; 636751619713731000000000; 1362449508885895000000000; 
    1362449508885895000000000; 1362449508885895000000000; 1362449508885895000000000; 1362449508885895000000000; 1362449508885895000000000; 
    5946193880076269000000000; 636751619713731000000000; 5946193880076269000000000; 636751619713731000000000; 2054604991324105000000000; 
    2054604991324105000000000; 1757650466139104000000000; 2244134963451648000000000; 4610678860796995000000000; 4610678860796995000000000; 
    2244134963451648000000000; 1757650466139104000000000; 1757650466139104000000000; 2244134963451648000000000; 4610678860796995000000000; 
    4610678860796995000000000; 2244134963451648000000000; 1757650466139104000000000; 1387535709612253000000000; 1387535709612253000000000; 
    1387535709612253000000000; 1387535709612253000000000; 1387535709612253000000000; 1387535709612253000000000; 2244134963451648000000000; 
    1757650466139104000000000; 2244134963451648000000000; 1757650466139104000000000; 4610678860796995000000000; 4610678860796995000000000; 
    4779942532006705000000000; 1864180300424337000000000; 134478861029963000000000; 134478861029963000000000; 1864180300424337000000000; 
    4779942532006705000000000; 4779942532006705000000000; 1864180300424337000000000; 134478861029963000000000; 134478861029963000000000; 
    1864180300424337000000000; 4779942532006705000000000; 3221398306538996000000000; 3221398306538996000000000; 3221398306538996000000000; 
    3221398306538996000000000; 3221398306538996000000000; 3221398306538996000000000; 1864180300424337000000000; 4779942532006705000000000; 
    1864180300424337000000000; 4779942532006705000000000; 134478861029963000000000; 134478861029963000000000];
   [3296714738440606000000000; 3296714738440606000000000; 3296714738440606000000000; 109855784678181000000000; 1120421044173788000000000; 
    1120421044173788000000000; 1120421044173788000000000; 6638736867478636000000000; 2804460259110929000000000; 2804460259110929000000000; 
    2804460259110929000000000; 1586619222667212000000000; 394216444407617000000000; 394216444407617000000000; 394216444407617000000000; 
    8817350666777151000000000; 749174185647676000000000; 749174185647676000000000; 749174185647676000000000; 4250825814352324000000000; 
    4250825814352324000000000; 4250825814352324000000000; 3356931029556346000000000; 3356931029556346000000000; 3356931029556346000000000; 
    1643068970443654000000000; 1643068970443654000000000; 1643068970443654000000000; 490489875955668000000000; 490489875955668000000000; 
    7646870675801803000000000; 490489875955668000000000; 490489875955668000000000; 7646870675801803000000000; 490489875955668000000000; 
    490489875955668000000000; 7646870675801803000000000; 1372149572286861000000000; 1372149572286861000000000; 1372149572286861000000000; 
    141260956830925000000000; 141260956830925000000000; 2328268045894251000000000; 141260956830925000000000; 141260956830925000000000; 
    2328268045894251000000000; 141260956830925000000000; 141260956830925000000000; 2328268045894251000000000; 7389210040443899000000000; 
    7389210040443899000000000; 7389210040443899000000000; 623965205815433000000000; 623965205815433000000000; 2832417683077947000000000; 
    623965205815433000000000; 623965205815433000000000; 2832417683077947000000000; 623965205815433000000000; 623965205815433000000000; 
    2832417683077947000000000; 5919651905291188000000000; 5919651905291188000000000; 5919651905291188000000000; 1890959275696560000000000; 
    1890959275696560000000000; 128318740561182000000000; 1890959275696560000000000; 1890959275696560000000000; 128318740561182000000000; 
    1890959275696560000000000; 1890959275696560000000000; 128318740561182000000000; 6089762708045698000000000; 6089762708045698000000000; 
    6089762708045698000000000; 2750176001295444000000000; 2750176001295444000000000; 3872709603194903000000000; 2750176001295444000000000; 
    2750176001295444000000000; 3872709603194903000000000; 2750176001295444000000000; 2750176001295444000000000; 3872709603194903000000000; 
    626938394214209000000000; 626938394214209000000000; 626938394214209000000000; 59448982525699000000000; 59448982525699000000000; 
    372380593552354000000000; 59448982525699000000000; 59448982525699000000000; 372380593552354000000000; 59448982525699000000000; 
    59448982525699000000000; 372380593552354000000000; 9508721441396247000000000; 9508721441396247000000000; 9508721441396247000000000; 
    1183058071099944000000000; 1183058071099944000000000; 7482941078308859000000000; 1183058071099944000000000; 1183058071099944000000000; 
    7482941078308859000000000; 1183058071099944000000000; 1183058071099944000000000; 7482941078308859000000000; 150942779491252000000000; 
    150942779491252000000000; 150942779491252000000000; 144436385136434000000000; 801184612787250000000000; 144436385136434000000000; 
    801184612787250000000000; 5146357887888395000000000; 5146357887888395000000000; 144436385136434000000000; 801184612787250000000000; 
    144436385136434000000000; 801184612787250000000000; 5146357887888395000000000; 5146357887888395000000000; 144436385136434000000000; 
    801184612787250000000000; 144436385136434000000000; 801184612787250000000000; 5146357887888395000000000; 5146357887888395000000000; 
    3908021114187921000000000; 3908021114187921000000000; 3908021114187921000000000; 3908021114187921000000000; 3908021114187921000000000; 
    3908021114187921000000000; 4552165700697292000000000; 3102585498627273000000000; 4552165700697292000000000; 3102585498627273000000000; 
    1645739468379099000000000; 1645739468379099000000000; 4552165700697292000000000; 3102585498627273000000000; 4552165700697292000000000; 
    3102585498627273000000000; 1645739468379099000000000; 1645739468379099000000000; 4552165700697292000000000; 3102585498627273000000000; 
    4552165700697292000000000; 3102585498627273000000000; 1645739468379099000000000; 1645739468379099000000000; 699509332296337000000000; 
    699509332296337000000000; 699509332296337000000000; 699509332296337000000000; 699509332296337000000000; 699509332296337000000000; 
    14015410850694000000000; 1085240801928985000000000; 14015410850694000000000; 1085240801928985000000000; 343586795014570000000000; 
    343586795014570000000000; 14015410850694000000000; 1085240801928985000000000; 14015410850694000000000; 1085240801928985000000000; 
    343586795014570000000000; 343586795014570000000000; 14015410850694000000000; 1085240801928985000000000; 14015410850694000000000; 
    1085240801928985000000000; 343586795014570000000000; 343586795014570000000000; 8557156992205752000000000; 8557156992205752000000000; 
    8557156992205752000000000; 8557156992205752000000000; 8557156992205752000000000; 8557156992205752000000000; 781025122458046000000000; 
    2483824987814955000000000; 781025122458046000000000; 2483824987814955000000000; 6625317544850510000000000; 6625317544850510000000000; 
    781025122458046000000000; 2483824987814955000000000; 781025122458046000000000; 2483824987814955000000000; 6625317544850510000000000; 
    6625317544850510000000000; 781025122458046000000000; 2483824987814955000000000; 781025122458046000000000; 2483824987814955000000000; 
    6625317544850510000000000; 6625317544850510000000000; 109832344876490000000000; 109832344876490000000000; 109832344876490000000000; 
    109832344876490000000000; 109832344876490000000000; 109832344876490000000000; 5729400176172562000000000; 3960091211067035000000000; 
    5729400176172562000000000; 3960091211067035000000000; 122689867800652000000000; 122689867800652000000000; 5729400176172562000000000; 
    3960091211067035000000000; 5729400176172562000000000; 3960091211067035000000000; 122689867800652000000000; 122689867800652000000000; 
    5729400176172562000000000; 3960091211067035000000000; 5729400176172562000000000; 3960091211067035000000000; 122689867800652000000000; 
    122689867800652000000000; 187818744959751000000000; 187818744959751000000000; 187818744959751000000000; 187818744959751000000000; 
    187818744959751000000000; 187818744959751000000000; 5946193880076269000000000; 636751619713731000000000; 5946193880076269000000000; 
    636751619713731000000000; 2054604991324105000000000; 2054604991324105000000000; 5946193880076269000000000; 636751619713731000000000; 
    5946193880076269000000000; 636751619713731000000000; 2054604991324105000000000; 2054604991324105000000000; 5946193880076269000000000; 
    636751619713731000000000; 5946193880076269000000000; 636751619713731000000000; 2054604991324105000000000; 2054604991324105000000000; 
    1362449508885895000000000; 1362449508885895000000000; 1362449508885895000000000; 1362449508885895000000000; 1362449508885895000000000; 
    1362449508885895000000000; 2244134963451648000000000; 1757650466139104000000000; 2244134963451648000000000; 1757650466139104000000000; 
    4610678860796995000000000; 4610678860796995000000000; 2244134963451648000000000; 1757650466139104000000000; 2244134963451648000000000; 
    1757650466139104000000000; 4610678860796995000000000; 4610678860796995000000000; 2244134963451648000000000; 1757650466139104000000000; 
    2244134963451648000000000; 1757650466139104000000000; 4610678860796995000000000; 4610678860796995000000000; 1387535709612253000000000; 
    1387535709612253000000000; 1387535709612253000000000; 1387535709612253000000000; 1387535709612253000000000; 1387535709612253000000000; 
    1864180300424337000000000; 4779942532006705000000000; 1864180300424337000000000; 4779942532006705000000000; 134478861029963000000000; 
    134478861029963000000000; 1864180300424337000000000; 4779942532006705000000000; 1864180300424337000000000; 4779942532006705000000000; 
    134478861029963000000000; 134478861029963000000000; 1864180300424337000000000; 4779942532006705000000000; 1864180300424337000000000; 
    4779942532006705000000000; 134478861029963000000000; 134478861029963000000000; 3221398306538996000000000; 3221398306538996000000000; 
    3221398306538996000000000; 3221398306538996000000000; 3221398306538996000000000; 3221398306538996000000000]],
   [4034878937238900000; 4034878937238900000; 4034878937238900000; 4034878937238900000; 5263428008047600000; 5263428008047600000; 5263428008047600000; 
    5263428008047600000; 10786391068577600000; 10786391068577600000; 10786391068577600000; 10786391068577600000; 1892340029031000000; 
    1892340029031000000; 1892340029031000000; 1892340029031000000; 6014511003000500000; 6014511003000500000; 6014511003000500000; 6014511003000500000; 
    6014511003000500000; 6014511003000500000; 8692191232873000000; 8692191232873000000; 8692191232873000000; 8692191232873000000; 8692191232873000000; 
    8692191232873000000; 3507623285785000000; 3507623285785000000; 3507623285785000000; 3507623285785000000; 3507623285785000000; 3507623285785000000; 
    3507623285785000000; 3507623285785000000; 3507623285785000000; 3507623285785000000; 3507623285785000000; 3507623285785000000; 1188662273319200000; 
    1188662273319200000; 1188662273319200000; 1188662273319200000; 1188662273319200000; 1188662273319200000; 1188662273319200000; 1188662273319200000; 
    1188662273319200000; 1188662273319200000; 1188662273319200000; 1188662273319200000; 4345225314466700000; 4345225314466700000; 4345225314466700000; 
    4345225314466700000; 4345225314466700000; 4345225314466700000; 4345225314466700000; 4345225314466700000; 4345225314466700000; 4345225314466700000; 
    4345225314466700000; 4345225314466700000; 2660686570203200000; 2660686570203200000; 2660686570203200000; 2660686570203200000; 2660686570203200000; 
    2660686570203200000; 2660686570203200000; 2660686570203200000; 2660686570203200000; 2660686570203200000; 2660686570203200000; 2660686570203200000; 
    5553174302124000000; 5553174302124000000; 5553174302124000000; 5553174302124000000; 5553174302124000000; 5553174302124000000; 5553174302124000000; 
    5553174302124000000; 5553174302124000000; 5553174302124000000; 5553174302124000000; 5553174302124000000; 153143140539600000; 153143140539600000; 
    153143140539600000; 153143140539600000; 153143140539600000; 153143140539600000; 153143140539600000; 153143140539600000; 153143140539600000; 
    153143140539600000; 153143140539600000; 153143140539600000; 2231204136715700000; 2231204136715700000; 2231204136715700000; 2231204136715700000; 
    2231204136715700000; 2231204136715700000; 2231204136715700000; 2231204136715700000; 2231204136715700000; 2231204136715700000; 2231204136715700000; 
    2231204136715700000; 2472377156250000000; 2472377156250000000; 2472377156250000000; 2472377156250000000; 2472377156250000000; 2472377156250000000; 
    2472377156250000000; 2472377156250000000; 2472377156250000000; 2472377156250000000; 2472377156250000000; 2472377156250000000; 2472377156250000000; 
    2472377156250000000; 2472377156250000000; 2472377156250000000; 2472377156250000000; 2472377156250000000; 2472377156250000000; 2472377156250000000; 
    2472377156250000000; 2472377156250000000; 2472377156250000000; 2472377156250000000; 6596122891817900000; 6596122891817900000; 6596122891817900000; 
    6596122891817900000; 6596122891817900000; 6596122891817900000; 6596122891817900000; 6596122891817900000; 6596122891817900000; 6596122891817900000; 
    6596122891817900000; 6596122891817900000; 6596122891817900000; 6596122891817900000; 6596122891817900000; 6596122891817900000; 6596122891817900000; 
    6596122891817900000; 6596122891817900000; 6596122891817900000; 6596122891817900000; 6596122891817900000; 6596122891817900000; 6596122891817900000; 
    600434906769700000; 600434906769700000; 600434906769700000; 600434906769700000; 600434906769700000; 600434906769700000; 600434906769700000; 
    600434906769700000; 600434906769700000; 600434906769700000; 600434906769700000; 600434906769700000; 600434906769700000; 600434906769700000; 
    600434906769700000; 600434906769700000; 600434906769700000; 600434906769700000; 600434906769700000; 600434906769700000; 600434906769700000; 
    600434906769700000; 600434906769700000; 600434906769700000; 2242330996876500000; 2242330996876500000; 2242330996876500000; 2242330996876500000; 
    2242330996876500000; 2242330996876500000; 2242330996876500000; 2242330996876500000; 2242330996876500000; 2242330996876500000; 2242330996876500000; 
    2242330996876500000; 2242330996876500000; 2242330996876500000; 2242330996876500000; 2242330996876500000; 2242330996876500000; 2242330996876500000; 
    2242330996876500000; 2242330996876500000; 2242330996876500000; 2242330996876500000; 2242330996876500000; 2242330996876500000; 824442236247200000; 
    824442236247200000; 824442236247200000; 824442236247200000; 824442236247200000; 824442236247200000; 824442236247200000; 824442236247200000; 
    824442236247200000; 824442236247200000; 824442236247200000; 824442236247200000; 824442236247200000; 824442236247200000; 824442236247200000; 
    824442236247200000; 824442236247200000; 824442236247200000; 824442236247200000; 824442236247200000; 824442236247200000; 824442236247200000; 
    824442236247200000; 824442236247200000; 4388015835267900000; 4388015835267900000; 4388015835267900000; 4388015835267900000; 4388015835267900000; 
    4388015835267900000; 4388015835267900000; 4388015835267900000; 4388015835267900000; 4388015835267900000; 4388015835267900000; 4388015835267900000; 
    4388015835267900000; 4388015835267900000; 4388015835267900000; 4388015835267900000; 4388015835267900000; 4388015835267900000; 4388015835267900000; 
    4388015835267900000; 4388015835267900000; 4388015835267900000; 4388015835267900000; 4388015835267900000; 3454278425741000000; 3454278425741000000; 
    3454278425741000000; 3454278425741000000; 3454278425741000000; 3454278425741000000; 3454278425741000000; 3454278425741000000; 3454278425741000000; 
    3454278425741000000; 3454278425741000000; 3454278425741000000; 3454278425741000000; 3454278425741000000; 3454278425741000000; 3454278425741000000; 
    3454278425741000000; 3454278425741000000; 3454278425741000000; 3454278425741000000; 3454278425741000000; 3454278425741000000; 3454278425741000000; 
    3454278425741000000; 3929289473335600000; 3929289473335600000; 3929289473335600000; 3929289473335600000; 3929289473335600000; 3929289473335600000; 
    3929289473335600000; 3929289473335600000; 3929289473335600000; 3929289473335600000; 3929289473335600000; 3929289473335600000; 3929289473335600000; 
    3929289473335600000; 3929289473335600000; 3929289473335600000; 3929289473335600000; 3929289473335600000; 3929289473335600000; 3929289473335600000; 
    3929289473335600000; 3929289473335600000; 3929289473335600000; 3929289473335600000], 16%nat).
(** jaskowiec_sukumar_tet_data.py:6255-7723 *)
Definition js_tet_data_16 : list (list Z) * list Z * nat :=
  ([[1092594110391400000000000; 6722217668825801000000000; 1092594110391400000000000; 1092594110391400000000000; 170690533535099000000000; 
    9487928399394703000000000; 170690533535099000000000; 170690533535099000000000; 603027644020867000000000; 8190917067937399000000000; 
    603027644020867000000000; 603027644020867000000000; 1802936778752487000000000; 4591189663742538000000000; 1802936778752487000000000; 
    1802936778752487000000000; 2924357505680077000000000; 2075642494319923000000000; 2924357505680077000000000; 2075642494319923000000000; 
    2924357505680077000000000; 2075642494319923000000000; 4364943812496382000000000; 635056187503618000000000; 4364943812496382000000000; 
    635056187503618000000000; 4364943812496382000000000; 635056187503618000000000; 3574259051430166000000000; 1425740948569834000000000; 
    3574259051430166000000000; 1425740948569834000000000; 3574259051430166000000000; 1425740948569834000000000; 4847450103886418000000000; 
    152549896113582000000000; 4847450103886418000000000; 152549896113582000000000; 4847450103886418000000000; 152549896113582000000000; 
    66056285459364000000000; 2817717468661823000000000; 2817717468661823000000000; 4298508777216989000000000; 4298508777216989000000000; 
    4298508777216989000000000; 2817717468661823000000000; 66056285459364000000000; 2817717468661823000000000; 2817717468661823000000000; 
    66056285459364000000000; 2817717468661823000000000; 3473076755269789000000000; 2532792896616394000000000; 2532792896616394000000000; 
    1461337451497424000000000; 1461337451497424000000000; 1461337451497424000000000; 2532792896616394000000000; 3473076755269789000000000; 
    2532792896616394000000000; 2532792896616394000000000; 3473076755269789000000000; 2532792896616394000000000; 5129631932135305000000000; 
    1194446836887992000000000; 1194446836887992000000000; 2481474394088712000000000; 2481474394088712000000000; 2481474394088712000000000; 
    1194446836887992000000000; 5129631932135305000000000; 1194446836887992000000000; 1194446836887992000000000; 5129631932135305000000000; 
    1194446836887992000000000; 4040135150131379000000000; 2796975892179978000000000; 2796975892179978000000000; 365913065508666000000000; 
    365913065508666000000000; 365913065508666000000000; 2796975892179978000000000; 4040135150131379000000000; 2796975892179978000000000; 
    2796975892179978000000000; 4040135150131379000000000; 2796975892179978000000000; 2771505768037979000000000; 591496500175592000000000; 
    591496500175592000000000; 6045501231610838000000000; 6045501231610838000000000; 6045501231610838000000000; 591496500175592000000000; 
    2771505768037979000000000; 591496500175592000000000; 591496500175592000000000; 2771505768037979000000000; 591496500175592000000000; 
    3372693231713962000000000; 115664568797204000000000; 115664568797204000000000; 6395977630691629000000000; 6395977630691629000000000; 
    6395977630691629000000000; 115664568797204000000000; 3372693231713962000000000; 115664568797204000000000; 115664568797204000000000; 
    3372693231713962000000000; 115664568797204000000000; 889921351196739000000000; 2546200946118619000000000; 2546200946118619000000000; 
    4017676756566024000000000; 4017676756566024000000000; 4017676756566024000000000; 2546200946118619000000000; 889921351196739000000000; 
    2546200946118619000000000; 2546200946118619000000000; 889921351196739000000000; 2546200946118619000000000; 833537700079728000000000; 
    66729146778652000000000; 66729146778652000000000; 9033004006362969000000000; 9033004006362969000000000; 9033004006362969000000000; 
    66729146778652000000000; 833537700079728000000000; 66729146778652000000000; 66729146778652000000000; 833537700079728000000000; 
    66729146778652000000000; 1488738514609226000000000; 595499636617363000000000; 595499636617363000000000; 7320262212156049000000000; 
    7320262212156049000000000; 7320262212156049000000000; 595499636617363000000000; 1488738514609226000000000; 595499636617363000000000; 
    595499636617363000000000; 1488738514609226000000000; 595499636617363000000000; 130804747131276000000000; 130804747131276000000000; 
    956382942582895000000000; 7229319246103527000000000; 956382942582895000000000; 7229319246103527000000000; 1683493064182302000000000; 
    1683493064182302000000000; 1683493064182302000000000; 1683493064182302000000000; 1683493064182302000000000; 1683493064182302000000000; 
    956382942582895000000000; 7229319246103527000000000; 130804747131276000000000; 130804747131276000000000; 7229319246103527000000000; 
    956382942582895000000000; 956382942582895000000000; 7229319246103527000000000; 130804747131276000000000; 130804747131276000000000; 
    7229319246103527000000000; 956382942582895000000000; 6376551993416253000000000; 6376551993416253000000000; 603575153489387000000000; 
    2913648223135218000000000; 603575153489387000000000; 2913648223135218000000000; 106224629959142000000000; 106224629959142000000000; 
    106224629959142000000000; 106224629959142000000000; 106224629959142000000000; 106224629959142000000000; 603575153489387000000000; 
    2913648223135218000000000; 6376551993416253000000000; 6376551993416253000000000; 2913648223135218000000000; 603575153489387000000000; 
    603575153489387000000000; 2913648223135218000000000; 6376551993416253000000000; 6376551993416253000000000; 2913648223135218000000000; 
    603575153489387000000000; 1575062824084584000000000; 1575062824084584000000000; 5720629662753272000000000; 2575352925182314000000000; 
    5720629662753272000000000; 2575352925182314000000000; 128954587979830000000000; 128954587979830000000000; 128954587979830000000000; 
    128954587979830000000000; 128954587979830000000000; 128954587979830000000000; 5720629662753272000000000; 2575352925182314000000000; 
    1575062824084584000000000; 1575062824084584000000000; 2575352925182314000000000; 5720629662753272000000000; 5720629662753272000000000; 
    2575352925182314000000000; 1575062824084584000000000; 1575062824084584000000000; 2575352925182314000000000; 5720629662753272000000000; 
    1530963612221368000000000; 1530963612221368000000000; 5982871618499548000000000; 1837258256088453000000000; 5982871618499548000000000; 
    1837258256088453000000000; 648906513190632000000000; 648906513190632000000000; 648906513190632000000000; 648906513190632000000000; 
    648906513190632000000000; 648906513190632000000000; 5982871618499548000000000; 1837258256088453000000000; 1530963612221368000000000; 
    1530963612221368000000000; 1837258256088453000000000; 5982871618499548000000000; 5982871618499548000000000; 1837258256088453000000000; 
    1530963612221368000000000; 1530963612221368000000000; 1837258256088453000000000; 5982871618499548000000000; 116550029704661000000000; 
    116550029704661000000000; 872107792177225000000000; 8540565555742755000000000; 872107792177225000000000; 8540565555742755000000000; 
    470776622375358000000000; 470776622375358000000000; 470776622375358000000000; 470776622375358000000000; 470776622375358000000000; 
    470776622375358000000000; 872107792177225000000000; 8540565555742755000000000; 116550029704661000000000; 116550029704661000000000; 
    8540565555742755000000000; 872107792177225000000000; 872107792177225000000000; 8540565555742755000000000; 116550029704661000000000; 
    116550029704661000000000; 8540565555742755000000000; 872107792177225000000000; 4085328910163256000000000; 4085328910163256000000000; 
    4137799680661914000000000; 1672070477173488000000000; 4137799680661914000000000; 1672070477173488000000000; 104800932001341000000000; 
    104800932001341000000000; 104800932001341000000000; 104800932001341000000000; 104800932001341000000000; 104800932001341000000000; 
    4137799680661914000000000; 1672070477173488000000000; 4085328910163256000000000; 4085328910163256000000000; 1672070477173488000000000; 
    4137799680661914000000000; 4137799680661914000000000; 1672070477173488000000000; 4085328910163256000000000; 4085328910163256000000000; 
    1672070477173488000000000; 4137799680661914000000000; 116793229924696000000000; 116793229924696000000000; 3904989583719425000000000; 
    5242157619428415000000000; 3904989583719425000000000; 5242157619428415000000000; 736059566927464000000000; 736059566927464000000000; 
    736059566927464000000000; 736059566927464000000000; 736059566927464000000000; 736059566927464000000000; 3904989583719425000000000; 
    5242157619428415000000000; 116793229924696000000000; 116793229924696000000000; 5242157619428415000000000; 3904989583719425000000000; 
    3904989583719425000000000; 5242157619428415000000000; 116793229924696000000000; 116793229924696000000000; 5242157619428415000000000; 
    3904989583719425000000000; 81636803712330000000000; 81636803712330000000000; 7735017403534717000000000; 1928802696509954000000000; 
    7735017403534717000000000; 1928802696509954000000000; 254543096242999000000000; 254543096242999000000000; 254543096242999000000000; 
    254543096242999000000000; 254543096242999000000000; 254543096242999000000000; 7735017403534717000000000; 1928802696509954000000000; 
    81636803712330000000000; 81636803712330000000000; 1928802696509954000000000; 7735017403534717000000000; 7735017403534717000000000; 
    1928802696509954000000000; 81636803712330000000000; 81636803712330000000000; 1928802696509954000000000; 7735017403534717000000000; 
    1529886055031752000000000; 1529886055031752000000000; 560344049440816000000000; 4682783426267390000000000; 560344049440816000000000; 
    4682783426267390000000000; 3226986469260043000000000; 3226986469260043000000000; 3226986469260043000000000; 3226986469260043000000000; 
    3226986469260043000000000; 3226986469260043000000000; 560344049440816000000000; 4682783426267390000000000; 1529886055031752000000000; 
    1529886055031752000000000; 4682783426267390000000000; 560344049440816000000000; 560344049440816000000000; 4682783426267390000000000; 
    1529886055031752000000000; 1529886055031752000000000; 4682783426267390000000000; 560344049440816000000000];
   [1092594110391400000000000; 1092594110391400000000000; 6722217668825801000000000; 1092594110391400000000000; 170690533535099000000000; 
    170690533535099000000000; 9487928399394703000000000; 170690533535099000000000; 603027644020867000000000; 603027644020867000000000; 
    8190917067937399000000000; 603027644020867000000000; 1802936778752487000000000; 1802936778752487000000000; 4591189663742538000000000; 
    1802936778752487000000000; 2075642494319923000000000; 2924357505680077000000000; 2924357505680077000000000; 2075642494319923000000000; 
    2075642494319923000000000; 2924357505680077000000000; 635056187503618000000000; 4364943812496382000000000; 4364943812496382000000000; 
    635056187503618000000000; 635056187503618000000000; 4364943812496382000000000; 1425740948569834000000000; 3574259051430166000000000; 
    3574259051430166000000000; 1425740948569834000000000; 1425740948569834000000000; 3574259051430166000000000; 152549896113582000000000; 
    4847450103886418000000000; 4847450103886418000000000; 152549896113582000000000; 152549896113582000000000; 4847450103886418000000000; 
    2817717468661823000000000; 66056285459364000000000; 2817717468661823000000000; 2817717468661823000000000; 66056285459364000000000; 
    2817717468661823000000000; 4298508777216989000000000; 4298508777216989000000000; 4298508777216989000000000; 2817717468661823000000000; 
    2817717468661823000000000; 66056285459364000000000; 2532792896616394000000000; 3473076755269789000000000; 2532792896616394000000000; 
    2532792896616394000000000; 3473076755269789000000000; 2532792896616394000000000; 1461337451497424000000000; 1461337451497424000000000; 
    1461337451497424000000000; 2532792896616394000000000; 2532792896616394000000000; 3473076755269789000000000; 1194446836887992000000000; 
    5129631932135305000000000; 1194446836887992000000000; 1194446836887992000000000; 5129631932135305000000000; 1194446836887992000000000; 
    2481474394088712000000000; 2481474394088712000000000; 2481474394088712000000000; 1194446836887992000000000; 1194446836887992000000000; 
    5129631932135305000000000; 2796975892179978000000000; 4040135150131379000000000; 2796975892179978000000000; 2796975892179978000000000; 
    4040135150131379000000000; 2796975892179978000000000; 365913065508666000000000; 365913065508666000000000; 365913065508666000000000; 
    2796975892179978000000000; 2796975892179978000000000; 4040135150131379000000000; 591496500175592000000000; 2771505768037979000000000; 
    591496500175592000000000; 591496500175592000000000; 2771505768037979000000000; 591496500175592000000000; 6045501231610838000000000; 
    6045501231610838000000000; 6045501231610838000000000; 591496500175592000000000; 591496500175592000000000; 2771505768037979000000000; 
    115664568797204000000000; 3372693231713962000000000; 115664568797204000000000; 115664568797204000000000; 3372693231713962000000000; 
    115664568797204000000000; 6395977630691629000000000; 6395977630691629000000000; 6395977630691629000000000; 115664568797204000000000; 
    115664568797204000000000; 3372693231713962000000000; 2546200946118619000000000; 889921351196739000000000; 2546200946118619000000000; 
    2546200946118619000000000; 889921351196739000000000; 2546200946118619000000000; 4017676756566024000000000; 4017676756566024000000000; 
    4017676756566024000000000; 2546200946118619000000000; 2546200946118619000000000; 889921351196739000000000; 66729146778652000000000; 
    833537700079728000000000; 66729146778652000000000; 66729146778652000000000; 833537700079728000000000; 66729146778652000000000; 
    9033004006362969000000000; 9033004006362969000000000; 9033004006362969000000000; 66729146778652000000000; 66729146778652000000000; 
    833537700079728000000000; 595499636617363000000000; 1488738514609226000000000; 595499636617363000000000; 595499636617363000000000; 
    1488738514609226000000000; 595499636617363000000000; 7320262212156049000000000; 7320262212156049000000000; 7320262212156049000000000; 
    595499636617363000000000; 595499636617363000000000; 1488738514609226000000000; 956382942582895000000000; 7229319246103527000000000; 
    130804747131276000000000; 130804747131276000000000; 7229319246103527000000000; 956382942582895000000000; 956382942582895000000000; 
    7229319246103527000000000; 130804747131276000000000; 130804747131276000000000; 7229319246103527000000000; 956382942582895000000000; 
    1683493064182302000000000; 1683493064182302000000000; 1683493064182302000000000; 1683493064182302000000000; 1683493064182302000000000; 
    1683493064182302000000000; 7229319246103527000000000; 956382942582895000000000; 7229319246103527000000000; 956382942582895000000000; 
    130804747131276000000000; 130804747131276000000000; 603575153489387000000000; 2913648223135218000000000; 6376551993416253000000000; 
    6376551993416253000000000; 2913648223135218000000000; 603575153489387000000000; 603575153489387000000000; 2913648223135218000000000; 
    6376551993416253000000000; 6376551993416253000000000; 2913648223135218000000000; 603575153489387000000000; 106224629959142000000000; 
    106224629959142000000000; 106224629959142000000000; 106224629959142000000000; 106224629959142000000000; 106224629959142000000000; 
    2913648223135218000000000; 603575153489387000000000; 2913648223135218000000000; 603575153489387000000000; 6376551993416253000000000; 
    6376551993416253000000000; 5720629662753272000000000; 2575352925182314000000000; 1575062824084584000000000; 1575062824084584000000000; 
    2575352925182314000000000; 5720629662753272000000000; 5720629662753272000000000; 2575352925182314000000000; 1575062824084584000000000; 
    1575062824084584000000000; 2575352925182314000000000; 5720629662753272000000000; 128954587979830000000000; 128954587979830000000000; 
    128954587979830000000000; 128954587979830000000000; 128954587979830000000000; 128954587979830000000000; 2575352925182314000000000; 
    5720629662753272000000000; 2575352925182314000000000; 5720629662753272000000000; 1575062824084584000000000; 1575062824084584000000000; 
    5982871618499548000000000; 1837258256088453000000000; 1530963612221368000000000; 1530963612221368000000000; 1837258256088453000000000; 
    5982871618499548000000000; 5982871618499548000000000; 1837258256088453000000000; 1530963612221368000000000; 1530963612221368000000000; 
    1837258256088453000000000; 5982871618499548000000000; 648906513190632000000000; 648906513190632000000000; 648906513190632000000000; 
    648906513190632000000000; 648906513190632000000000; 648906513190632000000000; 1837258256088453000000000; 5982871618499548000000000; 
    1837258256088453000000000; 5982871618499548000000000; 1530963612221368000000000; 1530963612221368000000000; 872107792177225000000000; 
    8540565555742755000000000; 116550029704661000000000; 116550029704661000000000; 8540565555742755000000000; 872107792177225000000000; 
    872107792177225000000000; 8540565555742755000000000; 116550029704661000000000; 116550029704661000000000; 8540565555742755000000000; 
    872107792177225000000000; 470776622375358000000000; 470776622375358000000000; 470776622375358000000000; 470776622375358000000000; 
    470776622375358000000000; 470776622375358000000000; 8540565555742755000000000; 872107792177225000000000; 8540565555742755000000000; 
    872107792177225000000000; 116550029704661000000000; 116550029704661000000000; 4137799680661914000000000; 1672070477173488000000000; 
    4085328910163256000000000; 4085328910163256000000000; 1672070477173488000000000; 4137799680661914000000000; 4137799680661914000000000; 
    1672070477173488000000000; 4085328910163256000000000; 4085328910163256000000000; 1672070477173488000000000; 4137799680661914000000000; 
    104800932001341000000000; 104800932001341000000000; 104800932001341000000000; 104800932001341000000000; 104800932001341000000000; 
    104800932001341000000000; 1672070477173488000000000; 4137799680661914000000000; 1672070477173488000000000; 4137799680661914000000000; 
    4085328910163256000000000; 4085328910163256000000000; 3904989583719425000000000; 5242157619428415000000000; 116793229924696000000000; 
    116793229924696000000000; 5242157619428415000000000; 3904989583719425000000000; 3904989583719425000000000; 5242157619428415000000000; 
    116793229924696000000000; 116793229924696000000000; 5242157619428415000000000; 3904989583719425000000000; 736059566927464000000000; 
    736059566927464000000000; 736059566927464000000000; 736059566927464000000000; 736059566927464000000000; 736059566927464000000000; 
    5242157619428415000000000; 3904989583719425000000000; 5242157619428415000000000; 3904989583719425000000000; 116793229924696000000000; 
    116793229924696000000000; 7735017403534717000000000; 1928802696509954000000000; 81636803712330000000000; 81636803712330000000000; 
    1928802696509954000000000; 7735017403534717000000000; 7735017403534717000000000; 1928802696509954000000000; 81636803712330000000000; 
    81636803712330000000000; 1928802696509954000000000; 7735017403534717000000000; 254543096242999000000000; 254543096242999000000000; 
    254543096242999000000000; 254543096242999000000000; 254543096242999000000000; 254543096242999000000000; 1928802696509954000000000; 
    7735017403534717000000000; 1928802696509954000000000; 7735017403534717000000000; 81636803712330000000000; 81636803712330000000000; 
    560344049440816000000000; 4682783426267390000000000; 1529886055031752000000000; 1529886055031752000000000; 4682783426267390000000000; 
    560344049440816000000000; 560344049440816000000000; 4682783426267390000000000; 1529886055031752000000000; 1529886055031752000000000; 
    4682783426267390000000000; 560344049440816000000000; 3226986469260043000000000; 3226986469260043000000000; 3226986469260043000000000; 
    3226986469260043000000000; 3226986469260043000000000; 3226986469260043000000000; 4682783426267390000000000; 560344049440816000000000; 
    4682783426267390000000000; 560344049440816000000000; 1529886055031752000000000; 1529886055031752000000000];
   [1092594110391400000000000; 1092594110391400000000000; 1092594110391400000000000; 6722217668825801000000000; 170690533535099000000000; 
    170690533535099000000000; 170690533535099000000000; 9487928399394703000000000; 603027644020867000000000; 603027644020867000000000; 
    603027644020867000000000; 8190917067937399000000000; 1802936778752487000000000; 1802936778752487000000000; 1802936778752487000000000; 
    4591189663742538000000000; 2075642494319923000000000; 2075642494319923000000000; 2075642494319923000000000; 2924357505680077000000000; 
    2924357505680077000000000; 2924357505680077000000000; 635056187503618000000000; 635056187503618000000000; 635056187503618000000000; 
    4364943812496382000000000; 4364943812496382000000000; 4364943812496382000000000; 1425740948569834000000000; 1425740948569834000000000; 
    1425740948569834000000000; 3574259051430166000000000; 3574259051430166000000000; 3574259051430166000000000; 152549896113582000000000; 
    152549896113582000000000; 152549896113582000000000; 4847450103886418000000000; 4847450103886418000000000; 4847450103886418000000000; 
    2817717468661823000000000; 2817717468661823000000000; 66056285459364000000000; 2817717468661823000000000; 2817717468661823000000000; 
    66056285459364000000000; 2817717468661823000000000; 2817717468661823000000000; 66056285459364000000000; 4298508777216989000000000; 
    4298508777216989000000000; 4298508777216989000000000; 2532792896616394000000000; 2532792896616394000000000; 3473076755269789000000000; 
    2532792896616394000000000; 2532792896616394000000000; 3473076755269789000000000; 2532792896616394000000000; 2532792896616394000000000; 
    3473076755269789000000000; 1461337451497424000000000; 1461337451497424000000000; 1461337451497424000000000; 1194446836887992000000000; 
    1194446836887992000000000; 5129631932135305000000000; 1194446836887992000000000; 1194446836887992000000000; 5129631932135305000000000; 
    1194446836887992000000000; 1194446836887992000000000; 5129631932135305000000000; 2481474394088712000000000; 2481474394088712000000000; 
    2481474394088712000000000; 2796975892179978000000000; 2796975892179978000000000; 4040135150131379000000000; 2796975892179978000000000; 
    2796975892179978000000000; 4040135150131379000000000; 2796975892179978000000000; 2796975892179978000000000; 4040135150131379000000000; 
    365913065508666000000000; 365913065508666000000000; 365913065508666000000000; 591496500175592000000000; 591496500175592000000000; 
    2771505768037979000000000; 591496500175592000000000; 591496500175592000000000; 2771505768037979000000000; 591496500175592000000000; 
    591496500175592000000000; 2771505768037979000000000; 6045501231610838000000000; 6045501231610838000000000; 6045501231610838000000000; 
    115664568797204000000000; 115664568797204000000000; 3372693231713962000000000; 115664568797204000000000; 115664568797204000000000; 
    3372693231713962000000000; 115664568797204000000000; 115664568797204000000000; 3372693231713962000000000; 6395977630691629000000000; 
    6395977630691629000000000; 6395977630691629000000000; 2546200946118619000000000; 2546200946118619000000000; 889921351196739000000000; 
    2546200946118619000000000; 2546200946118619000000000; 889921351196739000000000; 2546200946118619000000000; 2546200946118619000000000; 
    889921351196739000000000; 4017676756566024000000000; 4017676756566024000000000; 4017676756566024000000000; 66729146778652000000000; 
    66729146778652000000000; 833537700079728000000000; 66729146778652000000000; 66729146778652000000000; 833537700079728000000000; 
    66729146778652000000000; 66729146778652000000000; 833537700079728000000000; 9033004006362969000000000; 9033004006362969000000000; 
    9033004006362969000000000; 595499636617363000000000; 595499636617363000000000; 1488738514609226000000000; 595499636617363000000000; 
    595499636617363000000000; 1488738514609226000000000; 595499636617363000000000; 595499636617363000000000; 1488738514609226000000000; 
    7320262212156049000000000; 7320262212156049000000000; 7320262212156049000000000; 7229319246103527000000000; 956382942582895000000000; 
    7229319246103527000000000; 956382942582895000000000; 130804747131276000000000; 130804747131276000000000; 7229319246103527000000000; 
    956382942582895000000000; 7229319246103527000000000; 956382942582895000000000; 130804747131276000000000; 130804747131276000000000; 
    7229319246103527000000000; 956382942582895000000000; 7229319246103527000000000; 956382942582895000000000; 130804747131276000000000; 
    130804747131276000000000; 1683493064182302000000000; 1683493064182302000000000; 1683493064182302000000000; 1683493064182302000000000; 
    1683493064182302000000000; 1683493064182302000000000; 2913648223135218000000000; 603575153489387000000000; 2913648223135218000000000; 
    603575153489387000000000; 6376551993416253000000000; 6376551993416253000000000; 2913648223135218000000000; 603575153489387000000000; 
    2913648223135218000000000; 603575153489387000000000; 6376551993416253000000000; 6376551993416253000000000; 2913648223135218000000000; 
    603575153489387000000000; 2913648223135218000000000; 603575153489387000000000; 6376551993416253000000000; 6376551993416253000000000; 
    106224629959142000000000; 106224629959142000000000; 106224629959142000000000; 106224629959142000000000; 106224629959142000000000; 
    106224629959142000000000; 2575352925182314000000000; 5720629662753272000000000; 2575352925182314000000000; 5720629662753272000000000; 
    1575062824084584000000000; 1575062824084584000000000; 2575352925182314000000000; 5720629662753272000000000; 2575352925182314000000000; 
    5720629662753272000000000; 1575062824084584000000000; 1575062824084584000000000; 2575352925182314000000000; 5720629662753272000000000; 
    2575352925182314000000000; 5720629662753272000000000; 1575062824084584000000000; 1575062824084584000000000; 128954587979830000000000; 
    128954587979830000000000; 128954587979830000000000; 128954587979830000000000; 128954587979830000000000; 128954587979830000000000; 
    1837258256088453000000000; 5982871618499548000000000; 1837258256088453000000000; 5982871618499548000000000; 1530963612221368000000000; 
    1530963612221368000000000; 1837258256088453000000000; 5982871618499548000000000; 1837258256088453000000000; 5982871618499548000000000; 
    1530963612221368000000000; 1530963612221368000000000; 1837258256088453000000000; 5982871618499548000000000; 1837258256088453000000000; 
    5982871618499548000000000; 1530963612221368000000000; 1530963612221368000000000; 648906513190632000000000; 648906513190632000000000; 
    648906513190632000000000; 648906513190632000000000; 648906513190632000000000; 648906513190632000000000; 8540565555742755000000000; 
    872107792177225000000000; 8540565555742755000000000; 872107792177225000000000; 116550029704661000000000; 116550029704661000000000; 
    8540565555742755000000000; 872107792177225000000000; 8540565555742755000000000; 872107792177225000000000; 116550029704661000000000; 
    116550029704661000000000; 8540565555742755000000000; 872107792177225000000000; 8540565555742755000000000; 872107792177225000000000; 
    116550029704661000000000; 116550029704661000000000; 470776622375358000000000; 470776622375358000000000; 470776622375358000000000; 
    470776622375358000000000; 470776622375358000000000; 470776622375358000000000; 1672070477173488000000000; 4137799680661914000000000; 
    1672070477173488000000000; 4137799680661914000000000; 4085328910163256000000000; 4085328910163256000000000; 1672070477173488000000000; 
    4137799680661914000000000; 1672070477173488000000000; 4137799680661914000000000; 4085328910163256000000000; 4085328910163256000000000; 
    1672070477173488000000000; 4137799680661914000000000; 1672070477173488000000000; 4137799680661914000000000; 4085328910163256000000000; 
    4085328910163256000000000; 104800932001341000000000; 104800932001341000000000; 104800932001341000000000; 104800932001341000000000; 
    104800932001341000000000; 104800932001341000000000; 5242157619428415000000000; 3904989583719425000000000; 5242157619428415000000000; 
    3904989583719425000000000; 116793229924696000000000; 116793229924696000000000; 5242157619428415000000000; 3904989583719425000000000; 
    5242157619428415000000000; 3904989583719425000000000; 116793229924696000000000; 116793229924696000000000; 5242157619428415000000000; 
    3904989583719425000000000; 5242157619428415000000000; 3904989583719425000000000; 116793229924696000000000; 116793229924696000000000; 
    736059566927464000000000; 736059566927464000000000; 736059566927464000000000; 736059566927464000000000; 736059566927464000000000; 
    736059566927464000000000; 1928802696509954000000000; 7735017403534717000000000; 1928802696509954000000000; 7735017403534717000000000; 
    81636803712330000000000; 81636803712330000000000; 1928802696509954000000000; 7735017403534717000000000; 1928802696509954000000000; 
    7735017403534717000000000; 81636803712330000000000; 81636803712330000000000; 1928802696509954000000000; 7735017403534717000000000; 
    1928802696509954000000000; 7735017403534717000000000; 81636803712330000000000; 81636803712330000000000; 254543096242999000000000; 
    254543096242999000000000; 254543096242999000000000; 254543096242999000000000; 254543096242999000000000; 254543096242999000000000; 
    4682783426267390000000000; 560344049440816000000000; 4682783426267390000000000; 560344049440816000000000; 1529886055031752000000000; 
    1529886055031752000000000; 4682783426267390000000000; 560344049440816000000000; 4682783426267390000000000; 560344049440816000000000; 
    1529886055031752000000000; 1529886055031752000000000; 4682783426267390000000000; 560344049440816000000000; 4682783426267390000000000; 
    560344049440816000000000; 1529886055031752000000000; 1529886055031752000000000; 3226986469260043000000000; 3226986469260043000000000; 
    3226986469260043000000000; 3226986469260043000000000; 3226986469260043000000000; 3226986469260043000000000]],
   [2943411054682700000; 2943411054682700000; 2943411054682700000; 2943411054682700000; 482125456213100000; 482125456213100000; 482125456213100000; 
    482125456213100000; 1633411882336000000; 1633411882336000000; 1633411882336000000; 1633411882336000000; 8937260544734000000; 8937260544734000000; 
    8937260544734000000; 8937260544734000000; 3539281041131400000; 3539281041131400000; 3539281041131400000; 3539281041131400000; 3539281041131400000; 
    3539281041131400000; 5127876775122900000; 5127876775122900000; 5127876775122900000; 5127876775122900000; 5127876775122900000; 5127876775122900000; 
    8505961705776700000; 8505961705776700000; 8505961705776700000; 8505961705776700000; 8505961705776700000; 8505961705776700000; 1362001059565100000; 
    1362001059565100000; 1362001059565100000; 1362001059565100000; 1362001059565100000; 1362001059565100000; 1952703594699100000; 1952703594699100000; 
    1952703594699100000; 1952703594699100000; 1952703594699100000; 1952703594699100000; 1952703594699100000; 1952703594699100000; 1952703594699100000; 
    1952703594699100000; 1952703594699100000; 1952703594699100000; 3552482332702200000; 3552482332702200000; 3552482332702200000; 3552482332702200000; 
    3552482332702200000; 3552482332702200000; 3552482332702200000; 3552482332702200000; 3552482332702200000; 3552482332702200000; 3552482332702200000; 
    3552482332702200000; 4735037872087900000; 4735037872087900000; 4735037872087900000; 4735037872087900000; 4735037872087900000; 4735037872087900000; 
    4735037872087900000; 4735037872087900000; 4735037872087900000; 4735037872087900000; 4735037872087900000; 4735037872087900000; 4076204052523800000; 
    4076204052523800000; 4076204052523800000; 4076204052523800000; 4076204052523800000; 4076204052523800000; 4076204052523800000; 4076204052523800000; 
    4076204052523800000; 4076204052523800000; 4076204052523800000; 4076204052523800000; 4397889616038600000; 4397889616038600000; 4397889616038600000; 
    4397889616038600000; 4397889616038600000; 4397889616038600000; 4397889616038600000; 4397889616038600000; 4397889616038600000; 4397889616038600000; 
    4397889616038600000; 4397889616038600000; 815991541803900000; 815991541803900000; 815991541803900000; 815991541803900000; 815991541803900000; 
    815991541803900000; 815991541803900000; 815991541803900000; 815991541803900000; 815991541803900000; 815991541803900000; 815991541803900000; 
    6436927403356400000; 6436927403356400000; 6436927403356400000; 6436927403356400000; 6436927403356400000; 6436927403356400000; 6436927403356400000; 
    6436927403356400000; 6436927403356400000; 6436927403356400000; 6436927403356400000; 6436927403356400000; 229093702997800000; 229093702997800000; 
    229093702997800000; 229093702997800000; 229093702997800000; 229093702997800000; 229093702997800000; 229093702997800000; 229093702997800000; 
    229093702997800000; 229093702997800000; 229093702997800000; 3188746694205000000; 3188746694205000000; 3188746694205000000; 3188746694205000000; 
    3188746694205000000; 3188746694205000000; 3188746694205000000; 3188746694205000000; 3188746694205000000; 3188746694205000000; 3188746694205000000; 
    3188746694205000000; 1991266259969900000; 1991266259969900000; 1991266259969900000; 1991266259969900000; 1991266259969900000; 1991266259969900000; 
    1991266259969900000; 1991266259969900000; 1991266259969900000; 1991266259969900000; 1991266259969900000; 1991266259969900000; 1991266259969900000; 
    1991266259969900000; 1991266259969900000; 1991266259969900000; 1991266259969900000; 1991266259969900000; 1991266259969900000; 1991266259969900000; 
    1991266259969900000; 1991266259969900000; 1991266259969900000; 1991266259969900000; 1209946636868800000; 1209946636868800000; 1209946636868800000; 
    1209946636868800000; 1209946636868800000; 1209946636868800000; 1209946636868800000; 1209946636868800000; 1209946636868800000; 1209946636868800000; 
    1209946636868800000; 1209946636868800000; 1209946636868800000; 1209946636868800000; 1209946636868800000; 1209946636868800000; 1209946636868800000; 
    1209946636868800000; 1209946636868800000; 1209946636868800000; 1209946636868800000; 1209946636868800000; 1209946636868800000; 1209946636868800000; 
    2943417982183900000; 2943417982183900000; 2943417982183900000; 2943417982183900000; 2943417982183900000; 2943417982183900000; 2943417982183900000; 
    2943417982183900000; 2943417982183900000; 2943417982183900000; 2943417982183900000; 2943417982183900000; 2943417982183900000; 2943417982183900000; 
    2943417982183900000; 2943417982183900000; 2943417982183900000; 2943417982183900000; 2943417982183900000; 2943417982183900000; 2943417982183900000; 
    2943417982183900000; 2943417982183900000; 2943417982183900000; 3454094554810600000; 3454094554810600000; 3454094554810600000; 3454094554810600000; 
    3454094554810600000; 3454094554810600000; 3454094554810600000; 3454094554810600000; 3454094554810600000; 3454094554810600000; 3454094554810600000; 
    3454094554810600000; 3454094554810600000; 3454094554810600000; 3454094554810600000; 3454094554810600000; 3454094554810600000; 3454094554810600000; 
    3454094554810600000; 3454094554810600000; 3454094554810600000; 3454094554810600000; 3454094554810600000; 3454094554810600000; 824113541477800000; 
    824113541477800000; 824113541477800000; 824113541477800000; 824113541477800000; 824113541477800000; 824113541477800000; 824113541477800000; 
    824113541477800000; 824113541477800000; 824113541477800000; 824113541477800000; 824113541477800000; 824113541477800000; 824113541477800000; 
    824113541477800000; 824113541477800000; 824113541477800000; 824113541477800000; 824113541477800000; 824113541477800000; 824113541477800000; 
    824113541477800000; 824113541477800000; 1383542378170200000; 1383542378170200000; 1383542378170200000; 1383542378170200000; 1383542378170200000; 
    1383542378170200000; 1383542378170200000; 1383542378170200000; 1383542378170200000; 1383542378170200000; 1383542378170200000; 1383542378170200000; 
    1383542378170200000; 1383542378170200000; 1383542378170200000; 1383542378170200000; 1383542378170200000; 1383542378170200000; 1383542378170200000; 
    1383542378170200000; 1383542378170200000; 1383542378170200000; 1383542378170200000; 1383542378170200000; 1781445235926500000; 1781445235926500000; 
    1781445235926500000; 1781445235926500000; 1781445235926500000; 1781445235926500000; 1781445235926500000; 1781445235926500000; 1781445235926500000; 
    1781445235926500000; 1781445235926500000; 1781445235926500000; 1781445235926500000; 1781445235926500000; 1781445235926500000; 1781445235926500000; 
    1781445235926500000; 1781445235926500000; 1781445235926500000; 1781445235926500000; 1781445235926500000; 1781445235926500000; 1781445235926500000; 
    1781445235926500000; 696931635100100000; 696931635100100000; 696931635100100000; 696931635100100000; 696931635100100000; 696931635100100000; 
    696931635100100000; 696931635100100000; 696931635100100000; 696931635100100000; 696931635100100000; 696931635100100000; 696931635100100000; 
    696931635100100000; 696931635100100000; 696931635100100000; 696931635100100000; 696931635100100000; 696931635100100000; 696931635100100000; 
    696931635100100000; 696931635100100000; 696931635100100000; 696931635100100000; 5722888401891600000; 5722888401891600000; 5722888401891600000; 
    5722888401891600000; 5722888401891600000; 5722888401891600000; 5722888401891600000; 5722888401891600000; 5722888401891600000; 5722888401891600000; 
    5722888401891600000; 5722888401891600000; 5722888401891600000; 5722888401891600000; 5722888401891600000; 5722888401891600000; 5722888401891600000; 
    5722888401891600000; 5722888401891600000; 5722888401891600000; 5722888401891600000; 5722888401891600000; 5722888401891600000; 5722888401891600000], 17%nat).
(** jaskowiec_sukumar_tet_data.py:7724-9480 *)
Definition js_tet_data_17 : list (list Z) * list Z * nat :=
  ([[2063721818681210000000000; 3808834543956371000000000; 2063721818681210000000000; 2063721818681210000000000; 1625387945176406000000000; 
    5123836164470781000000000; 1625387945176406000000000; 1625387945176406000000000; 3116266728255643000000000; 651199815233071000000000; 
    3116266728255643000000000; 3116266728255643000000000; 3307279160890313000000000; 78162517329061000000000; 3307279160890313000000000; 
    3307279160890313000000000; 337440820129951000000000; 8987677539610148000000000; 337440820129951000000000; 337440820129951000000000; 
    656813827842595000000000; 8029558516472214000000000; 656813827842595000000000; 656813827842595000000000; 116907242025971000000000; 
    9649278273922087000000000; 116907242025971000000000; 116907242025971000000000; 1948270858785206000000000; 3051729141214794000000000; 
    1948270858785206000000000; 3051729141214794000000000; 1948270858785206000000000; 3051729141214794000000000; 2501828346584600000000000; 
    2498171653415399000000000; 2501828346584600000000000; 2498171653415399000000000; 2501828346584600000000000; 2498171653415399000000000; 
    4866334770839438000000000; 133665229160562000000000; 4866334770839438000000000; 133665229160562000000000; 4866334770839438000000000; 
    133665229160562000000000; 2496576564241145000000000; 2503423435758855000000000; 2496576564241145000000000; 2503423435758855000000000; 
    2496576564241145000000000; 2503423435758855000000000; 1675482277457161000000000; 3324517722542840000000000; 1675482277457161000000000; 
    3324517722542840000000000; 1675482277457161000000000; 3324517722542840000000000; 1671064025294534000000000; 3328935974705466000000000; 
    1671064025294534000000000; 3328935974705466000000000; 1671064025294534000000000; 3328935974705466000000000; 3946110017058707000000000; 
    1053889982941293000000000; 3946110017058707000000000; 1053889982941293000000000; 3946110017058707000000000; 1053889982941293000000000; 
    4568227805863351000000000; 431772194136649000000000; 4568227805863351000000000; 431772194136649000000000; 4568227805863351000000000; 
    431772194136649000000000; 1352754021303201000000000; 331030676150443000000000; 331030676150443000000000; 7985184626395914000000000; 
    7985184626395914000000000; 7985184626395914000000000; 331030676150443000000000; 1352754021303201000000000; 331030676150443000000000; 
    331030676150443000000000; 1352754021303201000000000; 331030676150443000000000; 11718790470473000000000; 1946185784467675000000000; 
    1946185784467675000000000; 6095909640594178000000000; 6095909640594178000000000; 6095909640594178000000000; 1946185784467675000000000; 
    11718790470473000000000; 1946185784467675000000000; 1946185784467675000000000; 11718790470473000000000; 1946185784467675000000000; 
    3278960098149503000000000; 132125212613112000000000; 132125212613112000000000; 6456789476624273000000000; 6456789476624273000000000; 
    6456789476624273000000000; 132125212613112000000000; 3278960098149503000000000; 132125212613112000000000; 132125212613112000000000; 
    3278960098149503000000000; 132125212613112000000000; 202839984315217000000000; 1229320721770598000000000; 1229320721770598000000000; 
    7338518572143586000000000; 7338518572143586000000000; 7338518572143586000000000; 1229320721770598000000000; 202839984315217000000000; 
    1229320721770598000000000; 1229320721770598000000000; 202839984315217000000000; 1229320721770598000000000; 3498961219623653000000000; 
    619950609516838000000000; 619950609516838000000000; 5261137561342671000000000; 5261137561342671000000000; 5261137561342671000000000; 
    619950609516838000000000; 3498961219623653000000000; 619950609516838000000000; 619950609516838000000000; 3498961219623653000000000; 
    619950609516838000000000; 1666830796952924000000000; 840718754699170000000000; 840718754699170000000000; 6651731693648737000000000; 
    6651731693648737000000000; 6651731693648737000000000; 840718754699170000000000; 1666830796952924000000000; 840718754699170000000000; 
    840718754699170000000000; 1666830796952924000000000; 840718754699170000000000; 1859179591228751000000000; 78670488744539000000000; 
    78670488744539000000000; 7983479431282171000000000; 7983479431282171000000000; 7983479431282171000000000; 78670488744539000000000; 
    1859179591228751000000000; 78670488744539000000000; 78670488744539000000000; 1859179591228751000000000; 78670488744539000000000; 
    2482707411503117000000000; 421758249887124000000000; 421758249887124000000000; 6673776088722636000000000; 6673776088722636000000000; 
    6673776088722636000000000; 421758249887124000000000; 2482707411503117000000000; 421758249887124000000000; 421758249887124000000000; 
    2482707411503117000000000; 421758249887124000000000; 669810222676876000000000; 86834918721388000000000; 86834918721388000000000; 
    9156519939880347000000000; 9156519939880347000000000; 9156519939880347000000000; 86834918721388000000000; 669810222676876000000000; 
    86834918721388000000000; 86834918721388000000000; 669810222676876000000000; 86834918721388000000000; 2918417077981162000000000; 
    1111185367576208000000000; 1111185367576208000000000; 4859212186866421000000000; 4859212186866421000000000; 4859212186866421000000000; 
    1111185367576208000000000; 2918417077981162000000000; 1111185367576208000000000; 1111185367576208000000000; 2918417077981162000000000; 
    1111185367576208000000000; 637707896451841000000000; 637707896451841000000000; 36854638456060000000000; 7163454647076797000000000; 
    36854638456060000000000; 7163454647076797000000000; 2161982818015302000000000; 2161982818015302000000000; 2161982818015302000000000; 
    2161982818015302000000000; 2161982818015302000000000; 2161982818015302000000000; 36854638456060000000000; 7163454647076797000000000; 
    637707896451841000000000; 637707896451841000000000; 7163454647076797000000000; 36854638456060000000000; 36854638456060000000000; 
    7163454647076797000000000; 637707896451841000000000; 637707896451841000000000; 7163454647076797000000000; 36854638456060000000000; 
    40240981032238000000000; 40240981032238000000000; 914756397949307000000000; 8558399144225498000000000; 914756397949307000000000; 
    8558399144225498000000000; 486603476792957000000000; 486603476792957000000000; 486603476792957000000000; 486603476792957000000000; 
    486603476792957000000000; 486603476792957000000000; 914756397949307000000000; 8558399144225498000000000; 40240981032238000000000; 
    40240981032238000000000; 8558399144225498000000000; 914756397949307000000000; 914756397949307000000000; 8558399144225498000000000; 
    40240981032238000000000; 40240981032238000000000; 8558399144225498000000000; 914756397949307000000000; 4168774597385260000000000; 
    4168774597385260000000000; 1326563740184036000000000; 4223229603801267000000000; 1326563740184036000000000; 4223229603801267000000000; 
    281432058629436000000000; 281432058629436000000000; 281432058629436000000000; 281432058629436000000000; 281432058629436000000000; 
    281432058629436000000000; 1326563740184036000000000; 4223229603801267000000000; 4168774597385260000000000; 4168774597385260000000000; 
    4223229603801267000000000; 1326563740184036000000000; 1326563740184036000000000; 4223229603801267000000000; 4168774597385260000000000; 
    4168774597385260000000000; 4223229603801267000000000; 1326563740184036000000000; 2464330224801677000000000; 2464330224801677000000000; 
    4439198669278809000000000; 2804526765357552000000000; 4439198669278809000000000; 2804526765357552000000000; 291944340561961000000000; 
    291944340561961000000000; 291944340561961000000000; 291944340561961000000000; 291944340561961000000000; 291944340561961000000000; 
    4439198669278809000000000; 2804526765357552000000000; 2464330224801677000000000; 2464330224801677000000000; 2804526765357552000000000; 
    4439198669278809000000000; 4439198669278809000000000; 2804526765357552000000000; 2464330224801677000000000; 2464330224801677000000000; 
    2804526765357552000000000; 4439198669278809000000000; 1271207488070096000000000; 1271207488070096000000000; 2395450885895190000000000; 
    3875767128917152000000000; 2395450885895190000000000; 3875767128917152000000000; 2457574497117561000000000; 2457574497117561000000000; 
    2457574497117561000000000; 2457574497117561000000000; 2457574497117561000000000; 2457574497117561000000000; 2395450885895190000000000; 
    3875767128917152000000000; 1271207488070096000000000; 1271207488070096000000000; 3875767128917152000000000; 2395450885895190000000000; 
    2395450885895190000000000; 3875767128917152000000000; 1271207488070096000000000; 1271207488070096000000000; 3875767128917152000000000; 
    2395450885895190000000000; 2137049061861850000000000; 2137049061861850000000000; 1657130887168779000000000; 5503423585599962000000000; 
    1657130887168779000000000; 5503423585599962000000000; 702396465369408000000000; 702396465369408000000000; 702396465369408000000000; 
    702396465369408000000000; 702396465369408000000000; 702396465369408000000000; 1657130887168779000000000; 5503423585599962000000000; 
    2137049061861850000000000; 2137049061861850000000000; 5503423585599962000000000; 1657130887168779000000000; 1657130887168779000000000; 
    5503423585599962000000000; 2137049061861850000000000; 2137049061861850000000000; 5503423585599962000000000; 1657130887168779000000000; 
    3290353014877974000000000; 3290353014877974000000000; 1788776686026366000000000; 4254763922480989000000000; 1788776686026366000000000; 
    4254763922480989000000000; 666106376614672000000000; 666106376614672000000000; 666106376614672000000000; 666106376614672000000000; 
    666106376614672000000000; 666106376614672000000000; 1788776686026366000000000; 4254763922480989000000000; 3290353014877974000000000; 
    3290353014877974000000000; 4254763922480989000000000; 1788776686026366000000000; 1788776686026366000000000; 4254763922480989000000000; 
    3290353014877974000000000; 3290353014877974000000000; 4254763922480989000000000; 1788776686026366000000000; 49503159569494000000000; 
    49503159569494000000000; 3340176116726106000000000; 4722321350880272000000000; 3340176116726106000000000; 4722321350880272000000000; 
    1887999372824127000000000; 1887999372824127000000000; 1887999372824127000000000; 1887999372824127000000000; 1887999372824127000000000; 
    1887999372824127000000000; 3340176116726106000000000; 4722321350880272000000000; 49503159569494000000000; 49503159569494000000000; 
    4722321350880272000000000; 3340176116726106000000000; 3340176116726106000000000; 4722321350880272000000000; 49503159569494000000000; 
    49503159569494000000000; 4722321350880272000000000; 3340176116726106000000000; 78462883616813000000000; 78462883616813000000000; 
    5458773009126385000000000; 3752267608204884000000000; 5458773009126385000000000; 3752267608204884000000000; 710496499051917000000000; 
    710496499051917000000000; 710496499051917000000000; 710496499051917000000000; 710496499051917000000000; 710496499051917000000000; 
    5458773009126385000000000; 3752267608204884000000000; 78462883616813000000000; 78462883616813000000000; 3752267608204884000000000; 
    5458773009126385000000000; 5458773009126385000000000; 3752267608204884000000000; 78462883616813000000000; 78462883616813000000000; 
    3752267608204884000000000; 5458773009126385000000000; 1293557534662013000000000; 1293557534662013000000000; 251043985900785000000000; 
    5925516079062881000000000; 251043985900785000000000; 5925516079062881000000000; 2529882400374321000000000; 2529882400374321000000000; 
    2529882400374321000000000; 2529882400374321000000000; 2529882400374321000000000; 2529882400374321000000000; 251043985900785000000000; 
    5925516079062881000000000; 1293557534662013000000000; 1293557534662013000000000; 5925516079062881000000000; 251043985900785000000000; 
    251043985900785000000000; 5925516079062881000000000; 1293557534662013000000000; 1293557534662013000000000; 5925516079062881000000000; 
    251043985900785000000000];
   [2063721818681210000000000; 2063721818681210000000000; 3808834543956371000000000; 2063721818681210000000000; 1625387945176406000000000; 
    1625387945176406000000000; 5123836164470781000000000; 1625387945176406000000000; 3116266728255643000000000; 3116266728255643000000000; 
    651199815233071000000000; 3116266728255643000000000; 3307279160890313000000000; 3307279160890313000000000; 78162517329061000000000; 
    3307279160890313000000000; 337440820129951000000000; 337440820129951000000000; 8987677539610148000000000; 337440820129951000000000; 
    656813827842595000000000; 656813827842595000000000; 8029558516472214000000000; 656813827842595000000000; 116907242025971000000000; 
    116907242025971000000000; 9649278273922087000000000; 116907242025971000000000; 3051729141214794000000000; 1948270858785206000000000; 
    1948270858785206000000000; 3051729141214794000000000; 3051729141214794000000000; 1948270858785206000000000; 2498171653415399000000000; 
    2501828346584600000000000; 2501828346584600000000000; 2498171653415399000000000; 2498171653415399000000000; 2501828346584600000000000; 
    133665229160562000000000; 4866334770839438000000000; 4866334770839438000000000; 133665229160562000000000; 133665229160562000000000; 
    4866334770839438000000000; 2503423435758855000000000; 2496576564241145000000000; 2496576564241145000000000; 2503423435758855000000000; 
    2503423435758855000000000; 2496576564241145000000000; 3324517722542840000000000; 1675482277457161000000000; 1675482277457161000000000; 
    3324517722542840000000000; 3324517722542840000000000; 1675482277457161000000000; 3328935974705466000000000; 1671064025294534000000000; 
    1671064025294534000000000; 3328935974705466000000000; 3328935974705466000000000; 1671064025294534000000000; 1053889982941293000000000; 
    3946110017058707000000000; 3946110017058707000000000; 1053889982941293000000000; 1053889982941293000000000; 3946110017058707000000000; 
    431772194136649000000000; 4568227805863351000000000; 4568227805863351000000000; 431772194136649000000000; 431772194136649000000000; 
    4568227805863351000000000; 331030676150443000000000; 1352754021303201000000000; 331030676150443000000000; 331030676150443000000000; 
    1352754021303201000000000; 331030676150443000000000; 7985184626395914000000000; 7985184626395914000000000; 7985184626395914000000000; 
    331030676150443000000000; 331030676150443000000000; 1352754021303201000000000; 1946185784467675000000000; 11718790470473000000000; 
    1946185784467675000000000; 1946185784467675000000000; 11718790470473000000000; 1946185784467675000000000; 6095909640594178000000000; 
    6095909640594178000000000; 6095909640594178000000000; 1946185784467675000000000; 1946185784467675000000000; 11718790470473000000000; 
    132125212613112000000000; 3278960098149503000000000; 132125212613112000000000; 132125212613112000000000; 3278960098149503000000000; 
    132125212613112000000000; 6456789476624273000000000; 6456789476624273000000000; 6456789476624273000000000; 132125212613112000000000; 
    132125212613112000000000; 3278960098149503000000000; 1229320721770598000000000; 202839984315217000000000; 1229320721770598000000000; 
    1229320721770598000000000; 202839984315217000000000; 1229320721770598000000000; 7338518572143586000000000; 7338518572143586000000000; 
    7338518572143586000000000; 1229320721770598000000000; 1229320721770598000000000; 202839984315217000000000; 619950609516838000000000; 
    3498961219623653000000000; 619950609516838000000000; 619950609516838000000000; 3498961219623653000000000; 619950609516838000000000; 
    5261137561342671000000000; 5261137561342671000000000; 5261137561342671000000000; 619950609516838000000000; 619950609516838000000000; 
    3498961219623653000000000; 840718754699170000000000; 1666830796952924000000000; 840718754699170000000000; 840718754699170000000000; 
    1666830796952924000000000; 840718754699170000000000; 6651731693648737000000000; 6651731693648737000000000; 6651731693648737000000000; 
    840718754699170000000000; 840718754699170000000000; 1666830796952924000000000; 78670488744539000000000; 1859179591228751000000000; 
    78670488744539000000000; 78670488744539000000000; 1859179591228751000000000; 78670488744539000000000; 7983479431282171000000000; 
    7983479431282171000000000; 7983479431282171000000000; 78670488744539000000000; 78670488744539000000000; 1859179591228751000000000; 
    421758249887124000000000; 2482707411503117000000000; 421758249887124000000000; 421758249887124000000000; 2482707411503117000000000; 
    421758249887124000000000; 6673776088722636000000000; 6673776088722636000000000; 6673776088722636000000000; 421758249887124000000000; 
    421758249887124000000000; 2482707411503117000000000; 86834918721388000000000; 669810222676876000000000; 86834918721388000000000; 
    86834918721388000000000; 669810222676876000000000; 86834918721388000000000; 9156519939880347000000000; 9156519939880347000000000; 
    9156519939880347000000000; 86834918721388000000000; 86834918721388000000000; 669810222676876000000000; 1111185367576208000000000; 
    2918417077981162000000000; 1111185367576208000000000; 1111185367576208000000000; 2918417077981162000000000; 1111185367576208000000000; 
    4859212186866421000000000; 4859212186866421000000000; 4859212186866421000000000; 1111185367576208000000000; 1111185367576208000000000; 
    2918417077981162000000000; 36854638456060000000000; 7163454647076797000000000; 637707896451841000000000; 637707896451841000000000; 
    7163454647076797000000000; 36854638456060000000000; 36854638456060000000000; 7163454647076797000000000; 637707896451841000000000; 
    637707896451841000000000; 7163454647076797000000000; 36854638456060000000000; 2161982818015302000000000; 2161982818015302000000000; 
    2161982818015302000000000; 2161982818015302000000000; 2161982818015302000000000; 2161982818015302000000000; 7163454647076797000000000; 
    36854638456060000000000; 7163454647076797000000000; 36854638456060000000000; 637707896451841000000000; 637707896451841000000000; 
    914756397949307000000000; 8558399144225498000000000; 40240981032238000000000; 40240981032238000000000; 8558399144225498000000000; 
    914756397949307000000000; 914756397949307000000000; 8558399144225498000000000; 40240981032238000000000; 40240981032238000000000; 
    8558399144225498000000000; 914756397949307000000000; 486603476792957000000000; 486603476792957000000000; 486603476792957000000000; 
    486603476792957000000000; 486603476792957000000000; 486603476792957000000000; 8558399144225498000000000; 914756397949307000000000; 
    8558399144225498000000000; 914756397949307000000000; 40240981032238000000000; 40240981032238000000000; 1326563740184036000000000; 
    4223229603801267000000000; 4168774597385260000000000; 4168774597385260000000000; 4223229603801267000000000; 1326563740184036000000000; 
    1326563740184036000000000; 4223229603801267000000000; 4168774597385260000000000; 4168774597385260000000000; 4223229603801267000000000; 
    1326563740184036000000000; 281432058629436000000000; 281432058629436000000000; 281432058629436000000000; 281432058629436000000000; 
    281432058629436000000000; 281432058629436000000000; 4223229603801267000000000; 1326563740184036000000000; 4223229603801267000000000; 
    1326563740184036000000000; 4168774597385260000000000; 4168774597385260000000000; 4439198669278809000000000; 2804526765357552000000000; 
    2464330224801677000000000; 2464330224801677000000000; 2804526765357552000000000; 4439198669278809000000000; 4439198669278809000000000; 
    2804526765357552000000000; 2464330224801677000000000; 2464330224801677000000000; 2804526765357552000000000; 4439198669278809000000000; 
    291944340561961000000000; 291944340561961000000000; 291944340561961000000000; 291944340561961000000000; 291944340561961000000000; 
    291944340561961000000000; 2804526765357552000000000; 4439198669278809000000000; 2804526765357552000000000; 4439198669278809000000000; 
    2464330224801677000000000; 2464330224801677000000000; 2395450885895190000000000; 3875767128917152000000000; 1271207488070096000000000; 
    1271207488070096000000000; 3875767128917152000000000; 2395450885895190000000000; 2395450885895190000000000; 3875767128917152000000000; 
    1271207488070096000000000; 1271207488070096000000000; 3875767128917152000000000; 2395450885895190000000000; 2457574497117561000000000; 
    2457574497117561000000000; 2457574497117561000000000; 2457574497117561000000000; 2457574497117561000000000; 2457574497117561000000000; 
    3875767128917152000000000; 2395450885895190000000000; 3875767128917152000000000; 2395450885895190000000000; 1271207488070096000000000; 
    1271207488070096000000000; 1657130887168779000000000; 5503423585599962000000000; 2137049061861850000000000; 2137049061861850000000000; 
    5503423585599962000000000; 1657130887168779000000000; 1657130887168779000000000; 5503423585599962000000000; 2137049061861850000000000; 
    2137049061861850000000000; 5503423585599962000000000; 1657130887168779000000000; 702396465369408000000000; 702396465369408000000000; 
    702396465369408000000000; 702396465369408000000000; 702396465369408000000000; 702396465369408000000000; 5503423585599962000000000; 
    1657130887168779000000000; 5503423585599962000000000; 1657130887168779000000000; 2137049061861850000000000; 2137049061861850000000000; 
    1788776686026366000000000; 4254763922480989000000000; 3290353014877974000000000; 3290353014877974000000000; 4254763922480989000000000; 
    1788776686026366000000000; 1788776686026366000000000; 4254763922480989000000000; 3290353014877974000000000; 3290353014877974000000000; 
    4254763922480989000000000; 1788776686026366000000000; 666106376614672000000000; 666106376614672000000000; 666106376614672000000000; 
    666106376614672000000000; 666106376614672000000000; 666106376614672000000000; 4254763922480989000000000; 1788776686026366000000000; 
    4254763922480989000000000; 1788776686026366000000000; 3290353014877974000000000; 3290353014877974000000000; 3340176116726106000000000; 
    4722321350880272000000000; 49503159569494000000000; 49503159569494000000000; 4722321350880272000000000; 3340176116726106000000000; 
    3340176116726106000000000; 4722321350880272000000000; 49503159569494000000000; 49503159569494000000000; 4722321350880272000000000; 
    3340176116726106000000000; 1887999372824127000000000; 1887999372824127000000000; 1887999372824127000000000; 1887999372824127000000000; 
    1887999372824127000000000; 1887999372824127000000000; 4722321350880272000000000; 3340176116726106000000000; 4722321350880272000000000; 
    3340176116726106000000000; 49503159569494000000000; 49503159569494000000000; 5458773009126385000000000; 3752267608204884000000000; 
    78462883616813000000000; 78462883616813000000000; 3752267608204884000000000; 5458773009126385000000000; 5458773009126385000000000; 
    3752267608204884000000000; 78462883616813000000000; 78462883616813000000000; 3752267608204884000000000; 5458773009126385000000000; 
    710496499051917000000000; 710496499051917000000000; 710496499051917000000000; 710496499051917000000000; 710496499051917000000000; 
    710496499051917000000000; 3752267608204884000000000; 5458773009126385000000000; 3752267608204884000000000; 5458773009126385000000000; 
    78462883616813000000000; 78462883616813000000000; 251043985900785000000000; 5925516079062881000000000; 1293557534662013000000000; 
    1293557534662013000000000; 5925516079062881000000000; 251043985900785000000000; 251043985900785000000000; 5925516079062881000000000; 
    1293557534662013000000000; 1293557534662013000000000; 5925516079062881000000000; 251043985900785000000000; 2529882400374321000000000; 
    2529882400374321000000000; 2529882400374321000000000; 2529882400374321000000000; 2529882400374321000000000; 2529882400374321000000000; 
    5925516079062881000000000; 251043985900785000000000; 5925516079062881000000000; 251043985900785000000000; 1293557534662013000000000; 
    1293557534662013000000000];
   [2063721818681210000000000; 2063721818681210000000000; 2063721818681210000000000; 3808834543956371000000000; 1625387945176406000000000; 
    1625387945176406000000000; 1625387945176406000000000; 5123836164470781000000000; 3116266728255643000000000; 3116266728255643000000000; 
    3116266728255643000000000; 651199815233071000000000; 3307279160890313000000000; 3307279160890313000000000; 3307279160890313000000000; 
    78162517329061000000000; 337440820129951000000000; 337440820129951000000000; 337440820129951000000000; 8987677539610148000000000; 
    656813827842595000000000; 656813827842595000000000; 656813827842595000000000; 8029558516472214000000000; 116907242025971000000000; 
    116907242025971000000000; 116907242025971000000000; 9649278273922087000000000; 3051729141214794000000000; 3051729141214794000000000; 
    3051729141214794000000000; 1948270858785206000000000; 1948270858785206000000000; 1948270858785206000000000; 2498171653415399000000000; 
    2498171653415399000000000; 2498171653415399000000000; 2501828346584600000000000; 2501828346584600000000000; 2501828346584600000000000; 
    133665229160562000000000; 133665229160562000000000; 133665229160562000000000; 4866334770839438000000000; 4866334770839438000000000; 
    4866334770839438000000000; 2503423435758855000000000; 2503423435758855000000000; 2503423435758855000000000; 2496576564241145000000000; 
    2496576564241145000000000; 2496576564241145000000000; 3324517722542840000000000; 3324517722542840000000000; 3324517722542840000000000; 
    1675482277457161000000000; 1675482277457161000000000; 1675482277457161000000000; 3328935974705466000000000; 3328935974705466000000000; 
    3328935974705466000000000; 1671064025294534000000000; 1671064025294534000000000; 1671064025294534000000000; 1053889982941293000000000; 
    1053889982941293000000000; 1053889982941293000000000; 3946110017058707000000000; 3946110017058707000000000; 3946110017058707000000000; 
    431772194136649000000000; 431772194136649000000000; 431772194136649000000000; 4568227805863351000000000; 4568227805863351000000000; 
    4568227805863351000000000; 331030676150443000000000; 331030676150443000000000; 1352754021303201000000000; 331030676150443000000000; 
    331030676150443000000000; 1352754021303201000000000; 331030676150443000000000; 331030676150443000000000; 1352754021303201000000000; 
    7985184626395914000000000; 7985184626395914000000000; 7985184626395914000000000; 1946185784467675000000000; 1946185784467675000000000; 
    11718790470473000000000; 1946185784467675000000000; 1946185784467675000000000; 11718790470473000000000; 1946185784467675000000000; 
    1946185784467675000000000; 11718790470473000000000; 6095909640594178000000000; 6095909640594178000000000; 6095909640594178000000000; 
    132125212613112000000000; 132125212613112000000000; 3278960098149503000000000; 132125212613112000000000; 132125212613112000000000; 
    3278960098149503000000000; 132125212613112000000000; 132125212613112000000000; 3278960098149503000000000; 6456789476624273000000000; 
    6456789476624273000000000; 6456789476624273000000000; 1229320721770598000000000; 1229320721770598000000000; 202839984315217000000000; 
    1229320721770598000000000; 1229320721770598000000000; 202839984315217000000000; 1229320721770598000000000; 1229320721770598000000000; 
    202839984315217000000000; 7338518572143586000000000; 7338518572143586000000000; 7338518572143586000000000; 619950609516838000000000; 
    619950609516838000000000; 3498961219623653000000000; 619950609516838000000000; 619950609516838000000000; 3498961219623653000000000; 
    619950609516838000000000; 619950609516838000000000; 3498961219623653000000000; 5261137561342671000000000; 5261137561342671000000000; 
    5261137561342671000000000; 840718754699170000000000; 840718754699170000000000; 1666830796952924000000000; 840718754699170000000000; 
    840718754699170000000000; 1666830796952924000000000; 840718754699170000000000; 840718754699170000000000; 1666830796952924000000000; 
    6651731693648737000000000; 6651731693648737000000000; 6651731693648737000000000; 78670488744539000000000; 78670488744539000000000; 
    1859179591228751000000000; 78670488744539000000000; 78670488744539000000000; 1859179591228751000000000; 78670488744539000000000; 
    78670488744539000000000; 1859179591228751000000000; 7983479431282171000000000; 7983479431282171000000000; 7983479431282171000000000; 
    421758249887124000000000; 421758249887124000000000; 2482707411503117000000000; 421758249887124000000000; 421758249887124000000000; 
    2482707411503117000000000; 421758249887124000000000; 421758249887124000000000; 2482707411503117000000000; 6673776088722636000000000; 
    6673776088722636000000000; 6673776088722636000000000; 86834918721388000000000; 86834918721388000000000; 669810222676876000000000; 
    86834918721388000000000; 86834918721388000000000; 669810222676876000000000; 86834918721388000000000; 86834918721388000000000; 
    669810222676876000000000; 9156519939880347000000000; 9156519939880347000000000; 9156519939880347000000000; 1111185367576208000000000; 
    1111185367576208000000000; 2918417077981162000000000; 1111185367576208000000000; 1111185367576208000000000; 2918417077981162000000000; 
    1111185367576208000000000; 1111185367576208000000000; 2918417077981162000000000; 4859212186866421000000000; 4859212186866421000000000; 
    4859212186866421000000000; 7163454647076797000000000; 36854638456060000000000; 7163454647076797000000000; 36854638456060000000000; 
    637707896451841000000000; 637707896451841000000000; 7163454647076797000000000; 36854638456060000000000; 7163454647076797000000000; 
    36854638456060000000000; 637707896451841000000000; 637707896451841000000000; 7163454647076797000000000; 36854638456060000000000; 
    7163454647076797000000000; 36854638456060000000000; 637707896451841000000000; 637707896451841000000000; 2161982818015302000000000; 
    2161982818015302000000000; 2161982818015302000000000; 2161982818015302000000000; 2161982818015302000000000; 2161982818015302000000000; 
    8558399144225498000000000; 914756397949307000000000; 8558399144225498000000000; 914756397949307000000000; 40240981032238000000000; 
    40240981032238000000000; 8558399144225498000000000; 914756397949307000000000; 8558399144225498000000000; 914756397949307000000000; 
    40240981032238000000000; 40240981032238000000000; 8558399144225498000000000; 914756397949307000000000; 8558399144225498000000000; 
    914756397949307000000000; 40240981032238000000000; 40240981032238000000000; 486603476792957000000000; 486603476792957000000000; 
    486603476792957000000000; 486603476792957000000000; 486603476792957000000000; 486603476792957000000000; 4223229603801267000000000; 
    1326563740184036000000000; 4223229603801267000000000; 1326563740184036000000000; 4168774597385260000000000; 4168774597385260000000000; 
    4223229603801267000000000; 1326563740184036000000000; 4223229603801267000000000; 1326563740184036000000000; 4168774597385260000000000; 
    4168774597385260000000000; 4223229603801267000000000; 1326563740184036000000000; 4223229603801267000000000; 1326563740184036000000000; 
    4168774597385260000000000; 4168774597385260000000000; 281432058629436000000000; 281432058629436000000000; 281432058629436000000000; 
    281432058629436000000000; 281432058629436000000000; 281432058629436000000000; 2804526765357552000000000; 4439198669278809000000000; 
    2804526765357552000000000; 4439198669278809000000000; 2464330224801677000000000; 2464330224801677000000000; 2804526765357552000000000; 
    4439198669278809000000000; 2804526765357552000000000; 4439198669278809000000000; 2464330224801677000000000; 2464330224801677000000000; 
    2804526765357552000000000; 4439198669278809000000000; 2804526765357552000000000; 4439198669278809000000000; 2464330224801677000000000; 
    2464330224801677000000000; 291944340561961000000000; 291944340561961000000000; 291944340561961000000000; 291944340561961000000000; 
    291944340561961000000000; 291944340561961000000000; 3875767128917152000000000; 2395450885895190000000000; 3875767128917152000000000; 
    2395450885895190000000000; 1271207488070096000000000; 1271207488070096000000000; 3875767128917152000000000; 2395450885895190000000000; 
    3875767128917152000000000; 2395450885895190000000000; 1271207488070096000000000; 1271207488070096000000000; 3875767128917152000000000; 
    2395450885895190000000000; 3875767128917152000000000; 2395450885895190000000000; 1271207488070096000000000; 1271207488070096000000000; 
    2457574497117561000000000; 2457574497117561000000000; 2457574497117561000000000; 2457574497117561000000000; 2457574497117561000000000; 
    2457574497117561000000000; 5503423585599962000000000; 1657130887168779000000000; 5503423585599962000000000; 1657130887168779000000000; 
    2137049061861850000000000; 2137049061861850000000000; 5503423585599962000000000; 1657130887168779000000000; 5503423585599962000000000; 
    1657130887168779000000000; 2137049061861850000000000; 2137049061861850000000000; 5503423585599962000000000; 1657130887168779000000000; 
    5503423585599962000000000; 1657130887168779000000000; 2137049061861850000000000; 2137049061861850000000000; 702396465369408000000000; 
    702396465369408000000000; 702396465369408000000000; 702396465369408000000000; 702396465369408000000000; 702396465369408000000000; 
    4254763922480989000000000; 1788776686026366000000000; 4254763922480989000000000; 1788776686026366000000000; 3290353014877974000000000; 
    3290353014877974000000000; 4254763922480989000000000; 1788776686026366000000000; 4254763922480989000000000; 1788776686026366000000000; 
    3290353014877974000000000; 3290353014877974000000000; 4254763922480989000000000; 1788776686026366000000000; 4254763922480989000000000; 
    1788776686026366000000000; 3290353014877974000000000; 3290353014877974000000000; 666106376614672000000000; 666106376614672000000000; 
    666106376614672000000000; 666106376614672000000000; 666106376614672000000000; 666106376614672000000000; 4722321350880272000000000; 
    3340176116726106000000000; 4722321350880272000000000; 3340176116726106000000000; 49503159569494000000000; 49503159569494000000000; 
    4722321350880272000000000; 3340176116726106000000000; 4722321350880272000000000; 3340176116726106000000000; 49503159569494000000000; 
    49503159569494000000000; 4722321350880272000000000; 3340176116726106000000000; 4722321350880272000000000; 3340176116726106000000000; 
    49503159569494000000000; 49503159569494000000000; 1887999372824127000000000; 1887999372824127000000000; 1887999372824127000000000; 
    1887999372824127000000000; 1887999372824127000000000; 1887999372824127000000000; 3752267608204884000000000; 5458773009126385000000000; 
    3752267608204884000000000; 5458773009126385000000000; 78462883616813000000000; 78462883616813000000000; 3752267608204884000000000; 
    5458773009126385000000000; 3752267608204884000000000; 5458773009126385000000000; 78462883616813000000000; 78462883616813000000000; 
    3752267608204884000000000; 5458773009126385000000000; 3752267608204884000000000; 5458773009126385000000000; 78462883616813000000000; 
    78462883616813000000000; 710496499051917000000000; 710496499051917000000000; 710496499051917000000000; 710496499051917000000000; 
    710496499051917000000000; 710496499051917000000000; 5925516079062881000000000; 251043985900785000000000; 5925516079062881000000000; 
    251043985900785000000000; 1293557534662013000000000; 1293557534662013000000000; 5925516079062881000000000; 251043985900785000000000; 
    5925516079062881000000000; 251043985900785000000000; 1293557534662013000000000; 1293557534662013000000000; 5925516079062881000000000; 
    251043985900785000000000; 5925516079062881000000000; 251043985900785000000000; 1293557534662013000000000; 1293557534662013000000000; 
    2529882400374321000000000; 2529882400374321000000000; 2529882400374321000000000; 2529882400374321000000000; 2529882400374321000000000; 
    2529882400374321000000000]],
   [1505388406750595500; 1505388406750595500; 1505388406750595500; 1505388406750595500; 7201441531528436100; 7201441531528436100; 7201441531528436100; 
    7201441531528436100; 5801801233694814900; 5801801233694814900; 5801801233694814900; 5801801233694814900; 2465088392849790700; 2465088392849790700; 
    2465088392849790700; 2465088392849790700; 823527105911002090; 823527105911002090; 823527105911002090; 823527105911002090; 2396153395824959400; 
    2396153395824959400; 2396153395824959400; 2396153395824959400; 166202653806245290; 166202653806245290; 166202653806245290; 166202653806245290; 
    47476266068839172; 47476266068839172; 47476266068839172; 47476266068839172; 47476266068839172; 47476266068839172; 565496040417580490; 
    565496040417580490; 565496040417580490; 565496040417580490; 565496040417580490; 565496040417580490; 1126644847587598200; 1126644847587598200; 
    1126644847587598200; 1126644847587598200; 1126644847587598200; 1126644847587598200; 1348246151880200700; 1348246151880200700; 1348246151880200700; 
    1348246151880200700; 1348246151880200700; 1348246151880200700; 365706909667768290; 365706909667768290; 365706909667768290; 365706909667768290; 
    365706909667768290; 365706909667768290; 5853171992565114200; 5853171992565114200; 5853171992565114200; 5853171992565114200; 5853171992565114200; 
    5853171992565114200; 1956691034821430400; 1956691034821430400; 1956691034821430400; 1956691034821430400; 1956691034821430400; 1956691034821430400; 
    1673244252179039300; 1673244252179039300; 1673244252179039300; 1673244252179039300; 1673244252179039300; 1673244252179039300; 1684409973125634300; 
    1684409973125634300; 1684409973125634300; 1684409973125634300; 1684409973125634300; 1684409973125634300; 1684409973125634300; 1684409973125634300; 
    1684409973125634300; 1684409973125634300; 1684409973125634300; 1684409973125634300; 948973303097114990; 948973303097114990; 948973303097114990; 
    948973303097114990; 948973303097114990; 948973303097114990; 948973303097114990; 948973303097114990; 948973303097114990; 948973303097114990; 
    948973303097114990; 948973303097114990; 1039083135931652800; 1039083135931652800; 1039083135931652800; 1039083135931652800; 1039083135931652800; 
    1039083135931652800; 1039083135931652800; 1039083135931652800; 1039083135931652800; 1039083135931652800; 1039083135931652800; 1039083135931652800; 
    2868558324240347900; 2868558324240347900; 2868558324240347900; 2868558324240347900; 2868558324240347900; 2868558324240347900; 2868558324240347900; 
    2868558324240347900; 2868558324240347900; 2868558324240347900; 2868558324240347900; 2868558324240347900; 3672202784572131900; 3672202784572131900; 
    3672202784572131900; 3672202784572131900; 3672202784572131900; 3672202784572131900; 3672202784572131900; 3672202784572131900; 3672202784572131900; 
    3672202784572131900; 3672202784572131900; 3672202784572131900; 4747155546596363100; 4747155546596363100; 4747155546596363100; 4747155546596363100; 
    4747155546596363100; 4747155546596363100; 4747155546596363100; 4747155546596363100; 4747155546596363100; 4747155546596363100; 4747155546596363100; 
    4747155546596363100; 415088407821297170; 415088407821297170; 415088407821297170; 415088407821297170; 415088407821297170; 415088407821297170; 
    415088407821297170; 415088407821297170; 415088407821297170; 415088407821297170; 415088407821297170; 415088407821297170; 2504990122247682800; 
    2504990122247682800; 2504990122247682800; 2504990122247682800; 2504990122247682800; 2504990122247682800; 2504990122247682800; 2504990122247682800; 
    2504990122247682800; 2504990122247682800; 2504990122247682800; 2504990122247682800; 262991962771023780; 262991962771023780; 262991962771023780; 
    262991962771023780; 262991962771023780; 262991962771023780; 262991962771023780; 262991962771023780; 262991962771023780; 262991962771023780; 
    262991962771023780; 262991962771023780; 5237948818645673900; 5237948818645673900; 5237948818645673900; 5237948818645673900; 5237948818645673900; 
    5237948818645673900; 5237948818645673900; 5237948818645673900; 5237948818645673900; 5237948818645673900; 5237948818645673900; 5237948818645673900; 
    953051734550279870; 953051734550279870; 953051734550279870; 953051734550279870; 953051734550279870; 953051734550279870; 953051734550279870; 
    953051734550279870; 953051734550279870; 953051734550279870; 953051734550279870; 953051734550279870; 953051734550279870; 953051734550279870; 
    953051734550279870; 953051734550279870; 953051734550279870; 953051734550279870; 953051734550279870; 953051734550279870; 953051734550279870; 
    953051734550279870; 953051734550279870; 953051734550279870; 442407949802804410; 442407949802804410; 442407949802804410; 442407949802804410; 
    442407949802804410; 442407949802804410; 442407949802804410; 442407949802804410; 442407949802804410; 442407949802804410; 442407949802804410; 
    442407949802804410; 442407949802804410; 442407949802804410; 442407949802804410; 442407949802804410; 442407949802804410; 442407949802804410; 
    442407949802804410; 442407949802804410; 442407949802804410; 442407949802804410; 442407949802804410; 442407949802804410; 1756179008422938200; 
    1756179008422938200; 1756179008422938200; 1756179008422938200; 1756179008422938200; 1756179008422938200; 1756179008422938200; 1756179008422938200; 
    1756179008422938200; 1756179008422938200; 1756179008422938200; 1756179008422938200; 1756179008422938200; 1756179008422938200; 1756179008422938200; 
    1756179008422938200; 1756179008422938200; 1756179008422938200; 1756179008422938200; 1756179008422938200; 1756179008422938200; 1756179008422938200; 
    1756179008422938200; 1756179008422938200; 2434266881750153400; 2434266881750153400; 2434266881750153400; 2434266881750153400; 2434266881750153400; 
    2434266881750153400; 2434266881750153400; 2434266881750153400; 2434266881750153400; 2434266881750153400; 2434266881750153400; 2434266881750153400; 
    2434266881750153400; 2434266881750153400; 2434266881750153400; 2434266881750153400; 2434266881750153400; 2434266881750153400; 2434266881750153400; 
    2434266881750153400; 2434266881750153400; 2434266881750153400; 2434266881750153400; 2434266881750153400; 3936511965938193300; 3936511965938193300; 
    3936511965938193300; 3936511965938193300; 3936511965938193300; 3936511965938193300; 3936511965938193300; 3936511965938193300; 3936511965938193300; 
    3936511965938193300; 3936511965938193300; 3936511965938193300; 3936511965938193300; 3936511965938193300; 3936511965938193300; 3936511965938193300; 
    3936511965938193300; 3936511965938193300; 3936511965938193300; 3936511965938193300; 3936511965938193300; 3936511965938193300; 3936511965938193300; 
    3936511965938193300; 3199791269106456700; 3199791269106456700; 3199791269106456700; 3199791269106456700; 3199791269106456700; 3199791269106456700; 
    3199791269106456700; 3199791269106456700; 3199791269106456700; 3199791269106456700; 3199791269106456700; 3199791269106456700; 3199791269106456700; 
    3199791269106456700; 3199791269106456700; 3199791269106456700; 3199791269106456700; 3199791269106456700; 3199791269106456700; 3199791269106456700; 
    3199791269106456700; 3199791269106456700; 3199791269106456700; 3199791269106456700; 3797610312158748400; 3797610312158748400; 3797610312158748400; 
    3797610312158748400; 3797610312158748400; 3797610312158748400; 3797610312158748400; 3797610312158748400; 3797610312158748400; 3797610312158748400; 
    3797610312158748400; 3797610312158748400; 3797610312158748400; 3797610312158748400; 3797610312158748400; 3797610312158748400; 3797610312158748400; 
    3797610312158748400; 3797610312158748400; 3797610312158748400; 3797610312158748400; 3797610312158748400; 3797610312158748400; 3797610312158748400; 
    1495938562630981100; 1495938562630981100; 1495938562630981100; 1495938562630981100; 1495938562630981100; 1495938562630981100; 1495938562630981100; 
    1495938562630981100; 1495938562630981100; 1495938562630981100; 1495938562630981100; 1495938562630981100; 1495938562630981100; 1495938562630981100; 
    1495938562630981100; 1495938562630981100; 1495938562630981100; 1495938562630981100; 1495938562630981100; 1495938562630981100; 1495938562630981100; 
    1495938562630981100; 1495938562630981100; 1495938562630981100; 1703996181224724800; 1703996181224724800; 1703996181224724800; 1703996181224724800; 
    1703996181224724800; 1703996181224724800; 1703996181224724800; 1703996181224724800; 1703996181224724800; 1703996181224724800; 1703996181224724800; 
    1703996181224724800; 1703996181224724800; 1703996181224724800; 1703996181224724800; 1703996181224724800; 1703996181224724800; 1703996181224724800; 
    1703996181224724800; 1703996181224724800; 1703996181224724800; 1703996181224724800; 1703996181224724800; 1703996181224724800; 3628775117699059100; 
    3628775117699059100; 3628775117699059100; 3628775117699059100; 3628775117699059100; 3628775117699059100; 3628775117699059100; 3628775117699059100; 
    3628775117699059100; 3628775117699059100; 3628775117699059100; 3628775117699059100; 3628775117699059100; 3628775117699059100; 3628775117699059100; 
    3628775117699059100; 3628775117699059100; 3628775117699059100; 3628775117699059100; 3628775117699059100; 3628775117699059100; 3628775117699059100; 
    3628775117699059100; 3628775117699059100], 18%nat).
(** jaskowiec_sukumar_tet_data.py:9481-11441 *)
Definition js_tet_data_18 : list (list Z) * list Z * nat :=
  ([[2500000000000000000000000; 962334679417012000000000; 7112995961748966000000000; 962334679417012000000000; 962334679417012000000000; 
    2840710971185555000000000; 1477867086443335000000000; 2840710971185555000000000; 2840710971185555000000000; 420121804976231000000000; 
    8739634585071308000000000; 420121804976231000000000; 420121804976231000000000; 3706074987820475000000000; 1293925012179526000000000; 
    3706074987820475000000000; 1293925012179526000000000; 3706074987820475000000000; 1293925012179526000000000; 7679699947393867000000000; 
    533931212533031000000000; 533931212533031000000000; 1252437627540072000000000; 1252437627540072000000000; 1252437627540072000000000; 
    533931212533031000000000; 7679699947393867000000000; 533931212533031000000000; 533931212533031000000000; 7679699947393867000000000; 
    533931212533031000000000; 1660339253205299000000000; 52505539069196000000000; 52505539069196000000000; 8234649668656309000000000; 
    8234649668656309000000000; 8234649668656309000000000; 52505539069196000000000; 1660339253205299000000000; 52505539069196000000000; 
    52505539069196000000000; 1660339253205299000000000; 52505539069196000000000; 1034045995093328000000000; 2128993323694659000000000; 
    2128993323694659000000000; 4707967357517354000000000; 4707967357517354000000000; 4707967357517354000000000; 2128993323694659000000000; 
    1034045995093328000000000; 2128993323694659000000000; 2128993323694659000000000; 1034045995093328000000000; 2128993323694659000000000; 
    1333356346432022000000000; 4034135325977229000000000; 4034135325977229000000000; 598373001613519000000000; 598373001613519000000000; 
    598373001613519000000000; 4034135325977229000000000; 1333356346432022000000000; 4034135325977229000000000; 4034135325977229000000000; 
    1333356346432022000000000; 4034135325977229000000000; 5532379678070896000000000; 118881193081127000000000; 118881193081127000000000; 
    4229857935766850000000000; 4229857935766850000000000; 4229857935766850000000000; 118881193081127000000000; 5532379678070896000000000; 
    118881193081127000000000; 118881193081127000000000; 5532379678070896000000000; 118881193081127000000000; 8080695151909102000000000; 
    890311655120663000000000; 890311655120663000000000; 138681537849572000000000; 138681537849572000000000; 138681537849572000000000; 
    890311655120663000000000; 8080695151909102000000000; 890311655120663000000000; 890311655120663000000000; 8080695151909102000000000; 
    890311655120663000000000; 4873280365294901000000000; 515167869589916000000000; 515167869589916000000000; 4096383895525266000000000; 
    4096383895525266000000000; 4096383895525266000000000; 515167869589916000000000; 4873280365294901000000000; 515167869589916000000000; 
    515167869589916000000000; 4873280365294901000000000; 515167869589916000000000; 2466149943644083000000000; 1179992852297671000000000; 
    1179992852297671000000000; 5173864351760575000000000; 5173864351760575000000000; 5173864351760575000000000; 1179992852297671000000000; 
    2466149943644083000000000; 1179992852297671000000000; 1179992852297671000000000; 2466149943644083000000000; 1179992852297671000000000; 
    2781414318856127000000000; 460851233492859000000000; 460851233492859000000000; 6296883214158154000000000; 6296883214158154000000000; 
    6296883214158154000000000; 460851233492859000000000; 2781414318856127000000000; 460851233492859000000000; 460851233492859000000000; 
    2781414318856127000000000; 460851233492859000000000; 81746499483895000000000; 1410186708097898000000000; 1410186708097898000000000; 
    7097880084320309000000000; 7097880084320309000000000; 7097880084320309000000000; 1410186708097898000000000; 81746499483895000000000; 
    1410186708097898000000000; 1410186708097898000000000; 81746499483895000000000; 1410186708097898000000000; 5855868767598970000000000; 
    1411034408699267000000000; 1411034408699267000000000; 1322062415002498000000000; 1322062415002498000000000; 1322062415002498000000000; 
    1411034408699267000000000; 5855868767598970000000000; 1411034408699267000000000; 1411034408699267000000000; 5855868767598970000000000; 
    1411034408699267000000000; 303588380906194000000000; 79118622048211000000000; 79118622048211000000000; 9538174374997385000000000; 
    9538174374997385000000000; 9538174374997385000000000; 79118622048211000000000; 303588380906194000000000; 79118622048211000000000; 
    79118622048211000000000; 303588380906194000000000; 79118622048211000000000; 2461239587816849000000000; 1761012114703174000000000; 
    1761012114703174000000000; 4016736182776802000000000; 4016736182776802000000000; 4016736182776802000000000; 1761012114703174000000000; 
    2461239587816849000000000; 1761012114703174000000000; 1761012114703174000000000; 2461239587816849000000000; 1761012114703174000000000; 
    7694124041149815000000000; 7694124041149815000000000; 453113744152098000000000; 1736495090943957000000000; 453113744152098000000000; 
    1736495090943957000000000; 116267123754130000000000; 116267123754130000000000; 116267123754130000000000; 116267123754130000000000; 
    116267123754130000000000; 116267123754130000000000; 453113744152098000000000; 1736495090943957000000000; 7694124041149815000000000; 
    7694124041149815000000000; 1736495090943957000000000; 453113744152098000000000; 453113744152098000000000; 1736495090943957000000000; 
    7694124041149815000000000; 7694124041149815000000000; 1736495090943957000000000; 453113744152098000000000; 1139907343389768000000000; 
    1139907343389768000000000; 1902469770309511000000000; 6467333246419940000000000; 1902469770309511000000000; 6467333246419940000000000; 
    490289639880780000000000; 490289639880780000000000; 490289639880780000000000; 490289639880780000000000; 490289639880780000000000; 
    490289639880780000000000; 1902469770309511000000000; 6467333246419940000000000; 1139907343389768000000000; 1139907343389768000000000; 
    6467333246419940000000000; 1902469770309511000000000; 1902469770309511000000000; 6467333246419940000000000; 1139907343389768000000000; 
    1139907343389768000000000; 6467333246419940000000000; 1902469770309511000000000; 5045224197189542000000000; 5045224197189542000000000; 
    2025882107314621000000000; 2408858063990418000000000; 2025882107314621000000000; 2408858063990418000000000; 520035631505419000000000; 
    520035631505419000000000; 520035631505419000000000; 520035631505419000000000; 520035631505419000000000; 520035631505419000000000; 
    2025882107314621000000000; 2408858063990418000000000; 5045224197189542000000000; 5045224197189542000000000; 2408858063990418000000000; 
    2025882107314621000000000; 2025882107314621000000000; 2408858063990418000000000; 5045224197189542000000000; 5045224197189542000000000; 
    2408858063990418000000000; 2025882107314621000000000; 3899342137938394000000000; 3899342137938394000000000; 628045986545770000000000; 
    5376101656245691000000000; 628045986545770000000000; 5376101656245691000000000; 96510219270146000000000; 96510219270146000000000; 
    96510219270146000000000; 96510219270146000000000; 96510219270146000000000; 96510219270146000000000; 628045986545770000000000; 
    5376101656245691000000000; 3899342137938394000000000; 3899342137938394000000000; 5376101656245691000000000; 628045986545770000000000; 
    628045986545770000000000; 5376101656245691000000000; 3899342137938394000000000; 3899342137938394000000000; 5376101656245691000000000; 
    628045986545770000000000; 102510197711691000000000; 102510197711691000000000; 1689034611068301000000000; 5666194853322549000000000; 
    1689034611068301000000000; 5666194853322549000000000; 2542260337897459000000000; 2542260337897459000000000; 2542260337897459000000000; 
    2542260337897459000000000; 2542260337897459000000000; 2542260337897459000000000; 1689034611068301000000000; 5666194853322549000000000; 
    102510197711691000000000; 102510197711691000000000; 5666194853322549000000000; 1689034611068301000000000; 1689034611068301000000000; 
    5666194853322549000000000; 102510197711691000000000; 102510197711691000000000; 5666194853322549000000000; 1689034611068301000000000; 
    3714709314621824000000000; 3714709314621824000000000; 1282802298826546000000000; 2176247037611105000000000; 1282802298826546000000000; 
    2176247037611105000000000; 2826241348940526000000000; 2826241348940526000000000; 2826241348940526000000000; 2826241348940526000000000; 
    2826241348940526000000000; 2826241348940526000000000; 1282802298826546000000000; 2176247037611105000000000; 3714709314621824000000000; 
    3714709314621824000000000; 2176247037611105000000000; 1282802298826546000000000; 1282802298826546000000000; 2176247037611105000000000; 
    3714709314621824000000000; 3714709314621824000000000; 2176247037611105000000000; 1282802298826546000000000; 2323738231259893000000000; 
    2323738231259893000000000; 3753164302248334000000000; 3358240006032013000000000; 3753164302248334000000000; 3358240006032013000000000; 
    564857460459761000000000; 564857460459761000000000; 564857460459761000000000; 564857460459761000000000; 564857460459761000000000; 
    564857460459761000000000; 3753164302248334000000000; 3358240006032013000000000; 2323738231259893000000000; 2323738231259893000000000; 
    3358240006032013000000000; 3753164302248334000000000; 3753164302248334000000000; 3358240006032013000000000; 2323738231259893000000000; 
    2323738231259893000000000; 3358240006032013000000000; 3753164302248334000000000; 282332391047721000000000; 282332391047721000000000; 
    817663469329853000000000; 59682218345955000000000; 817663469329853000000000; 59682218345955000000000; 8840321921276470000000000; 
    8840321921276470000000000; 8840321921276470000000000; 8840321921276470000000000; 8840321921276470000000000; 8840321921276470000000000; 
    817663469329853000000000; 59682218345955000000000; 282332391047721000000000; 282332391047721000000000; 59682218345955000000000; 
    817663469329853000000000; 817663469329853000000000; 59682218345955000000000; 282332391047721000000000; 282332391047721000000000; 
    59682218345955000000000; 817663469329853000000000; 4691373442926859000000000; 4691373442926859000000000; 3727215008878210000000000; 
    1476210108130195000000000; 3727215008878210000000000; 1476210108130195000000000; 105201440064736000000000; 105201440064736000000000; 
    105201440064736000000000; 105201440064736000000000; 105201440064736000000000; 105201440064736000000000; 3727215008878210000000000; 
    1476210108130195000000000; 4691373442926859000000000; 4691373442926859000000000; 1476210108130195000000000; 3727215008878210000000000; 
    3727215008878210000000000; 1476210108130195000000000; 4691373442926859000000000; 4691373442926859000000000; 1476210108130195000000000; 
    3727215008878210000000000; 62411504342539000000000; 62411504342539000000000; 2881077012617455000000000; 6852432765000537000000000; 
    2881077012617455000000000; 6852432765000537000000000; 204078718039469000000000; 204078718039469000000000; 204078718039469000000000; 
    204078718039469000000000; 204078718039469000000000; 204078718039469000000000; 2881077012617455000000000; 6852432765000537000000000; 
    62411504342539000000000; 62411504342539000000000; 6852432765000537000000000; 2881077012617455000000000; 2881077012617455000000000; 
    6852432765000537000000000; 62411504342539000000000; 62411504342539000000000; 6852432765000537000000000; 2881077012617455000000000; 
    2548571009364550000000000; 2548571009364550000000000; 84836770304887000000000; 6529603551870550000000000; 84836770304887000000000; 
    6529603551870550000000000; 836988668460014000000000; 836988668460014000000000; 836988668460014000000000; 836988668460014000000000; 
    836988668460014000000000; 836988668460014000000000; 84836770304887000000000; 6529603551870550000000000; 2548571009364550000000000; 
    2548571009364550000000000; 6529603551870550000000000; 84836770304887000000000; 84836770304887000000000; 6529603551870550000000000; 
    2548571009364550000000000; 2548571009364550000000000; 6529603551870550000000000; 84836770304887000000000; 5081225906571617000000000; 
    5081225906571617000000000; 1193128036212033000000000; 3224332256857841000000000; 1193128036212033000000000; 3224332256857841000000000; 
    501313800358508000000000; 501313800358508000000000; 501313800358508000000000; 501313800358508000000000; 501313800358508000000000; 
    501313800358508000000000; 1193128036212033000000000; 3224332256857841000000000; 5081225906571617000000000; 5081225906571617000000000; 
    3224332256857841000000000; 1193128036212033000000000; 1193128036212033000000000; 3224332256857841000000000; 5081225906571617000000000; 
    5081225906571617000000000; 3224332256857841000000000; 1193128036212033000000000; 109499610637902000000000; 109499610637902000000000; 
    4198369201417426000000000; 2537102331108258000000000; 4198369201417426000000000; 2537102331108258000000000; 3155028856836414000000000; 
    3155028856836414000000000; 3155028856836414000000000; 3155028856836414000000000; 3155028856836414000000000; 3155028856836414000000000; 
    4198369201417426000000000; 2537102331108258000000000; 109499610637902000000000; 109499610637902000000000; 2537102331108258000000000; 
    4198369201417426000000000; 4198369201417426000000000; 2537102331108258000000000; 109499610637902000000000; 109499610637902000000000; 
    2537102331108258000000000; 4198369201417426000000000];
   [2500000000000000000000000; 962334679417012000000000; 962334679417012000000000; 7112995961748966000000000; 962334679417012000000000; 
    2840710971185555000000000; 2840710971185555000000000; 1477867086443335000000000; 2840710971185555000000000; 420121804976231000000000; 
    420121804976231000000000; 8739634585071308000000000; 420121804976231000000000; 1293925012179526000000000; 3706074987820475000000000; 
    3706074987820475000000000; 1293925012179526000000000; 1293925012179526000000000; 3706074987820475000000000; 533931212533031000000000; 
    7679699947393867000000000; 533931212533031000000000; 533931212533031000000000; 7679699947393867000000000; 533931212533031000000000; 
    1252437627540072000000000; 1252437627540072000000000; 1252437627540072000000000; 533931212533031000000000; 533931212533031000000000; 
    7679699947393867000000000; 52505539069196000000000; 1660339253205299000000000; 52505539069196000000000; 52505539069196000000000; 
    1660339253205299000000000; 52505539069196000000000; 8234649668656309000000000; 8234649668656309000000000; 8234649668656309000000000; 
    52505539069196000000000; 52505539069196000000000; 1660339253205299000000000; 2128993323694659000000000; 1034045995093328000000000; 
    2128993323694659000000000; 2128993323694659000000000; 1034045995093328000000000; 2128993323694659000000000; 4707967357517354000000000; 
    4707967357517354000000000; 4707967357517354000000000; 2128993323694659000000000; 2128993323694659000000000; 1034045995093328000000000; 
    4034135325977229000000000; 1333356346432022000000000; 4034135325977229000000000; 4034135325977229000000000; 1333356346432022000000000; 
    4034135325977229000000000; 598373001613519000000000; 598373001613519000000000; 598373001613519000000000; 4034135325977229000000000; 
    4034135325977229000000000; 1333356346432022000000000; 118881193081127000000000; 5532379678070896000000000; 118881193081127000000000; 
    118881193081127000000000; 5532379678070896000000000; 118881193081127000000000; 4229857935766850000000000; 4229857935766850000000000; 
    4229857935766850000000000; 118881193081127000000000; 118881193081127000000000; 5532379678070896000000000; 890311655120663000000000; 
    8080695151909102000000000; 890311655120663000000000; 890311655120663000000000; 8080695151909102000000000; 890311655120663000000000; 
    138681537849572000000000; 138681537849572000000000; 138681537849572000000000; 890311655120663000000000; 890311655120663000000000; 
    8080695151909102000000000; 515167869589916000000000; 4873280365294901000000000; 515167869589916000000000; 515167869589916000000000; 
    4873280365294901000000000; 515167869589916000000000; 4096383895525266000000000; 4096383895525266000000000; 4096383895525266000000000; 
    515167869589916000000000; 515167869589916000000000; 4873280365294901000000000; 1179992852297671000000000; 2466149943644083000000000; 
    1179992852297671000000000; 1179992852297671000000000; 2466149943644083000000000; 1179992852297671000000000; 5173864351760575000000000; 
    5173864351760575000000000; 5173864351760575000000000; 1179992852297671000000000; 1179992852297671000000000; 2466149943644083000000000; 
    460851233492859000000000; 2781414318856127000000000; 460851233492859000000000; 460851233492859000000000; 2781414318856127000000000; 
    460851233492859000000000; 6296883214158154000000000; 6296883214158154000000000; 6296883214158154000000000; 460851233492859000000000; 
    460851233492859000000000; 2781414318856127000000000; 1410186708097898000000000; 81746499483895000000000; 1410186708097898000000000; 
    1410186708097898000000000; 81746499483895000000000; 1410186708097898000000000; 7097880084320309000000000; 7097880084320309000000000; 
    7097880084320309000000000; 1410186708097898000000000; 1410186708097898000000000; 81746499483895000000000; 1411034408699267000000000; 
    5855868767598970000000000; 1411034408699267000000000; 1411034408699267000000000; 5855868767598970000000000; 1411034408699267000000000; 
    1322062415002498000000000; 1322062415002498000000000; 1322062415002498000000000; 1411034408699267000000000; 1411034408699267000000000; 
    5855868767598970000000000; 79118622048211000000000; 303588380906194000000000; 79118622048211000000000; 79118622048211000000000; 
    303588380906194000000000; 79118622048211000000000; 9538174374997385000000000; 9538174374997385000000000; 9538174374997385000000000; 
    79118622048211000000000; 79118622048211000000000; 303588380906194000000000; 1761012114703174000000000; 2461239587816849000000000; 
    1761012114703174000000000; 1761012114703174000000000; 2461239587816849000000000; 1761012114703174000000000; 4016736182776802000000000; 
    4016736182776802000000000; 4016736182776802000000000; 1761012114703174000000000; 1761012114703174000000000; 2461239587816849000000000; 
    453113744152098000000000; 1736495090943957000000000; 7694124041149815000000000; 7694124041149815000000000; 1736495090943957000000000; 
    453113744152098000000000; 453113744152098000000000; 1736495090943957000000000; 7694124041149815000000000; 7694124041149815000000000; 
    1736495090943957000000000; 453113744152098000000000; 116267123754130000000000; 116267123754130000000000; 116267123754130000000000; 
    116267123754130000000000; 116267123754130000000000; 116267123754130000000000; 1736495090943957000000000; 453113744152098000000000; 
    1736495090943957000000000; 453113744152098000000000; 7694124041149815000000000; 7694124041149815000000000; 1902469770309511000000000; 
    6467333246419940000000000; 1139907343389768000000000; 1139907343389768000000000; 6467333246419940000000000; 1902469770309511000000000; 
    1902469770309511000000000; 6467333246419940000000000; 1139907343389768000000000; 1139907343389768000000000; 6467333246419940000000000; 
    1902469770309511000000000; 490289639880780000000000; 490289639880780000000000; 490289639880780000000000; 490289639880780000000000; 
    490289639880780000000000; 490289639880780000000000; 6467333246419940000000000; 1902469770309511000000000; 6467333246419940000000000; 
    1902469770309511000000000; 1139907343389768000000000; 1139907343389768000000000; 2025882107314621000000000; 2408858063990418000000000; 
    5045224197189542000000000; 5045224197189542000000000; 2408858063990418000000000; 2025882107314621000000000; 2025882107314621000000000; 
    2408858063990418000000000; 5045224197189542000000000; 5045224197189542000000000; 2408858063990418000000000; 2025882107314621000000000; 
    520035631505419000000000; 520035631505419000000000; 520035631505419000000000; 520035631505419000000000; 520035631505419000000000; 
    520035631505419000000000; 2408858063990418000000000; 2025882107314621000000000; 2408858063990418000000000; 2025882107314621000000000; 
    5045224197189542000000000; 5045224197189542000000000; 628045986545770000000000; 5376101656245691000000000; 3899342137938394000000000; 
    3899342137938394000000000; 5376101656245691000000000; 628045986545770000000000; 628045986545770000000000; 5376101656245691000000000; 
    3899342137938394000000000; 3899342137938394000000000; 5376101656245691000000000; 628045986545770000000000; 96510219270146000000000; 
    96510219270146000000000; 96510219270146000000000; 96510219270146000000000; 96510219270146000000000; 96510219270146000000000; 
    5376101656245691000000000; 628045986545770000000000; 5376101656245691000000000; 628045986545770000000000; 3899342137938394000000000; 
    3899342137938394000000000; 1689034611068301000000000; 5666194853322549000000000; 102510197711691000000000; 102510197711691000000000; 
    5666194853322549000000000; 1689034611068301000000000; 1689034611068301000000000; 5666194853322549000000000; 102510197711691000000000; 
    102510197711691000000000; 5666194853322549000000000; 1689034611068301000000000; 2542260337897459000000000; 2542260337897459000000000; 
    2542260337897459000000000; 2542260337897459000000000; 2542260337897459000000000; 2542260337897459000000000; 5666194853322549000000000; 
    1689034611068301000000000; 5666194853322549000000000; 1689034611068301000000000; 102510197711691000000000; 102510197711691000000000; 
    1282802298826546000000000; 2176247037611105000000000; 3714709314621824000000000; 3714709314621824000000000; 2176247037611105000000000; 
    1282802298826546000000000; 1282802298826546000000000; 2176247037611105000000000; 3714709314621824000000000; 3714709314621824000000000; 
    2176247037611105000000000; 1282802298826546000000000; 2826241348940526000000000; 2826241348940526000000000; 2826241348940526000000000; 
    2826241348940526000000000; 2826241348940526000000000; 2826241348940526000000000; 2176247037611105000000000; 1282802298826546000000000; 
    2176247037611105000000000; 1282802298826546000000000; 3714709314621824000000000; 3714709314621824000000000; 3753164302248334000000000; 
    3358240006032013000000000; 2323738231259893000000000; 2323738231259893000000000; 3358240006032013000000000; 3753164302248334000000000; 
    3753164302248334000000000; 3358240006032013000000000; 2323738231259893000000000; 2323738231259893000000000; 3358240006032013000000000; 
    3753164302248334000000000; 564857460459761000000000; 564857460459761000000000; 564857460459761000000000; 564857460459761000000000; 
    564857460459761000000000; 564857460459761000000000; 3358240006032013000000000; 3753164302248334000000000; 3358240006032013000000000; 
    3753164302248334000000000; 2323738231259893000000000; 2323738231259893000000000; 817663469329853000000000; 59682218345955000000000; 
    282332391047721000000000; 282332391047721000000000; 59682218345955000000000; 817663469329853000000000; 817663469329853000000000; 
    59682218345955000000000; 282332391047721000000000; 282332391047721000000000; 59682218345955000000000; 817663469329853000000000; 
    8840321921276470000000000; 8840321921276470000000000; 8840321921276470000000000; 8840321921276470000000000; 8840321921276470000000000; 
    8840321921276470000000000; 59682218345955000000000; 817663469329853000000000; 59682218345955000000000; 817663469329853000000000; 
    282332391047721000000000; 282332391047721000000000; 3727215008878210000000000; 1476210108130195000000000; 4691373442926859000000000; 
    4691373442926859000000000; 1476210108130195000000000; 3727215008878210000000000; 3727215008878210000000000; 1476210108130195000000000; 
    4691373442926859000000000; 4691373442926859000000000; 1476210108130195000000000; 3727215008878210000000000; 105201440064736000000000; 
    105201440064736000000000; 105201440064736000000000; 105201440064736000000000; 105201440064736000000000; 105201440064736000000000; 
    1476210108130195000000000; 3727215008878210000000000; 1476210108130195000000000; 3727215008878210000000000; 4691373442926859000000000; 
    4691373442926859000000000; 2881077012617455000000000; 6852432765000537000000000; 62411504342539000000000; 62411504342539000000000; 
    6852432765000537000000000; 2881077012617455000000000; 2881077012617455000000000; 6852432765000537000000000; 62411504342539000000000; 
    62411504342539000000000; 6852432765000537000000000; 2881077012617455000000000; 204078718039469000000000; 204078718039469000000000; 
    204078718039469000000000; 204078718039469000000000; 204078718039469000000000; 204078718039469000000000; 6852432765000537000000000; 
    2881077012617455000000000; 6852432765000537000000000; 2881077012617455000000000; 62411504342539000000000; 62411504342539000000000; 
    84836770304887000000000; 6529603551870550000000000; 2548571009364550000000000; 2548571009364550000000000; 6529603551870550000000000; 
    84836770304887000000000; 84836770304887000000000; 6529603551870550000000000; 2548571009364550000000000; 2548571009364550000000000; 
    6529603551870550000000000; 84836770304887000000000; 836988668460014000000000; 836988668460014000000000; 836988668460014000000000; 
    836988668460014000000000; 836988668460014000000000; 836988668460014000000000; 6529603551870550000000000; 84836770304887000000000; 
    6529603551870550000000000; 84836770304887000000000; 2548571009364550000000000; 2548571009364550000000000; 1193128036212033000000000; 
    3224332256857841000000000; 5081225906571617000000000; 5081225906571617000000000; 3224332256857841000000000; 1193128036212033000000000; 
    1193128036212033000000000; 3224332256857841000000000; 5081225906571617000000000; 5081225906571617000000000; 3224332256857841000000000; 
    1193128036212033000000000; 501313800358508000000000; 501313800358508000000000; 501313800358508000000000; 501313800358508000000000; 
    501313800358508000000000; 501313800358508000000000; 3224332256857841000000000; 1193128036212033000000000; 3224332256857841000000000; 
    1193128036212033000000000; 5081225906571617000000000; 5081225906571617000000000; 4198369201417426000000000; 2537102331108258000000000; 
    109499610637902000000000; 109499610637902000000000; 2537102331108258000000000; 4198369201417426000000000; 4198369201417426000000000; 
    2537102331108258000000000; 109499610637902000000000; 109499610637902000000000; 2537102331108258000000000; 4198369201417426000000000; 
    3155028856836414000000000; 3155028856836414000000000; 3155028856836414000000000; 3155028856836414000000000; 3155028856836414000000000; 
    3155028856836414000000000; 2537102331108258000000000; 4198369201417426000000000; 2537102331108258000000000; 4198369201417426000000000; 
    109499610637902000000000; 109499610637902000000000];
   [2500000000000000000000000; 962334679417012000000000; 962334679417012000000000; 962334679417012000000000; 7112995961748966000000000; 
    2840710971185555000000000; 2840710971185555000000000; 2840710971185555000000000; 1477867086443335000000000; 420121804976231000000000; 
    420121804976231000000000; 420121804976231000000000; 8739634585071308000000000; 1293925012179526000000000; 1293925012179526000000000; 
    1293925012179526000000000; 3706074987820475000000000; 3706074987820475000000000; 3706074987820475000000000; 533931212533031000000000; 
    533931212533031000000000; 7679699947393867000000000; 533931212533031000000000; 533931212533031000000000; 7679699947393867000000000; 
    533931212533031000000000; 533931212533031000000000; 7679699947393867000000000; 1252437627540072000000000; 1252437627540072000000000; 
    1252437627540072000000000; 52505539069196000000000; 52505539069196000000000; 1660339253205299000000000; 52505539069196000000000; 
    52505539069196000000000; 1660339253205299000000000; 52505539069196000000000; 52505539069196000000000; 1660339253205299000000000; 
    8234649668656309000000000; 8234649668656309000000000; 8234649668656309000000000; 2128993323694659000000000; 2128993323694659000000000; 
    1034045995093328000000000; 2128993323694659000000000; 2128993323694659000000000; 1034045995093328000000000; 2128993323694659000000000; 
    2128993323694659000000000; 1034045995093328000000000; 4707967357517354000000000; 4707967357517354000000000; 4707967357517354000000000; 
    4034135325977229000000000; 4034135325977229000000000; 1333356346432022000000000; 4034135325977229000000000; 4034135325977229000000000; 
    1333356346432022000000000; 4034135325977229000000000; 4034135325977229000000000; 1333356346432022000000000; 598373001613519000000000; 
    598373001613519000000000; 598373001613519000000000; 118881193081127000000000; 118881193081127000000000; 5532379678070896000000000; 
    118881193081127000000000; 118881193081127000000000; 5532379678070896000000000; 118881193081127000000000; 118881193081127000000000; 
    5532379678070896000000000; 4229857935766850000000000; 4229857935766850000000000; 4229857935766850000000000; 890311655120663000000000; 
    890311655120663000000000; 8080695151909102000000000; 890311655120663000000000; 890311655120663000000000; 8080695151909102000000000; 
    890311655120663000000000; 890311655120663000000000; 8080695151909102000000000; 138681537849572000000000; 138681537849572000000000; 
    138681537849572000000000; 515167869589916000000000; 515167869589916000000000; 4873280365294901000000000; 515167869589916000000000; 
    515167869589916000000000; 4873280365294901000000000; 515167869589916000000000; 515167869589916000000000; 4873280365294901000000000; 
    4096383895525266000000000; 4096383895525266000000000; 4096383895525266000000000; 1179992852297671000000000; 1179992852297671000000000; 
    2466149943644083000000000; 1179992852297671000000000; 1179992852297671000000000; 2466149943644083000000000; 1179992852297671000000000; 
    1179992852297671000000000; 2466149943644083000000000; 5173864351760575000000000; 5173864351760575000000000; 5173864351760575000000000; 
    460851233492859000000000; 460851233492859000000000; 2781414318856127000000000; 460851233492859000000000; 460851233492859000000000; 
    2781414318856127000000000; 460851233492859000000000; 460851233492859000000000; 2781414318856127000000000; 6296883214158154000000000; 
    6296883214158154000000000; 6296883214158154000000000; 1410186708097898000000000; 1410186708097898000000000; 81746499483895000000000; 
    1410186708097898000000000; 1410186708097898000000000; 81746499483895000000000; 1410186708097898000000000; 1410186708097898000000000; 
    81746499483895000000000; 7097880084320309000000000; 7097880084320309000000000; 7097880084320309000000000; 1411034408699267000000000; 
    1411034408699267000000000; 5855868767598970000000000; 1411034408699267000000000; 1411034408699267000000000; 5855868767598970000000000; 
    1411034408699267000000000; 1411034408699267000000000; 5855868767598970000000000; 1322062415002498000000000; 1322062415002498000000000; 
    1322062415002498000000000; 79118622048211000000000; 79118622048211000000000; 303588380906194000000000; 79118622048211000000000; 
    79118622048211000000000; 303588380906194000000000; 79118622048211000000000; 79118622048211000000000; 303588380906194000000000; 
    9538174374997385000000000; 9538174374997385000000000; 9538174374997385000000000; 1761012114703174000000000; 1761012114703174000000000; 
    2461239587816849000000000; 1761012114703174000000000; 1761012114703174000000000; 2461239587816849000000000; 1761012114703174000000000; 
    1761012114703174000000000; 2461239587816849000000000; 4016736182776802000000000; 4016736182776802000000000; 4016736182776802000000000; 
    1736495090943957000000000; 453113744152098000000000; 1736495090943957000000000; 453113744152098000000000; 7694124041149815000000000; 
    7694124041149815000000000; 1736495090943957000000000; 453113744152098000000000; 1736495090943957000000000; 453113744152098000000000; 
    7694124041149815000000000; 7694124041149815000000000; 1736495090943957000000000; 453113744152098000000000; 1736495090943957000000000; 
    453113744152098000000000; 7694124041149815000000000; 7694124041149815000000000; 116267123754130000000000; 116267123754130000000000; 
    116267123754130000000000; 116267123754130000000000; 116267123754130000000000; 116267123754130000000000; 6467333246419940000000000; 
    1902469770309511000000000; 6467333246419940000000000; 1902469770309511000000000; 1139907343389768000000000; 1139907343389768000000000; 
    6467333246419940000000000; 1902469770309511000000000; 6467333246419940000000000; 1902469770309511000000000; 1139907343389768000000000; 
    1139907343389768000000000; 6467333246419940000000000; 1902469770309511000000000; 6467333246419940000000000; 1902469770309511000000000; 
    1139907343389768000000000; 1139907343389768000000000; 490289639880780000000000; 490289639880780000000000; 490289639880780000000000; 
    490289639880780000000000; 490289639880780000000000; 490289639880780000000000; 2408858063990418000000000; 2025882107314621000000000; 
    2408858063990418000000000; 2025882107314621000000000; 5045224197189542000000000; 5045224197189542000000000; 2408858063990418000000000; 
    2025882107314621000000000; 2408858063990418000000000; 2025882107314621000000000; 5045224197189542000000000; 5045224197189542000000000; 
    2408858063990418000000000; 2025882107314621000000000; 2408858063990418000000000; 2025882107314621000000000; 5045224197189542000000000; 
    5045224197189542000000000; 520035631505419000000000; 520035631505419000000000; 520035631505419000000000; 520035631505419000000000; 
    520035631505419000000000; 520035631505419000000000; 5376101656245691000000000; 628045986545770000000000; 5376101656245691000000000; 
    628045986545770000000000; 3899342137938394000000000; 3899342137938394000000000; 5376101656245691000000000; 628045986545770000000000; 
    5376101656245691000000000; 628045986545770000000000; 3899342137938394000000000; 3899342137938394000000000; 5376101656245691000000000; 
    628045986545770000000000; 5376101656245691000000000; 628045986545770000000000; 3899342137938394000000000; 3899342137938394000000000; 
    96510219270146000000000; 96510219270146000000000; 96510219270146000000000; 96510219270146000000000; 96510219270146000000000; 96510219270146000000000; 
    5666194853322549000000000; 1689034611068301000000000; 5666194853322549000000000; 1689034611068301000000000; 102510197711691000000000; 
    102510197711691000000000; 5666194853322549000000000; 1689034611068301000000000; 5666194853322549000000000; 1689034611068301000000000; 
    102510197711691000000000; 102510197711691000000000; 5666194853322549000000000; 1689034611068301000000000; 5666194853322549000000000; 
    1689034611068301000000000; 102510197711691000000000; 102510197711691000000000; 2542260337897459000000000; 2542260337897459000000000; 
    2542260337897459000000000; 2542260337897459000000000; 2542260337897459000000000; 2542260337897459000000000; 2176247037611105000000000; 
    1282802298826546000000000; 2176247037611105000000000; 1282802298826546000000000; 3714709314621824000000000; 3714709314621824000000000; 
    2176247037611105000000000; 1282802298826546000000000; 2176247037611105000000000; 1282802298826546000000000; 3714709314621824000000000; 
    3714709314621824000000000; 2176247037611105000000000; 1282802298826546000000000; 2176247037611105000000000; 1282802298826546000000000; 
    3714709314621824000000000; 3714709314621824000000000; 2826241348940526000000000; 2826241348940526000000000; 2826241348940526000000000; 
    2826241348940526000000000; 2826241348940526000000000; 2826241348940526000000000; 3358240006032013000000000; 3753164302248334000000000; 
    3358240006032013000000000; 3753164302248334000000000; 2323738231259893000000000; 2323738231259893000000000; 3358240006032013000000000; 
    3753164302248334000000000; 3358240006032013000000000; 3753164302248334000000000; 2323738231259893000000000; 2323738231259893000000000; 
    3358240006032013000000000; 3753164302248334000000000; 3358240006032013000000000; 3753164302248334000000000; 2323738231259893000000000; 
    2323738231259893000000000; 564857460459761000000000; 564857460459761000000000; 564857460459761000000000; 564857460459761000000000; 
    564857460459761000000000; 564857460459761000000000; 59682218345955000000000; 817663469329853000000000; 59682218345955000000000; 
    817663469329853000000000; 282332391047721000000000; 282332391047721000000000; 59682218345955000000000; 817663469329853000000000; 
    59682218345955000000000; 817663469329853000000000; 282332391047721000000000; 282332391047721000000000; 59682218345955000000000; 
    817663469329853000000000; 59682218345955000000000; 817663469329853000000000; 282332391047721000000000; 282332391047721000000000; 
    8840321921276470000000000; 8840321921276470000000000; 8840321921276470000000000; 8840321921276470000000000; 8840321921276470000000000; 
    8840321921276470000000000; 1476210108130195000000000; 3727215008878210000000000; 1476210108130195000000000; 3727215008878210000000000; 
    4691373442926859000000000; 4691373442926859000000000; 1476210108130195000000000; 3727215008878210000000000; 1476210108130195000000000; 
    3727215008878210000000000; 4691373442926859000000000; 4691373442926859000000000; 1476210108130195000000000; 3727215008878210000000000; 
    1476210108130195000000000; 3727215008878210000000000; 4691373442926859000000000; 4691373442926859000000000; 105201440064736000000000; 
    105201440064736000000000; 105201440064736000000000; 105201440064736000000000; 105201440064736000000000; 105201440064736000000000; 
    6852432765000537000000000; 2881077012617455000000000; 6852432765000537000000000; 2881077012617455000000000; 62411504342539000000000; 
    62411504342539000000000; 6852432765000537000000000; 2881077012617455000000000; 6852432765000537000000000; 2881077012617455000000000; 
    62411504342539000000000; 62411504342539000000000; 6852432765000537000000000; 2881077012617455000000000; 6852432765000537000000000; 
    2881077012617455000000000; 62411504342539000000000; 62411504342539000000000; 204078718039469000000000; 204078718039469000000000; 
    204078718039469000000000; 204078718039469000000000; 204078718039469000000000; 204078718039469000000000; 6529603551870550000000000; 
    84836770304887000000000; 6529603551870550000000000; 84836770304887000000000; 2548571009364550000000000; 2548571009364550000000000; 
    6529603551870550000000000; 84836770304887000000000; 6529603551870550000000000; 84836770304887000000000; 2548571009364550000000000; 
    2548571009364550000000000; 6529603551870550000000000; 84836770304887000000000; 6529603551870550000000000; 84836770304887000000000; 
    2548571009364550000000000; 2548571009364550000000000; 836988668460014000000000; 836988668460014000000000; 836988668460014000000000; 
    836988668460014000000000; 836988668460014000000000; 836988668460014000000000; 3224332256857841000000000; 1193128036212033000000000; 
    3224332256857841000000000; 1193128036212033000000000; 5081225906571617000000000; 5081225906571617000000000; 3224332256857841000000000; 
    1193128036212033000000000; 3224332256857841000000000; 1193128036212033000000000; 5081225906571617000000000; 5081225906571617000000000; 
    3224332256857841000000000; 1193128036212033000000000; 3224332256857841000000000; 1193128036212033000000000; 5081225906571617000000000; 
    5081225906571617000000000; 501313800358508000000000; 501313800358508000000000; 501313800358508000000000; 501313800358508000000000; 
    501313800358508000000000; 501313800358508000000000; 2537102331108258000000000; 4198369201417426000000000; 2537102331108258000000000; 
    4198369201417426000000000; 109499610637902000000000; 109499610637902000000000; 2537102331108258000000000; 4198369201417426000000000; 
    2537102331108258000000000; 4198369201417426000000000; 109499610637902000000000; 109499610637902000000000; 2537102331108258000000000; 
    4198369201417426000000000; 2537102331108258000000000; 4198369201417426000000000; 109499610637902000000000; 109499610637902000000000; 
    3155028856836414000000000; 3155028856836414000000000; 3155028856836414000000000; 3155028856836414000000000; 3155028856836414000000000; 
    3155028856836414000000000]],
   [9477424964421600000; 2309652046579000000; 2309652046579000000; 2309652046579000000; 2309652046579000000; 4091492762240700000; 4091492762240700000; 
    4091492762240700000; 4091492762240700000; 1173654667448300000; 1173654667448300000; 1173654667448300000; 1173654667448300000; 5797759302818700000; 
    5797759302818700000; 5797759302818700000; 5797759302818700000; 5797759302818700000; 5797759302818700000; 2028992639106900000; 2028992639106900000; 
    2028992639106900000; 2028992639106900000; 2028992639106900000; 2028992639106900000; 2028992639106900000; 2028992639106900000; 2028992639106900000; 
    2028992639106900000; 2028992639106900000; 2028992639106900000; 200585848510600000; 200585848510600000; 200585848510600000; 200585848510600000; 
    200585848510600000; 200585848510600000; 200585848510600000; 200585848510600000; 200585848510600000; 200585848510600000; 200585848510600000; 
    200585848510600000; 2908059972456900000; 2908059972456900000; 2908059972456900000; 2908059972456900000; 2908059972456900000; 2908059972456900000; 
    2908059972456900000; 2908059972456900000; 2908059972456900000; 2908059972456900000; 2908059972456900000; 2908059972456900000; 2532078463287100000; 
    2532078463287100000; 2532078463287100000; 2532078463287100000; 2532078463287100000; 2532078463287100000; 2532078463287100000; 2532078463287100000; 
    2532078463287100000; 2532078463287100000; 2532078463287100000; 2532078463287100000; 734369573631600000; 734369573631600000; 734369573631600000; 
    734369573631600000; 734369573631600000; 734369573631600000; 734369573631600000; 734369573631600000; 734369573631600000; 734369573631600000; 
    734369573631600000; 734369573631600000; 1076183574539400000; 1076183574539400000; 1076183574539400000; 1076183574539400000; 1076183574539400000; 
    1076183574539400000; 1076183574539400000; 1076183574539400000; 1076183574539400000; 1076183574539400000; 1076183574539400000; 1076183574539400000; 
    1986415677131500000; 1986415677131500000; 1986415677131500000; 1986415677131500000; 1986415677131500000; 1986415677131500000; 1986415677131500000; 
    1986415677131500000; 1986415677131500000; 1986415677131500000; 1986415677131500000; 1986415677131500000; 5046317364293900000; 5046317364293900000; 
    5046317364293900000; 5046317364293900000; 5046317364293900000; 5046317364293900000; 5046317364293900000; 5046317364293900000; 5046317364293900000; 
    5046317364293900000; 5046317364293900000; 5046317364293900000; 2692282460531100000; 2692282460531100000; 2692282460531100000; 2692282460531100000; 
    2692282460531100000; 2692282460531100000; 2692282460531100000; 2692282460531100000; 2692282460531100000; 2692282460531100000; 2692282460531100000; 
    2692282460531100000; 1330636288503800000; 1330636288503800000; 1330636288503800000; 1330636288503800000; 1330636288503800000; 1330636288503800000; 
    1330636288503800000; 1330636288503800000; 1330636288503800000; 1330636288503800000; 1330636288503800000; 1330636288503800000; 1782928900852900000; 
    1782928900852900000; 1782928900852900000; 1782928900852900000; 1782928900852900000; 1782928900852900000; 1782928900852900000; 1782928900852900000; 
    1782928900852900000; 1782928900852900000; 1782928900852900000; 1782928900852900000; 126301582618400000; 126301582618400000; 126301582618400000; 
    126301582618400000; 126301582618400000; 126301582618400000; 126301582618400000; 126301582618400000; 126301582618400000; 126301582618400000; 
    126301582618400000; 126301582618400000; 3244260943819200000; 3244260943819200000; 3244260943819200000; 3244260943819200000; 3244260943819200000; 
    3244260943819200000; 3244260943819200000; 3244260943819200000; 3244260943819200000; 3244260943819200000; 3244260943819200000; 3244260943819200000; 
    1048498185712500000; 1048498185712500000; 1048498185712500000; 1048498185712500000; 1048498185712500000; 1048498185712500000; 1048498185712500000; 
    1048498185712500000; 1048498185712500000; 1048498185712500000; 1048498185712500000; 1048498185712500000; 1048498185712500000; 1048498185712500000; 
    1048498185712500000; 1048498185712500000; 1048498185712500000; 1048498185712500000; 1048498185712500000; 1048498185712500000; 1048498185712500000; 
    1048498185712500000; 1048498185712500000; 1048498185712500000; 3605740745734600000; 3605740745734600000; 3605740745734600000; 3605740745734600000; 
    3605740745734600000; 3605740745734600000; 3605740745734600000; 3605740745734600000; 3605740745734600000; 3605740745734600000; 3605740745734600000; 
    3605740745734600000; 3605740745734600000; 3605740745734600000; 3605740745734600000; 3605740745734600000; 3605740745734600000; 3605740745734600000; 
    3605740745734600000; 3605740745734600000; 3605740745734600000; 3605740745734600000; 3605740745734600000; 3605740745734600000; 2561558407869800000; 
    2561558407869800000; 2561558407869800000; 2561558407869800000; 2561558407869800000; 2561558407869800000; 2561558407869800000; 2561558407869800000; 
    2561558407869800000; 2561558407869800000; 2561558407869800000; 2561558407869800000; 2561558407869800000; 2561558407869800000; 2561558407869800000; 
    2561558407869800000; 2561558407869800000; 2561558407869800000; 2561558407869800000; 2561558407869800000; 2561558407869800000; 2561558407869800000; 
    2561558407869800000; 2561558407869800000; 1498918467834400000; 1498918467834400000; 1498918467834400000; 1498918467834400000; 1498918467834400000; 
    1498918467834400000; 1498918467834400000; 1498918467834400000; 1498918467834400000; 1498918467834400000; 1498918467834400000; 1498918467834400000; 
    1498918467834400000; 1498918467834400000; 1498918467834400000; 1498918467834400000; 1498918467834400000; 1498918467834400000; 1498918467834400000; 
    1498918467834400000; 1498918467834400000; 1498918467834400000; 1498918467834400000; 1498918467834400000; 1814324572327500000; 1814324572327500000; 
    1814324572327500000; 1814324572327500000; 1814324572327500000; 1814324572327500000; 1814324572327500000; 1814324572327500000; 1814324572327500000; 
    1814324572327500000; 1814324572327500000; 1814324572327500000; 1814324572327500000; 1814324572327500000; 1814324572327500000; 1814324572327500000; 
    1814324572327500000; 1814324572327500000; 1814324572327500000; 1814324572327500000; 1814324572327500000; 1814324572327500000; 1814324572327500000; 
    1814324572327500000; 2883938073996200000; 2883938073996200000; 2883938073996200000; 2883938073996200000; 2883938073996200000; 2883938073996200000; 
    2883938073996200000; 2883938073996200000; 2883938073996200000; 2883938073996200000; 2883938073996200000; 2883938073996200000; 2883938073996200000; 
    2883938073996200000; 2883938073996200000; 2883938073996200000; 2883938073996200000; 2883938073996200000; 2883938073996200000; 2883938073996200000; 
    2883938073996200000; 2883938073996200000; 2883938073996200000; 2883938073996200000; 3191411305221300000; 3191411305221300000; 3191411305221300000; 
    3191411305221300000; 3191411305221300000; 3191411305221300000; 3191411305221300000; 3191411305221300000; 3191411305221300000; 3191411305221300000; 
    3191411305221300000; 3191411305221300000; 3191411305221300000; 3191411305221300000; 3191411305221300000; 3191411305221300000; 3191411305221300000; 
    3191411305221300000; 3191411305221300000; 3191411305221300000; 3191411305221300000; 3191411305221300000; 3191411305221300000; 3191411305221300000; 
    395528233698700000; 395528233698700000; 395528233698700000; 395528233698700000; 395528233698700000; 395528233698700000; 395528233698700000; 
    395528233698700000; 395528233698700000; 395528233698700000; 395528233698700000; 395528233698700000; 395528233698700000; 395528233698700000; 
    395528233698700000; 395528233698700000; 395528233698700000; 395528233698700000; 395528233698700000; 395528233698700000; 395528233698700000; 
    395528233698700000; 395528233698700000; 395528233698700000; 1642211231915800000; 1642211231915800000; 1642211231915800000; 1642211231915800000; 
    1642211231915800000; 1642211231915800000; 1642211231915800000; 1642211231915800000; 1642211231915800000; 1642211231915800000; 1642211231915800000; 
    1642211231915800000; 1642211231915800000; 1642211231915800000; 1642211231915800000; 1642211231915800000; 1642211231915800000; 1642211231915800000; 
    1642211231915800000; 1642211231915800000; 1642211231915800000; 1642211231915800000; 1642211231915800000; 1642211231915800000; 464092089746000000; 
    464092089746000000; 464092089746000000; 464092089746000000; 464092089746000000; 464092089746000000; 464092089746000000; 464092089746000000; 
    464092089746000000; 464092089746000000; 464092089746000000; 464092089746000000; 464092089746000000; 464092089746000000; 464092089746000000; 
    464092089746000000; 464092089746000000; 464092089746000000; 464092089746000000; 464092089746000000; 464092089746000000; 464092089746000000; 
    464092089746000000; 464092089746000000; 1210865339994000000; 1210865339994000000; 1210865339994000000; 1210865339994000000; 1210865339994000000; 
    1210865339994000000; 1210865339994000000; 1210865339994000000; 1210865339994000000; 1210865339994000000; 1210865339994000000; 1210865339994000000; 
    1210865339994000000; 1210865339994000000; 1210865339994000000; 1210865339994000000; 1210865339994000000; 1210865339994000000; 1210865339994000000; 
    1210865339994000000; 1210865339994000000; 1210865339994000000; 1210865339994000000; 1210865339994000000; 3653283017278100000; 3653283017278100000; 
    3653283017278100000; 3653283017278100000; 3653283017278100000; 3653283017278100000; 3653283017278100000; 3653283017278100000; 3653283017278100000; 
    3653283017278100000; 3653283017278100000; 3653283017278100000; 3653283017278100000; 3653283017278100000; 3653283017278100000; 3653283017278100000; 
    3653283017278100000; 3653283017278100000; 3653283017278100000; 3653283017278100000; 3653283017278100000; 3653283017278100000; 3653283017278100000; 
    3653283017278100000; 1744791238762600000; 1744791238762600000; 1744791238762600000; 1744791238762600000; 1744791238762600000; 1744791238762600000; 
    1744791238762600000; 1744791238762600000; 1744791238762600000; 1744791238762600000; 1744791238762600000; 1744791238762600000; 1744791238762600000; 
    1744791238762600000; 1744791238762600000; 1744791238762600000; 1744791238762600000; 1744791238762600000; 1744791238762600000; 1744791238762600000; 
    1744791238762600000; 1744791238762600000; 1744791238762600000; 1744791238762600000], 19%nat).
(** jaskowiec_sukumar_tet_data.py:11442-13662 *)
Definition js_tet_data_19 : list (list Z) * list Z * nat :=
  ([[2967759596934131000000000; 1096721209197606000000000; 2967759596934131000000000; 2967759596934131000000000; 1209047972112185000000000; 
    6372856083663444000000000; 1209047972112185000000000; 1209047972112185000000000; 3177959071881044000000000; 466122784356867000000000; 
    3177959071881044000000000; 3177959071881044000000000; 2012655712414790000000000; 3962032862755631000000000; 2012655712414790000000000; 
    2012655712414790000000000; 1678838969272885000000000; 4963483092181346000000000; 1678838969272885000000000; 1678838969272885000000000; 
    362149396096895000000000; 8913551811709316000000000; 362149396096895000000000; 362149396096895000000000; 4473975503825162000000000; 
    526024496174838000000000; 4473975503825162000000000; 526024496174838000000000; 4473975503825162000000000; 526024496174838000000000; 
    1954214436686958000000000; 3045785563313042000000000; 1954214436686958000000000; 3045785563313042000000000; 1954214436686958000000000; 
    3045785563313042000000000; 8181532733687802000000000; 322823054983952000000000; 322823054983952000000000; 1172821156344295000000000; 
    1172821156344295000000000; 1172821156344295000000000; 322823054983952000000000; 8181532733687802000000000; 322823054983952000000000; 
    322823054983952000000000; 8181532733687802000000000; 322823054983952000000000; 1671963931828212000000000; 81265144705196000000000; 
    81265144705196000000000; 8165505778761395000000000; 8165505778761395000000000; 8165505778761395000000000; 81265144705196000000000; 
    1671963931828212000000000; 81265144705196000000000; 81265144705196000000000; 1671963931828212000000000; 81265144705196000000000; 
    661101187666243000000000; 1851459522994347000000000; 1851459522994347000000000; 5635979766345063000000000; 5635979766345063000000000; 
    5635979766345063000000000; 1851459522994347000000000; 661101187666243000000000; 1851459522994347000000000; 1851459522994347000000000; 
    661101187666243000000000; 1851459522994347000000000; 1281831845252744000000000; 4110775382017770000000000; 4110775382017770000000000; 
    496617390711716000000000; 496617390711716000000000; 496617390711716000000000; 4110775382017770000000000; 1281831845252744000000000; 
    4110775382017770000000000; 4110775382017770000000000; 1281831845252744000000000; 4110775382017770000000000; 5566366248307155000000000; 
    100597974068545000000000; 100597974068545000000000; 4232437803555756000000000; 4232437803555756000000000; 4232437803555756000000000; 
    100597974068545000000000; 5566366248307155000000000; 100597974068545000000000; 100597974068545000000000; 5566366248307155000000000; 
    100597974068545000000000; 8242515811428504000000000; 823016150372359000000000; 823016150372359000000000; 111451887826779000000000; 
    111451887826779000000000; 111451887826779000000000; 823016150372359000000000; 8242515811428504000000000; 823016150372359000000000; 
    823016150372359000000000; 8242515811428504000000000; 823016150372359000000000; 6072922714391159000000000; 380128286026647000000000; 
    380128286026647000000000; 3166820713555548000000000; 3166820713555548000000000; 3166820713555548000000000; 380128286026647000000000; 
    6072922714391159000000000; 380128286026647000000000; 380128286026647000000000; 6072922714391159000000000; 380128286026647000000000; 
    1927591204214162000000000; 829781690579476000000000; 829781690579476000000000; 6412845414626887000000000; 6412845414626887000000000; 
    6412845414626887000000000; 829781690579476000000000; 1927591204214162000000000; 829781690579476000000000; 829781690579476000000000; 
    1927591204214162000000000; 829781690579476000000000; 2290899793113822000000000; 323283014904537000000000; 323283014904537000000000; 
    7062534177077103000000000; 7062534177077103000000000; 7062534177077103000000000; 323283014904537000000000; 2290899793113822000000000; 
    323283014904537000000000; 323283014904537000000000; 2290899793113822000000000; 323283014904537000000000; 40624591785854000000000; 
    1406521940177762000000000; 1406521940177762000000000; 7146331527858621000000000; 7146331527858621000000000; 7146331527858621000000000; 
    1406521940177762000000000; 40624591785854000000000; 1406521940177762000000000; 1406521940177762000000000; 40624591785854000000000; 
    1406521940177762000000000; 5168656572693773000000000; 1139719439112915000000000; 1139719439112915000000000; 2551904549080398000000000; 
    2551904549080398000000000; 2551904549080398000000000; 1139719439112915000000000; 5168656572693773000000000; 1139719439112915000000000; 
    1139719439112915000000000; 5168656572693773000000000; 1139719439112915000000000; 251785631681119000000000; 74535713771749000000000; 
    74535713771749000000000; 9599142940775384000000000; 9599142940775384000000000; 9599142940775384000000000; 74535713771749000000000; 
    251785631681119000000000; 74535713771749000000000; 74535713771749000000000; 251785631681119000000000; 74535713771749000000000; 
    3907070674791312000000000; 1110171267302689000000000; 1110171267302689000000000; 3872586790603310000000000; 3872586790603310000000000; 
    3872586790603310000000000; 1110171267302689000000000; 3907070674791312000000000; 1110171267302689000000000; 1110171267302689000000000; 
    3907070674791312000000000; 1110171267302689000000000; 5333767142737392000000000; 5333767142737392000000000; 531381050391377000000000; 
    4037166880195431000000000; 531381050391377000000000; 4037166880195431000000000; 97684926675800000000000; 97684926675800000000000; 
    97684926675800000000000; 97684926675800000000000; 97684926675800000000000; 97684926675800000000000; 531381050391377000000000; 
    4037166880195431000000000; 5333767142737392000000000; 5333767142737392000000000; 4037166880195431000000000; 531381050391377000000000; 
    531381050391377000000000; 4037166880195431000000000; 5333767142737392000000000; 5333767142737392000000000; 4037166880195431000000000; 
    531381050391377000000000; 945051714627574000000000; 945051714627574000000000; 943920742872811000000000; 501546618875249000000000; 
    943920742872811000000000; 501546618875249000000000; 7609480923624367000000000; 7609480923624367000000000; 7609480923624367000000000; 
    7609480923624367000000000; 7609480923624367000000000; 7609480923624367000000000; 943920742872811000000000; 501546618875249000000000; 
    945051714627574000000000; 945051714627574000000000; 501546618875249000000000; 943920742872811000000000; 943920742872811000000000; 
    501546618875249000000000; 945051714627574000000000; 945051714627574000000000; 501546618875249000000000; 943920742872811000000000; 
    7653955692270024000000000; 7653955692270024000000000; 550544516427296000000000; 1738892311826489000000000; 550544516427296000000000; 
    1738892311826489000000000; 56607479476192000000000; 56607479476192000000000; 56607479476192000000000; 56607479476192000000000; 
    56607479476192000000000; 56607479476192000000000; 550544516427296000000000; 1738892311826489000000000; 7653955692270024000000000; 
    7653955692270024000000000; 1738892311826489000000000; 550544516427296000000000; 550544516427296000000000; 1738892311826489000000000; 
    7653955692270024000000000; 7653955692270024000000000; 1738892311826489000000000; 550544516427296000000000; 975172038222044000000000; 
    975172038222044000000000; 1798637301234305000000000; 6879571952789530000000000; 1798637301234305000000000; 6879571952789530000000000; 
    346618707754121000000000; 346618707754121000000000; 346618707754121000000000; 346618707754121000000000; 346618707754121000000000; 
    346618707754121000000000; 1798637301234305000000000; 6879571952789530000000000; 975172038222044000000000; 975172038222044000000000; 
    6879571952789530000000000; 1798637301234305000000000; 1798637301234305000000000; 6879571952789530000000000; 975172038222044000000000; 
    975172038222044000000000; 6879571952789530000000000; 1798637301234305000000000; 4095036586170944000000000; 4095036586170944000000000; 
    2121920547752147000000000; 3321735025035050000000000; 2121920547752147000000000; 3321735025035050000000000; 461307841041859000000000; 
    461307841041859000000000; 461307841041859000000000; 461307841041859000000000; 461307841041859000000000; 461307841041859000000000; 
    2121920547752147000000000; 3321735025035050000000000; 4095036586170944000000000; 4095036586170944000000000; 3321735025035050000000000; 
    2121920547752147000000000; 2121920547752147000000000; 3321735025035050000000000; 4095036586170944000000000; 4095036586170944000000000; 
    3321735025035050000000000; 2121920547752147000000000; 4765557207500070000000000; 4765557207500070000000000; 1290161512351960000000000; 
    3844720976410142000000000; 1290161512351960000000000; 3844720976410142000000000; 99560303737828000000000; 99560303737828000000000; 
    99560303737828000000000; 99560303737828000000000; 99560303737828000000000; 99560303737828000000000; 1290161512351960000000000; 
    3844720976410142000000000; 4765557207500070000000000; 4765557207500070000000000; 3844720976410142000000000; 1290161512351960000000000; 
    1290161512351960000000000; 3844720976410142000000000; 4765557207500070000000000; 4765557207500070000000000; 3844720976410142000000000; 
    1290161512351960000000000; 137608474867702000000000; 137608474867702000000000; 1614873223066114000000000; 5982705108010641000000000; 
    1614873223066114000000000; 5982705108010641000000000; 2264813194055542000000000; 2264813194055542000000000; 2264813194055542000000000; 
    2264813194055542000000000; 2264813194055542000000000; 2264813194055542000000000; 1614873223066114000000000; 5982705108010641000000000; 
    137608474867702000000000; 137608474867702000000000; 5982705108010641000000000; 1614873223066114000000000; 1614873223066114000000000; 
    5982705108010641000000000; 137608474867702000000000; 137608474867702000000000; 5982705108010641000000000; 1614873223066114000000000; 
    4143500741402470000000000; 4143500741402470000000000; 1059283078939860000000000; 2853013762463641000000000; 1059283078939860000000000; 
    2853013762463641000000000; 1944202417194029000000000; 1944202417194029000000000; 1944202417194029000000000; 1944202417194029000000000; 
    1944202417194029000000000; 1944202417194029000000000; 1059283078939860000000000; 2853013762463641000000000; 4143500741402470000000000; 
    4143500741402470000000000; 2853013762463641000000000; 1059283078939860000000000; 1059283078939860000000000; 2853013762463641000000000; 
    4143500741402470000000000; 4143500741402470000000000; 2853013762463641000000000; 1059283078939860000000000; 2864083155254953000000000; 
    2864083155254953000000000; 2046229328456809000000000; 4728908103942965000000000; 2046229328456809000000000; 4728908103942965000000000; 
    360779412345273000000000; 360779412345273000000000; 360779412345273000000000; 360779412345273000000000; 360779412345273000000000; 
    360779412345273000000000; 2046229328456809000000000; 4728908103942965000000000; 2864083155254953000000000; 2864083155254953000000000; 
    4728908103942965000000000; 2046229328456809000000000; 2046229328456809000000000; 4728908103942965000000000; 2864083155254953000000000; 
    2864083155254953000000000; 4728908103942965000000000; 2046229328456809000000000; 236158323301530000000000; 236158323301530000000000; 
    744179686987702000000000; 24421697078358000000000; 744179686987702000000000; 24421697078358000000000; 8995240292632410000000000; 
    8995240292632410000000000; 8995240292632410000000000; 8995240292632410000000000; 8995240292632410000000000; 8995240292632410000000000; 
    744179686987702000000000; 24421697078358000000000; 236158323301530000000000; 236158323301530000000000; 24421697078358000000000; 
    744179686987702000000000; 744179686987702000000000; 24421697078358000000000; 236158323301530000000000; 236158323301530000000000; 
    24421697078358000000000; 744179686987702000000000; 5078745759286403000000000; 5078745759286403000000000; 2938352359686784000000000; 
    1939104157388909000000000; 2938352359686784000000000; 1939104157388909000000000; 43797723637903000000000; 43797723637903000000000; 
    43797723637903000000000; 43797723637903000000000; 43797723637903000000000; 43797723637903000000000; 2938352359686784000000000; 
    1939104157388909000000000; 5078745759286403000000000; 5078745759286403000000000; 1939104157388909000000000; 2938352359686784000000000; 
    2938352359686784000000000; 1939104157388909000000000; 5078745759286403000000000; 5078745759286403000000000; 1939104157388909000000000; 
    2938352359686784000000000; 23886149405118000000000; 23886149405118000000000; 2899004919931303000000000; 6867525446175153000000000; 
    2899004919931303000000000; 6867525446175153000000000; 209583484488425000000000; 209583484488425000000000; 209583484488425000000000; 
    209583484488425000000000; 209583484488425000000000; 209583484488425000000000; 2899004919931303000000000; 6867525446175153000000000; 
    23886149405118000000000; 23886149405118000000000; 6867525446175153000000000; 2899004919931303000000000; 2899004919931303000000000; 
    6867525446175153000000000; 23886149405118000000000; 23886149405118000000000; 6867525446175153000000000; 2899004919931303000000000; 
    2780090233488638000000000; 2780090233488638000000000; 69203955276090000000000; 6284083367674260000000000; 69203955276090000000000; 
    6284083367674260000000000; 866622443561012000000000; 866622443561012000000000; 866622443561012000000000; 866622443561012000000000; 
    866622443561012000000000; 866622443561012000000000; 69203955276090000000000; 6284083367674260000000000; 2780090233488638000000000; 
    2780090233488638000000000; 6284083367674260000000000; 69203955276090000000000; 69203955276090000000000; 6284083367674260000000000; 
    2780090233488638000000000; 2780090233488638000000000; 6284083367674260000000000; 69203955276090000000000; 5431130574905816000000000; 
    5431130574905816000000000; 1053191068972152000000000; 3053177470209279000000000; 1053191068972152000000000; 3053177470209279000000000; 
    462500885912754000000000; 462500885912754000000000; 462500885912754000000000; 462500885912754000000000; 462500885912754000000000; 
    462500885912754000000000; 1053191068972152000000000; 3053177470209279000000000; 5431130574905816000000000; 5431130574905816000000000; 
    3053177470209279000000000; 1053191068972152000000000; 1053191068972152000000000; 3053177470209279000000000; 5431130574905816000000000; 
    5431130574905816000000000; 3053177470209279000000000; 1053191068972152000000000; 87923252192588000000000; 87923252192588000000000; 
    3387615700292962000000000; 2521955658942761000000000; 3387615700292962000000000; 2521955658942761000000000; 4002505388571689000000000; 
    4002505388571689000000000; 4002505388571689000000000; 4002505388571689000000000; 4002505388571689000000000; 4002505388571689000000000; 
    3387615700292962000000000; 2521955658942761000000000; 87923252192588000000000; 87923252192588000000000; 2521955658942761000000000; 
    3387615700292962000000000; 3387615700292962000000000; 2521955658942761000000000; 87923252192588000000000; 87923252192588000000000; 
    2521955658942761000000000; 3387615700292962000000000];
   [2967759596934131000000000; 2967759596934131000000000; 1096721209197606000000000; 2967759596934131000000000; 1209047972112185000000000; 
    1209047972112185000000000; 6372856083663444000000000; 1209047972112185000000000; 3177959071881044000000000; 3177959071881044000000000; 
    466122784356867000000000; 3177959071881044000000000; 2012655712414790000000000; 2012655712414790000000000; 3962032862755631000000000; 
    2012655712414790000000000; 1678838969272885000000000; 1678838969272885000000000; 4963483092181346000000000; 1678838969272885000000000; 
    362149396096895000000000; 362149396096895000000000; 8913551811709316000000000; 362149396096895000000000; 526024496174838000000000; 
    4473975503825162000000000; 4473975503825162000000000; 526024496174838000000000; 526024496174838000000000; 4473975503825162000000000; 
    3045785563313042000000000; 1954214436686958000000000; 1954214436686958000000000; 3045785563313042000000000; 3045785563313042000000000; 
    1954214436686958000000000; 322823054983952000000000; 8181532733687802000000000; 322823054983952000000000; 322823054983952000000000; 
    8181532733687802000000000; 322823054983952000000000; 1172821156344295000000000; 1172821156344295000000000; 1172821156344295000000000; 
    322823054983952000000000; 322823054983952000000000; 8181532733687802000000000; 81265144705196000000000; 1671963931828212000000000; 
    81265144705196000000000; 81265144705196000000000; 1671963931828212000000000; 81265144705196000000000; 8165505778761395000000000; 
    8165505778761395000000000; 8165505778761395000000000; 81265144705196000000000; 81265144705196000000000; 1671963931828212000000000; 
    1851459522994347000000000; 661101187666243000000000; 1851459522994347000000000; 1851459522994347000000000; 661101187666243000000000; 
    1851459522994347000000000; 5635979766345063000000000; 5635979766345063000000000; 5635979766345063000000000; 1851459522994347000000000; 
    1851459522994347000000000; 661101187666243000000000; 4110775382017770000000000; 1281831845252744000000000; 4110775382017770000000000; 
    4110775382017770000000000; 1281831845252744000000000; 4110775382017770000000000; 496617390711716000000000; 496617390711716000000000; 
    496617390711716000000000; 4110775382017770000000000; 4110775382017770000000000; 1281831845252744000000000; 100597974068545000000000; 
    5566366248307155000000000; 100597974068545000000000; 100597974068545000000000; 5566366248307155000000000; 100597974068545000000000; 
    4232437803555756000000000; 4232437803555756000000000; 4232437803555756000000000; 100597974068545000000000; 100597974068545000000000; 
    5566366248307155000000000; 823016150372359000000000; 8242515811428504000000000; 823016150372359000000000; 823016150372359000000000; 
    8242515811428504000000000; 823016150372359000000000; 111451887826779000000000; 111451887826779000000000; 111451887826779000000000; 
    823016150372359000000000; 823016150372359000000000; 8242515811428504000000000; 380128286026647000000000; 6072922714391159000000000; 
    380128286026647000000000; 380128286026647000000000; 6072922714391159000000000; 380128286026647000000000; 3166820713555548000000000; 
    3166820713555548000000000; 3166820713555548000000000; 380128286026647000000000; 380128286026647000000000; 6072922714391159000000000; 
    829781690579476000000000; 1927591204214162000000000; 829781690579476000000000; 829781690579476000000000; 1927591204214162000000000; 
    829781690579476000000000; 6412845414626887000000000; 6412845414626887000000000; 6412845414626887000000000; 829781690579476000000000; 
    829781690579476000000000; 1927591204214162000000000; 323283014904537000000000; 2290899793113822000000000; 323283014904537000000000; 
    323283014904537000000000; 2290899793113822000000000; 323283014904537000000000; 7062534177077103000000000; 7062534177077103000000000; 
    7062534177077103000000000; 323283014904537000000000; 323283014904537000000000; 2290899793113822000000000; 1406521940177762000000000; 
    40624591785854000000000; 1406521940177762000000000; 1406521940177762000000000; 40624591785854000000000; 1406521940177762000000000; 
    7146331527858621000000000; 7146331527858621000000000; 7146331527858621000000000; 1406521940177762000000000; 1406521940177762000000000; 
    40624591785854000000000; 1139719439112915000000000; 5168656572693773000000000; 1139719439112915000000000; 1139719439112915000000000; 
    5168656572693773000000000; 1139719439112915000000000; 2551904549080398000000000; 2551904549080398000000000; 2551904549080398000000000; 
    1139719439112915000000000; 1139719439112915000000000; 5168656572693773000000000; 74535713771749000000000; 251785631681119000000000; 
    74535713771749000000000; 74535713771749000000000; 251785631681119000000000; 74535713771749000000000; 9599142940775384000000000; 
    9599142940775384000000000; 9599142940775384000000000; 74535713771749000000000; 74535713771749000000000; 251785631681119000000000; 
    1110171267302689000000000; 3907070674791312000000000; 1110171267302689000000000; 1110171267302689000000000; 3907070674791312000000000; 
    1110171267302689000000000; 3872586790603310000000000; 3872586790603310000000000; 3872586790603310000000000; 1110171267302689000000000; 
    1110171267302689000000000; 3907070674791312000000000; 531381050391377000000000; 4037166880195431000000000; 5333767142737392000000000; 
    5333767142737392000000000; 4037166880195431000000000; 531381050391377000000000; 531381050391377000000000; 4037166880195431000000000; 
    5333767142737392000000000; 5333767142737392000000000; 4037166880195431000000000; 531381050391377000000000; 97684926675800000000000; 
    97684926675800000000000; 97684926675800000000000; 97684926675800000000000; 97684926675800000000000; 97684926675800000000000; 
    4037166880195431000000000; 531381050391377000000000; 4037166880195431000000000; 531381050391377000000000; 5333767142737392000000000; 
    5333767142737392000000000; 943920742872811000000000; 501546618875249000000000; 945051714627574000000000; 945051714627574000000000; 
    501546618875249000000000; 943920742872811000000000; 943920742872811000000000; 501546618875249000000000; 945051714627574000000000; 
    945051714627574000000000; 501546618875249000000000; 943920742872811000000000; 7609480923624367000000000; 7609480923624367000000000; 
    7609480923624367000000000; 7609480923624367000000000; 7609480923624367000000000; 7609480923624367000000000; 501546618875249000000000; 
    943920742872811000000000; 501546618875249000000000; 943920742872811000000000; 945051714627574000000000; 945051714627574000000000; 
    550544516427296000000000; 1738892311826489000000000; 7653955692270024000000000; 7653955692270024000000000; 1738892311826489000000000; 
    550544516427296000000000; 550544516427296000000000; 1738892311826489000000000; 7653955692270024000000000; 7653955692270024000000000; 
    1738892311826489000000000; 550544516427296000000000; 56607479476192000000000; 56607479476192000000000; 56607479476192000000000; 
    56607479476192000000000; 56607479476192000000000; 56607479476192000000000; 1738892311826489000000000; 550544516427296000000000; 
    1738892311826489000000000; 550544516427296000000000; 7653955692270024000000000; 7653955692270024000000000; 1798637301234305000000000; 
    6879571952789530000000000; 975172038222044000000000; 975172038222044000000000; 6879571952789530000000000; 1798637301234305000000000; 
    1798637301234305000000000; 6879571952789530000000000; 975172038222044000000000; 975172038222044000000000; 6879571952789530000000000; 
    1798637301234305000000000; 346618707754121000000000; 346618707754121000000000; 346618707754121000000000; 346618707754121000000000; 
    346618707754121000000000; 346618707754121000000000; 6879571952789530000000000; 1798637301234305000000000; 6879571952789530000000000; 
    1798637301234305000000000; 975172038222044000000000; 975172038222044000000000; 2121920547752147000000000; 3321735025035050000000000; 
    4095036586170944000000000; 4095036586170944000000000; 3321735025035050000000000; 2121920547752147000000000; 2121920547752147000000000; 
    3321735025035050000000000; 4095036586170944000000000; 4095036586170944000000000; 3321735025035050000000000; 2121920547752147000000000; 
    461307841041859000000000; 461307841041859000000000; 461307841041859000000000; 461307841041859000000000; 461307841041859000000000; 
    461307841041859000000000; 3321735025035050000000000; 2121920547752147000000000; 3321735025035050000000000; 2121920547752147000000000; 
    4095036586170944000000000; 4095036586170944000000000; 1290161512351960000000000; 3844720976410142000000000; 4765557207500070000000000; 
    4765557207500070000000000; 3844720976410142000000000; 1290161512351960000000000; 1290161512351960000000000; 3844720976410142000000000; 
    4765557207500070000000000; 4765557207500070000000000; 3844720976410142000000000; 1290161512351960000000000; 99560303737828000000000; 
    99560303737828000000000; 99560303737828000000000; 99560303737828000000000; 99560303737828000000000; 99560303737828000000000; 
    3844720976410142000000000; 1290161512351960000000000; 3844720976410142000000000; 1290161512351960000000000; 4765557207500070000000000; 
    4765557207500070000000000; 1614873223066114000000000; 5982705108010641000000000; 137608474867702000000000; 137608474867702000000000; 
    5982705108010641000000000; 1614873223066114000000000; 1614873223066114000000000; 5982705108010641000000000; 137608474867702000000000; 
    137608474867702000000000; 5982705108010641000000000; 1614873223066114000000000; 2264813194055542000000000; 2264813194055542000000000; 
    2264813194055542000000000; 2264813194055542000000000; 2264813194055542000000000; 2264813194055542000000000; 5982705108010641000000000; 
    1614873223066114000000000; 5982705108010641000000000; 1614873223066114000000000; 137608474867702000000000; 137608474867702000000000; 
    1059283078939860000000000; 2853013762463641000000000; 4143500741402470000000000; 4143500741402470000000000; 2853013762463641000000000; 
    1059283078939860000000000; 1059283078939860000000000; 2853013762463641000000000; 4143500741402470000000000; 4143500741402470000000000; 
    2853013762463641000000000; 1059283078939860000000000; 1944202417194029000000000; 1944202417194029000000000; 1944202417194029000000000; 
    1944202417194029000000000; 1944202417194029000000000; 1944202417194029000000000; 2853013762463641000000000; 1059283078939860000000000; 
    2853013762463641000000000; 1059283078939860000000000; 4143500741402470000000000; 4143500741402470000000000; 2046229328456809000000000; 
    4728908103942965000000000; 2864083155254953000000000; 2864083155254953000000000; 4728908103942965000000000; 2046229328456809000000000; 
    2046229328456809000000000; 4728908103942965000000000; 2864083155254953000000000; 2864083155254953000000000; 4728908103942965000000000; 
    2046229328456809000000000; 360779412345273000000000; 360779412345273000000000; 360779412345273000000000; 360779412345273000000000; 
    360779412345273000000000; 360779412345273000000000; 4728908103942965000000000; 2046229328456809000000000; 4728908103942965000000000; 
    2046229328456809000000000; 2864083155254953000000000; 2864083155254953000000000; 744179686987702000000000; 24421697078358000000000; 
    236158323301530000000000; 236158323301530000000000; 24421697078358000000000; 744179686987702000000000; 744179686987702000000000; 
    24421697078358000000000; 236158323301530000000000; 236158323301530000000000; 24421697078358000000000; 744179686987702000000000; 
    8995240292632410000000000; 8995240292632410000000000; 8995240292632410000000000; 8995240292632410000000000; 8995240292632410000000000; 
    8995240292632410000000000; 24421697078358000000000; 744179686987702000000000; 24421697078358000000000; 744179686987702000000000; 
    236158323301530000000000; 236158323301530000000000; 2938352359686784000000000; 1939104157388909000000000; 5078745759286403000000000; 
    5078745759286403000000000; 1939104157388909000000000; 2938352359686784000000000; 2938352359686784000000000; 1939104157388909000000000; 
    5078745759286403000000000; 5078745759286403000000000; 1939104157388909000000000; 2938352359686784000000000; 43797723637903000000000; 
    43797723637903000000000; 43797723637903000000000; 43797723637903000000000; 43797723637903000000000; 43797723637903000000000; 
    1939104157388909000000000; 2938352359686784000000000; 1939104157388909000000000; 2938352359686784000000000; 5078745759286403000000000; 
    5078745759286403000000000; 2899004919931303000000000; 6867525446175153000000000; 23886149405118000000000; 23886149405118000000000; 
    6867525446175153000000000; 2899004919931303000000000; 2899004919931303000000000; 6867525446175153000000000; 23886149405118000000000; 
    23886149405118000000000; 6867525446175153000000000; 2899004919931303000000000; 209583484488425000000000; 209583484488425000000000; 
    209583484488425000000000; 209583484488425000000000; 209583484488425000000000; 209583484488425000000000; 6867525446175153000000000; 
    2899004919931303000000000; 6867525446175153000000000; 2899004919931303000000000; 23886149405118000000000; 23886149405118000000000; 
    69203955276090000000000; 6284083367674260000000000; 2780090233488638000000000; 2780090233488638000000000; 6284083367674260000000000; 
    69203955276090000000000; 69203955276090000000000; 6284083367674260000000000; 2780090233488638000000000; 2780090233488638000000000; 
    6284083367674260000000000; 69203955276090000000000; 866622443561012000000000; 866622443561012000000000; 866622443561012000000000; 
    866622443561012000000000; 866622443561012000000000; 866622443561012000000000; 6284083367674260000000000; 69203955276090000000000; 
    6284083367674260000000000; 69203955276090000000000; 2780090233488638000000000; 2780090233488638000000000; 1053191068972152000000000; 
    3053177470209279000000000; 5431130574905816000000000; 5431130574905816000000000; 3053177470209279000000000; 1053191068972152000000000; 
    1053191068972152000000000; 3053177470209279000000000; 5431130574905816000000000; 5431130574905816000000000; 3053177470209279000000000; 
    1053191068972152000000000; 462500885912754000000000; 462500885912754000000000; 462500885912754000000000; 462500885912754000000000; 
    462500885912754000000000; 462500885912754000000000; 3053177470209279000000000; 1053191068972152000000000; 3053177470209279000000000; 
    1053191068972152000000000; 5431130574905816000000000; 5431130574905816000000000; 3387615700292962000000000; 2521955658942761000000000; 
    87923252192588000000000; 87923252192588000000000; 2521955658942761000000000; 3387615700292962000000000; 3387615700292962000000000; 
    2521955658942761000000000; 87923252192588000000000; 87923252192588000000000; 2521955658942761000000000; 3387615700292962000000000; 
    4002505388571689000000000; 4002505388571689000000000; 4002505388571689000000000; 4002505388571689000000000; 4002505388571689000000000; 
    4002505388571689000000000; 2521955658942761000000000; 3387615700292962000000000; 2521955658942761000000000; 3387615700292962000000000; 
    87923252192588000000000; 87923252192588000000000];
   [2967759596934131000000000; 2967759596934131000000000; 2967759596934131000000000; 1096721209197606000000000; 1209047972112185000000000; 
    1209047972112185000000000; 1209047972112185000000000; 6372856083663444000000000; 3177959071881044000000000; 3177959071881044000000000; 
    3177959071881044000000000; 466122784356867000000000; 2012655712414790000000000; 2012655712414790000000000; 2012655712414790000000000; 
    3962032862755631000000000; 1678838969272885000000000; 1678838969272885000000000; 1678838969272885000000000; 4963483092181346000000000; 
    362149396096895000000000; 362149396096895000000000; 362149396096895000000000; 8913551811709316000000000; 526024496174838000000000; 
    526024496174838000000000; 526024496174838000000000; 4473975503825162000000000; 4473975503825162000000000; 4473975503825162000000000; 
    3045785563313042000000000; 3045785563313042000000000; 3045785563313042000000000; 1954214436686958000000000; 1954214436686958000000000; 
    1954214436686958000000000; 322823054983952000000000; 322823054983952000000000; 8181532733687802000000000; 322823054983952000000000; 
    322823054983952000000000; 8181532733687802000000000; 322823054983952000000000; 322823054983952000000000; 8181532733687802000000000; 
    1172821156344295000000000; 1172821156344295000000000; 1172821156344295000000000; 81265144705196000000000; 81265144705196000000000; 
    1671963931828212000000000; 81265144705196000000000; 81265144705196000000000; 1671963931828212000000000; 81265144705196000000000; 
    81265144705196000000000; 1671963931828212000000000; 8165505778761395000000000; 8165505778761395000000000; 8165505778761395000000000; 
    1851459522994347000000000; 1851459522994347000000000; 661101187666243000000000; 1851459522994347000000000; 1851459522994347000000000; 
    661101187666243000000000; 1851459522994347000000000; 1851459522994347000000000; 661101187666243000000000; 5635979766345063000000000; 
    5635979766345063000000000; 5635979766345063000000000; 4110775382017770000000000; 4110775382017770000000000; 1281831845252744000000000; 
    4110775382017770000000000; 4110775382017770000000000; 1281831845252744000000000; 4110775382017770000000000; 4110775382017770000000000; 
    1281831845252744000000000; 496617390711716000000000; 496617390711716000000000; 496617390711716000000000; 100597974068545000000000; 
    100597974068545000000000; 5566366248307155000000000; 100597974068545000000000; 100597974068545000000000; 5566366248307155000000000; 
    100597974068545000000000; 100597974068545000000000; 5566366248307155000000000; 4232437803555756000000000; 4232437803555756000000000; 
    4232437803555756000000000; 823016150372359000000000; 823016150372359000000000; 8242515811428504000000000; 823016150372359000000000; 
    823016150372359000000000; 8242515811428504000000000; 823016150372359000000000; 823016150372359000000000; 8242515811428504000000000; 
    111451887826779000000000; 111451887826779000000000; 111451887826779000000000; 380128286026647000000000; 380128286026647000000000; 
    6072922714391159000000000; 380128286026647000000000; 380128286026647000000000; 6072922714391159000000000; 380128286026647000000000; 
    380128286026647000000000; 6072922714391159000000000; 3166820713555548000000000; 3166820713555548000000000; 3166820713555548000000000; 
    829781690579476000000000; 829781690579476000000000; 1927591204214162000000000; 829781690579476000000000; 829781690579476000000000; 
    1927591204214162000000000; 829781690579476000000000; 829781690579476000000000; 1927591204214162000000000; 6412845414626887000000000; 
    6412845414626887000000000; 6412845414626887000000000; 323283014904537000000000; 323283014904537000000000; 2290899793113822000000000; 
    323283014904537000000000; 323283014904537000000000; 2290899793113822000000000; 323283014904537000000000; 323283014904537000000000; 
    2290899793113822000000000; 7062534177077103000000000; 7062534177077103000000000; 7062534177077103000000000; 1406521940177762000000000; 
    1406521940177762000000000; 40624591785854000000000; 1406521940177762000000000; 1406521940177762000000000; 40624591785854000000000; 
    1406521940177762000000000; 1406521940177762000000000; 40624591785854000000000; 7146331527858621000000000; 7146331527858621000000000; 
    7146331527858621000000000; 1139719439112915000000000; 1139719439112915000000000; 5168656572693773000000000; 1139719439112915000000000; 
    1139719439112915000000000; 5168656572693773000000000; 1139719439112915000000000; 1139719439112915000000000; 5168656572693773000000000; 
    2551904549080398000000000; 2551904549080398000000000; 2551904549080398000000000; 74535713771749000000000; 74535713771749000000000; 
    251785631681119000000000; 74535713771749000000000; 74535713771749000000000; 251785631681119000000000; 74535713771749000000000; 
    74535713771749000000000; 251785631681119000000000; 9599142940775384000000000; 9599142940775384000000000; 9599142940775384000000000; 
    1110171267302689000000000; 1110171267302689000000000; 3907070674791312000000000; 1110171267302689000000000; 1110171267302689000000000; 
    3907070674791312000000000; 1110171267302689000000000; 1110171267302689000000000; 3907070674791312000000000; 3872586790603310000000000; 
    3872586790603310000000000; 3872586790603310000000000; 4037166880195431000000000; 531381050391377000000000; 4037166880195431000000000; 
    531381050391377000000000; 5333767142737392000000000; 5333767142737392000000000; 4037166880195431000000000; 531381050391377000000000; 
    4037166880195431000000000; 531381050391377000000000; 5333767142737392000000000; 5333767142737392000000000; 4037166880195431000000000; 
    531381050391377000000000; 4037166880195431000000000; 531381050391377000000000; 5333767142737392000000000; 5333767142737392000000000; 
    97684926675800000000000; 97684926675800000000000; 97684926675800000000000; 97684926675800000000000; 97684926675800000000000; 97684926675800000000000; 
    501546618875249000000000; 943920742872811000000000; 501546618875249000000000; 943920742872811000000000; 945051714627574000000000; 
    945051714627574000000000; 501546618875249000000000; 943920742872811000000000; 501546618875249000000000; 943920742872811000000000; 
    945051714627574000000000; 945051714627574000000000; 501546618875249000000000; 943920742872811000000000; 501546618875249000000000; 
    943920742872811000000000; 945051714627574000000000; 945051714627574000000000; 7609480923624367000000000; 7609480923624367000000000; 
    7609480923624367000000000; 7609480923624367000000000; 7609480923624367000000000; 7609480923624367000000000; 1738892311826489000000000; 
    550544516427296000000000; 1738892311826489000000000; 550544516427296000000000; 7653955692270024000000000; 7653955692270024000000000; 
    1738892311826489000000000; 550544516427296000000000; 1738892311826489000000000; 550544516427296000000000; 7653955692270024000000000; 
    7653955692270024000000000; 1738892311826489000000000; 550544516427296000000000; 1738892311826489000000000; 550544516427296000000000; 
    7653955692270024000000000; 7653955692270024000000000; 56607479476192000000000; 56607479476192000000000; 56607479476192000000000; 
    56607479476192000000000; 56607479476192000000000; 56607479476192000000000; 6879571952789530000000000; 1798637301234305000000000; 
    6879571952789530000000000; 1798637301234305000000000; 975172038222044000000000; 975172038222044000000000; 6879571952789530000000000; 
    1798637301234305000000000; 6879571952789530000000000; 1798637301234305000000000; 975172038222044000000000; 975172038222044000000000; 
    6879571952789530000000000; 1798637301234305000000000; 6879571952789530000000000; 1798637301234305000000000; 975172038222044000000000; 
    975172038222044000000000; 346618707754121000000000; 346618707754121000000000; 346618707754121000000000; 346618707754121000000000; 
    346618707754121000000000; 346618707754121000000000; 3321735025035050000000000; 2121920547752147000000000; 3321735025035050000000000; 
    2121920547752147000000000; 4095036586170944000000000; 4095036586170944000000000; 3321735025035050000000000; 2121920547752147000000000; 
    3321735025035050000000000; 2121920547752147000000000; 4095036586170944000000000; 4095036586170944000000000; 3321735025035050000000000; 
    2121920547752147000000000; 3321735025035050000000000; 2121920547752147000000000; 4095036586170944000000000; 4095036586170944000000000; 
    461307841041859000000000; 461307841041859000000000; 461307841041859000000000; 461307841041859000000000; 461307841041859000000000; 
    461307841041859000000000; 3844720976410142000000000; 1290161512351960000000000; 3844720976410142000000000; 1290161512351960000000000; 
    4765557207500070000000000; 4765557207500070000000000; 3844720976410142000000000; 1290161512351960000000000; 3844720976410142000000000; 
    1290161512351960000000000; 4765557207500070000000000; 4765557207500070000000000; 3844720976410142000000000; 1290161512351960000000000; 
    3844720976410142000000000; 1290161512351960000000000; 4765557207500070000000000; 4765557207500070000000000; 99560303737828000000000; 
    99560303737828000000000; 99560303737828000000000; 99560303737828000000000; 99560303737828000000000; 99560303737828000000000; 
    5982705108010641000000000; 1614873223066114000000000; 5982705108010641000000000; 1614873223066114000000000; 137608474867702000000000; 
    137608474867702000000000; 5982705108010641000000000; 1614873223066114000000000; 5982705108010641000000000; 1614873223066114000000000; 
    137608474867702000000000; 137608474867702000000000; 5982705108010641000000000; 1614873223066114000000000; 5982705108010641000000000; 
    1614873223066114000000000; 137608474867702000000000; 137608474867702000000000; 2264813194055542000000000; 2264813194055542000000000; 
    2264813194055542000000000; 2264813194055542000000000; 2264813194055542000000000; 2264813194055542000000000; 2853013762463641000000000; 
    1059283078939860000000000; 2853013762463641000000000; 1059283078939860000000000; 4143500741402470000000000; 4143500741402470000000000; 
    2853013762463641000000000; 1059283078939860000000000; 2853013762463641000000000; 1059283078939860000000000; 4143500741402470000000000; 
    4143500741402470000000000; 2853013762463641000000000; 1059283078939860000000000; 2853013762463641000000000; 1059283078939860000000000; 
    4143500741402470000000000; 4143500741402470000000000; 1944202417194029000000000; 1944202417194029000000000; 1944202417194029000000000; 
    1944202417194029000000000; 1944202417194029000000000; 1944202417194029000000000; 4728908103942965000000000; 2046229328456809000000000; 
    4728908103942965000000000; 2046229328456809000000000; 2864083155254953000000000; 2864083155254953000000000; 4728908103942965000000000; 
    2046229328456809000000000; 4728908103942965000000000; 2046229328456809000000000; 2864083155254953000000000; 2864083155254953000000000; 
    4728908103942965000000000; 2046229328456809000000000; 4728908103942965000000000; 2046229328456809000000000; 2864083155254953000000000; 
    2864083155254953000000000; 360779412345273000000000; 360779412345273000000000; 360779412345273000000000; 360779412345273000000000; 
    360779412345273000000000; 360779412345273000000000; 24421697078358000000000; 744179686987702000000000; 24421697078358000000000; 
    744179686987702000000000; 236158323301530000000000; 236158323301530000000000; 24421697078358000000000; 744179686987702000000000; 
    24421697078358000000000; 744179686987702000000000; 236158323301530000000000; 236158323301530000000000; 24421697078358000000000; 
    744179686987702000000000; 24421697078358000000000; 744179686987702000000000; 236158323301530000000000; 236158323301530000000000; 
    8995240292632410000000000; 8995240292632410000000000; 8995240292632410000000000; 8995240292632410000000000; 8995240292632410000000000; 
    8995240292632410000000000; 1939104157388909000000000; 2938352359686784000000000; 1939104157388909000000000; 2938352359686784000000000; 
    5078745759286403000000000; 5078745759286403000000000; 1939104157388909000000000; 2938352359686784000000000; 1939104157388909000000000; 
    2938352359686784000000000; 5078745759286403000000000; 5078745759286403000000000; 1939104157388909000000000; 2938352359686784000000000; 
    1939104157388909000000000; 2938352359686784000000000; 5078745759286403000000000; 5078745759286403000000000; 43797723637903000000000; 
    43797723637903000000000; 43797723637903000000000; 43797723637903000000000; 43797723637903000000000; 43797723637903000000000; 
    6867525446175153000000000; 2899004919931303000000000; 6867525446175153000000000; 2899004919931303000000000; 23886149405118000000000; 
    23886149405118000000000; 6867525446175153000000000; 2899004919931303000000000; 6867525446175153000000000; 2899004919931303000000000; 
    23886149405118000000000; 23886149405118000000000; 6867525446175153000000000; 2899004919931303000000000; 6867525446175153000000000; 
    2899004919931303000000000; 23886149405118000000000; 23886149405118000000000; 209583484488425000000000; 209583484488425000000000; 
    209583484488425000000000; 209583484488425000000000; 209583484488425000000000; 209583484488425000000000; 6284083367674260000000000; 
    69203955276090000000000; 6284083367674260000000000; 69203955276090000000000; 2780090233488638000000000; 2780090233488638000000000; 
    6284083367674260000000000; 69203955276090000000000; 6284083367674260000000000; 69203955276090000000000; 2780090233488638000000000; 
    2780090233488638000000000; 6284083367674260000000000; 69203955276090000000000; 6284083367674260000000000; 69203955276090000000000; 
    2780090233488638000000000; 2780090233488638000000000; 866622443561012000000000; 866622443561012000000000; 866622443561012000000000; 
    866622443561012000000000; 866622443561012000000000; 866622443561012000000000; 3053177470209279000000000; 1053191068972152000000000; 
    3053177470209279000000000; 1053191068972152000000000; 5431130574905816000000000; 5431130574905816000000000; 3053177470209279000000000; 
    1053191068972152000000000; 3053177470209279000000000; 1053191068972152000000000; 5431130574905816000000000; 5431130574905816000000000; 
    3053177470209279000000000; 1053191068972152000000000; 3053177470209279000000000; 1053191068972152000000000; 5431130574905816000000000; 
    5431130574905816000000000; 462500885912754000000000; 462500885912754000000000; 462500885912754000000000; 462500885912754000000000; 
    462500885912754000000000; 462500885912754000000000; 2521955658942761000000000; 3387615700292962000000000; 2521955658942761000000000; 
    3387615700292962000000000; 87923252192588000000000; 87923252192588000000000; 2521955658942761000000000; 3387615700292962000000000; 
    2521955658942761000000000; 3387615700292962000000000; 87923252192588000000000; 87923252192588000000000; 2521955658942761000000000; 
    3387615700292962000000000; 2521955658942761000000000; 3387615700292962000000000; 87923252192588000000000; 87923252192588000000000; 
    4002505388571689000000000; 4002505388571689000000000; 4002505388571689000000000; 4002505388571689000000000; 4002505388571689000000000; 
    4002505388571689000000000]],
   [5418454790084648400; 5418454790084648400; 5418454790084648400; 5418454790084648400; 3820897988248627200; 3820897988248627200; 3820897988248627200; 
    3820897988248627200; 4057458152334048100; 4057458152334048100; 4057458152334048100; 4057458152334048100; 4147670297750325300; 4147670297750325300; 
    4147670297750325300; 4147670297750325300; 5289566609934360700; 5289566609934360700; 5289566609934360700; 5289566609934360700; 972041819862353230; 
    972041819862353230; 972041819862353230; 972041819862353230; 2988176136780451900; 2988176136780451900; 2988176136780451900; 2988176136780451900; 
    2988176136780451900; 2988176136780451900; 7061746923528361200; 7061746923528361200; 7061746923528361200; 7061746923528361200; 7061746923528361200; 
    7061746923528361200; 1138014164865968900; 1138014164865968900; 1138014164865968900; 1138014164865968900; 1138014164865968900; 1138014164865968900; 
    1138014164865968900; 1138014164865968900; 1138014164865968900; 1138014164865968900; 1138014164865968900; 1138014164865968900; 328432808943958510; 
    328432808943958510; 328432808943958510; 328432808943958510; 328432808943958510; 328432808943958510; 328432808943958510; 328432808943958510; 
    328432808943958510; 328432808943958510; 328432808943958510; 328432808943958510; 4517305074533165300; 4517305074533165300; 4517305074533165300; 
    4517305074533165300; 4517305074533165300; 4517305074533165300; 4517305074533165300; 4517305074533165300; 4517305074533165300; 4517305074533165300; 
    4517305074533165300; 4517305074533165300; 2743957098139693400; 2743957098139693400; 2743957098139693400; 2743957098139693400; 2743957098139693400; 
    2743957098139693400; 2743957098139693400; 2743957098139693400; 2743957098139693400; 2743957098139693400; 2743957098139693400; 2743957098139693400; 
    534510402986635360; 534510402986635360; 534510402986635360; 534510402986635360; 534510402986635360; 534510402986635360; 534510402986635360; 
    534510402986635360; 534510402986635360; 534510402986635360; 534510402986635360; 534510402986635360; 852760277336583430; 852760277336583430; 
    852760277336583430; 852760277336583430; 852760277336583430; 852760277336583430; 852760277336583430; 852760277336583430; 852760277336583430; 
    852760277336583430; 852760277336583430; 852760277336583430; 1608673320950611100; 1608673320950611100; 1608673320950611100; 1608673320950611100; 
    1608673320950611100; 1608673320950611100; 1608673320950611100; 1608673320950611100; 1608673320950611100; 1608673320950611100; 1608673320950611100; 
    1608673320950611100; 2164021789623034000; 2164021789623034000; 2164021789623034000; 2164021789623034000; 2164021789623034000; 2164021789623034000; 
    2164021789623034000; 2164021789623034000; 2164021789623034000; 2164021789623034000; 2164021789623034000; 2164021789623034000; 1298964551990821000; 
    1298964551990821000; 1298964551990821000; 1298964551990821000; 1298964551990821000; 1298964551990821000; 1298964551990821000; 1298964551990821000; 
    1298964551990821000; 1298964551990821000; 1298964551990821000; 1298964551990821000; 754022108498084780; 754022108498084780; 754022108498084780; 
    754022108498084780; 754022108498084780; 754022108498084780; 754022108498084780; 754022108498084780; 754022108498084780; 754022108498084780; 
    754022108498084780; 754022108498084780; 3936392177197076000; 3936392177197076000; 3936392177197076000; 3936392177197076000; 3936392177197076000; 
    3936392177197076000; 3936392177197076000; 3936392177197076000; 3936392177197076000; 3936392177197076000; 3936392177197076000; 3936392177197076000; 
    82604372543112676; 82604372543112676; 82604372543112676; 82604372543112676; 82604372543112676; 82604372543112676; 82604372543112676; 
    82604372543112676; 82604372543112676; 82604372543112676; 82604372543112676; 82604372543112676; 2202593581265821200; 2202593581265821200; 
    2202593581265821200; 2202593581265821200; 2202593581265821200; 2202593581265821200; 2202593581265821200; 2202593581265821200; 2202593581265821200; 
    2202593581265821200; 2202593581265821200; 2202593581265821200; 1142912288312416300; 1142912288312416300; 1142912288312416300; 1142912288312416300; 
    1142912288312416300; 1142912288312416300; 1142912288312416300; 1142912288312416300; 1142912288312416300; 1142912288312416300; 1142912288312416300; 
    1142912288312416300; 1142912288312416300; 1142912288312416300; 1142912288312416300; 1142912288312416300; 1142912288312416300; 1142912288312416300; 
    1142912288312416300; 1142912288312416300; 1142912288312416300; 1142912288312416300; 1142912288312416300; 1142912288312416300; 803734117988498490; 
    803734117988498490; 803734117988498490; 803734117988498490; 803734117988498490; 803734117988498490; 803734117988498490; 803734117988498490; 
    803734117988498490; 803734117988498490; 803734117988498490; 803734117988498490; 803734117988498490; 803734117988498490; 803734117988498490; 
    803734117988498490; 803734117988498490; 803734117988498490; 803734117988498490; 803734117988498490; 803734117988498490; 803734117988498490; 
    803734117988498490; 803734117988498490; 644105508563339300; 644105508563339300; 644105508563339300; 644105508563339300; 644105508563339300; 
    644105508563339300; 644105508563339300; 644105508563339300; 644105508563339300; 644105508563339300; 644105508563339300; 644105508563339300; 
    644105508563339300; 644105508563339300; 644105508563339300; 644105508563339300; 644105508563339300; 644105508563339300; 644105508563339300; 
    644105508563339300; 644105508563339300; 644105508563339300; 644105508563339300; 644105508563339300; 2284803061568028200; 2284803061568028200; 
    2284803061568028200; 2284803061568028200; 2284803061568028200; 2284803061568028200; 2284803061568028200; 2284803061568028200; 2284803061568028200; 
    2284803061568028200; 2284803061568028200; 2284803061568028200; 2284803061568028200; 2284803061568028200; 2284803061568028200; 2284803061568028200; 
    2284803061568028200; 2284803061568028200; 2284803061568028200; 2284803061568028200; 2284803061568028200; 2284803061568028200; 2284803061568028200; 
    2284803061568028200; 1768215173403587800; 1768215173403587800; 1768215173403587800; 1768215173403587800; 1768215173403587800; 1768215173403587800; 
    1768215173403587800; 1768215173403587800; 1768215173403587800; 1768215173403587800; 1768215173403587800; 1768215173403587800; 1768215173403587800; 
    1768215173403587800; 1768215173403587800; 1768215173403587800; 1768215173403587800; 1768215173403587800; 1768215173403587800; 1768215173403587800; 
    1768215173403587800; 1768215173403587800; 1768215173403587800; 1768215173403587800; 1364093116604034600; 1364093116604034600; 1364093116604034600; 
    1364093116604034600; 1364093116604034600; 1364093116604034600; 1364093116604034600; 1364093116604034600; 1364093116604034600; 1364093116604034600; 
    1364093116604034600; 1364093116604034600; 1364093116604034600; 1364093116604034600; 1364093116604034600; 1364093116604034600; 1364093116604034600; 
    1364093116604034600; 1364093116604034600; 1364093116604034600; 1364093116604034600; 1364093116604034600; 1364093116604034600; 1364093116604034600; 
    1409513020242023200; 1409513020242023200; 1409513020242023200; 1409513020242023200; 1409513020242023200; 1409513020242023200; 1409513020242023200; 
    1409513020242023200; 1409513020242023200; 1409513020242023200; 1409513020242023200; 1409513020242023200; 1409513020242023200; 1409513020242023200; 
    1409513020242023200; 1409513020242023200; 1409513020242023200; 1409513020242023200; 1409513020242023200; 1409513020242023200; 1409513020242023200; 
    1409513020242023200; 1409513020242023200; 1409513020242023200; 5352196172820926000; 5352196172820926000; 5352196172820926000; 5352196172820926000; 
    5352196172820926000; 5352196172820926000; 5352196172820926000; 5352196172820926000; 5352196172820926000; 5352196172820926000; 5352196172820926000; 
    5352196172820926000; 5352196172820926000; 5352196172820926000; 5352196172820926000; 5352196172820926000; 5352196172820926000; 5352196172820926000; 
    5352196172820926000; 5352196172820926000; 5352196172820926000; 5352196172820926000; 5352196172820926000; 5352196172820926000; 2357251753798955900; 
    2357251753798955900; 2357251753798955900; 2357251753798955900; 2357251753798955900; 2357251753798955900; 2357251753798955900; 2357251753798955900; 
    2357251753798955900; 2357251753798955900; 2357251753798955900; 2357251753798955900; 2357251753798955900; 2357251753798955900; 2357251753798955900; 
    2357251753798955900; 2357251753798955900; 2357251753798955900; 2357251753798955900; 2357251753798955900; 2357251753798955900; 2357251753798955900; 
    2357251753798955900; 2357251753798955900; 233550028151908520; 233550028151908520; 233550028151908520; 233550028151908520; 233550028151908520; 
    233550028151908520; 233550028151908520; 233550028151908520; 233550028151908520; 233550028151908520; 233550028151908520; 233550028151908520; 
    233550028151908520; 233550028151908520; 233550028151908520; 233550028151908520; 233550028151908520; 233550028151908520; 233550028151908520; 
    233550028151908520; 233550028151908520; 233550028151908520; 233550028151908520; 233550028151908520; 829919111044838830; 829919111044838830; 
    829919111044838830; 829919111044838830; 829919111044838830; 829919111044838830; 829919111044838830; 829919111044838830; 829919111044838830; 
    829919111044838830; 829919111044838830; 829919111044838830; 829919111044838830; 829919111044838830; 829919111044838830; 829919111044838830; 
    829919111044838830; 829919111044838830; 829919111044838830; 829919111044838830; 829919111044838830; 829919111044838830; 829919111044838830; 
    829919111044838830; 348032727562015910; 348032727562015910; 348032727562015910; 348032727562015910; 348032727562015910; 348032727562015910; 
    348032727562015910; 348032727562015910; 348032727562015910; 348032727562015910; 348032727562015910; 348032727562015910; 348032727562015910; 
    348032727562015910; 348032727562015910; 348032727562015910; 348032727562015910; 348032727562015910; 348032727562015910; 348032727562015910; 
    348032727562015910; 348032727562015910; 348032727562015910; 348032727562015910; 1081306497459309200; 1081306497459309200; 1081306497459309200; 
    1081306497459309200; 1081306497459309200; 1081306497459309200; 1081306497459309200; 1081306497459309200; 1081306497459309200; 1081306497459309200; 
    1081306497459309200; 1081306497459309200; 1081306497459309200; 1081306497459309200; 1081306497459309200; 1081306497459309200; 1081306497459309200; 
    1081306497459309200; 1081306497459309200; 1081306497459309200; 1081306497459309200; 1081306497459309200; 1081306497459309200; 1081306497459309200; 
    3363592992643566200; 3363592992643566200; 3363592992643566200; 3363592992643566200; 3363592992643566200; 3363592992643566200; 3363592992643566200; 
    3363592992643566200; 3363592992643566200; 3363592992643566200; 3363592992643566200; 3363592992643566200; 3363592992643566200; 3363592992643566200; 
    3363592992643566200; 3363592992643566200; 3363592992643566200; 3363592992643566200; 3363592992643566200; 3363592992643566200; 3363592992643566200; 
    3363592992643566200; 3363592992643566200; 3363592992643566200; 1138819523953005400; 1138819523953005400; 1138819523953005400; 1138819523953005400; 
    1138819523953005400; 1138819523953005400; 1138819523953005400; 1138819523953005400; 1138819523953005400; 1138819523953005400; 1138819523953005400; 
    1138819523953005400; 1138819523953005400; 1138819523953005400; 1138819523953005400; 1138819523953005400; 1138819523953005400; 1138819523953005400; 
    1138819523953005400; 1138819523953005400; 1138819523953005400; 1138819523953005400; 1138819523953005400; 1138819523953005400], 20%nat).
(** jaskowiec_sukumar_tet_data.py: the dictionary tet_data *)
Definition js_tet_data : dec_table :=
  [(0%nat, js_tet_data_0); (1%nat, js_tet_data_1); (2%nat, js_tet_data_2); (3%nat, js_tet_data_3); (4%nat, js_tet_data_4); (5%nat, js_tet_data_5); 
    (6%nat, js_tet_data_6); (7%nat, js_tet_data_7); (8%nat, js_tet_data_8); (9%nat, js_tet_data_9); (10%nat, js_tet_data_10); (11%nat, js_tet_data_11); 
    (12%nat, js_tet_data_12); (13%nat, js_tet_data_13); (14%nat, js_tet_data_14); (15%nat, js_tet_data_15); (16%nat, js_tet_data_16); 
    (17%nat, js_tet_data_17); (18%nat, js_tet_data_18); (19%nat, js_tet_data_19)].
