(** Generated by gen/metadata.py from metadata/data/metadata.xml.gz and countrycode_to_region.xml.gz. Do not edit. *)
From Verif Require Import Base Types.

Definition md_AC : meta := Eval vm_compute in Build_meta
  (Some (Build_desc (Some (bs "(?:[01589]\d|[2-467])\d{4}")) [(5)%Z; (6)%Z] [] None))
  (Some (Build_desc (Some (bs "6\d{4}")) [(5)%Z] [] (Some (bs "62889"))))
  (Some (Build_desc (Some (bs "[2-47]\d{4}")) [(5)%Z] [] (Some (bs "40123"))))
  (Some (Build_desc None [(-1)%Z] [] None))
  (Some (Build_desc None [(-1)%Z] [] None))
  (Some (Build_desc None [(-1)%Z] [] None))
  (Some (Build_desc None [(-1)%Z] [] None))
  (Some (Build_desc None [(-1)%Z] [] None))
  (Some (Build_desc None [(-1)%Z] [] None))
  (Some (Build_desc (Some (bs "(?:0[1-9]|[1589]\d)\d{4}")) [(6)%Z] [] (Some (bs "542011"))))
  None
  (Some (Build_desc None [(-1)%Z] [] None))
  None
  None
  None
  None
  (Some (Build_desc None [(-1)%Z] [] None))
  (Some (bs "AC")) (Some (247)%Z) (Some (bs "00")) None None
  None None None None
  []
  []
  None None None.

Definition md_AD : meta := Eval vm_compute in Build_meta
  (Some (Build_desc (Some (bs "(?:1|6\d)\d{7}|[135-9]\d{5}")) [(6)%Z; (8)%Z; (9)%Z] [] None))
  (Some (Build_desc (Some (bs "[78]\d{5}")) [(6)%Z] [] (Some (bs "712345"))))
  (Some (Build_desc (Some (bs "690\d{6}|[356]\d{5}")) [(6)%Z; (9)%Z] [] (Some (bs "312345"))))
  (Some (Build_desc (Some (bs "180[02]\d{4}")) [(8)%Z] [] (Some (bs "18001234"))))
  (Some (Build_desc (Some (bs "[19]\d{5}")) [(6)%Z] [] (Some (bs "912345"))))
  (Some (Build_desc None [(-1)%Z] [] None))
  (Some (Build_desc None [(-1)%Z] [] None))
  (Some (Build_desc None [(-1)%Z] [] None))
  (Some (Build_desc None [(-1)%Z] [] None))
  (Some (Build_desc None [(-1)%Z] [] None))
  None
  (Some (Build_desc None [(-1)%Z] [] None))
  None
  None
  None
  None
  (Some (Build_desc (Some (bs "1800\d{4}")) [(8)%Z] [] None))
  (Some (bs "AD")) (Some (376)%Z) (Some (bs "00")) None None
  None None None None
  [Build_nfmt (Some (bs "(\d{3})(\d{3})")) (Some (bs "$1 $2")) [bs "[135-9]"] None None None;
    Build_nfmt (Some (bs "(\d{4})(\d{4})")) (Some (bs "$1 $2")) [bs "1"] None None None;
    Build_nfmt (Some (bs "(\d{3})(\d{3})(\d{3})")) (Some (bs "$1 $2 $3")) [bs "6"] None None None]
  []
  None None None.

Definition md_AE : meta := Eval vm_compute in Build_meta
  (Some (Build_desc (Some (bs "(?:[4-7]\d|9[0-689])\d{7}|800\d{2,9}|[2-4679]\d{7}")) [(5)%Z; (6)%Z; (7)%Z; (8)%Z; (9)%Z; (10)%Z; (11)%Z; (12)%Z] [] None))
  (Some (Build_desc (Some (bs "[2-4679][2-8]\d{6}")) [(8)%Z] [(7)%Z] (Some (bs "22345678"))))
  (Some (Build_desc (Some (bs "5[02-68]\d{7}")) [(9)%Z] [] (Some (bs "501234567"))))
  (Some (Build_desc (Some (bs "400\d{6}|800\d{2,9}")) [] [] (Some (bs "800123456"))))
  (Some (Build_desc (Some (bs "900[02]\d{5}")) [(9)%Z] [] (Some (bs "900234567"))))
  (Some (Build_desc (Some (bs "700[05]\d{5}")) [(9)%Z] [] (Some (bs "700012345"))))
  (Some (Build_desc None [(-1)%Z] [] None))
  (Some (Build_desc None [(-1)%Z] [] None))
  (Some (Build_desc None [(-1)%Z] [] None))
  (Some (Build_desc (Some (bs "600[25]\d{5}")) [(9)%Z] [] (Some (bs "600212345"))))
  None
  (Some (Build_desc None [(-1)%Z] [] None))
  None
  None
  None
  None
  (Some (Build_desc None [(-1)%Z] [] None))
  (Some (bs "AE")) (Some (971)%Z) (Some (bs "00")) None (Some (bs "0"))
  None (Some (bs "0")) None None
  [Build_nfmt (Some (bs "(\d{3})(\d{2,9})")) (Some (bs "$1 $2")) [bs "60|8"] None None None;
    Build_nfmt (Some (bs "(\d)(\d{3})(\d{4})")) (Some (bs "$1 $2 $3")) [bs "[236]|[479][2-8]"] (Some (bs "0$1")) None None;
    Build_nfmt (Some (bs "(\d{3})(\d)(\d{5})")) (Some (bs "$1 $2 $3")) [bs "[479]"] None None None;
    Build_nfmt (Some (bs "(\d{2})(\d{3})(\d{4})")) (Some (bs "$1 $2 $3")) [bs "5"] (Some (bs "0$1")) None None]
  []
  None None None.

Definition md_AF : meta := Eval vm_compute in Build_meta
  (Some (Build_desc (Some (bs "[2-7]\d{8}")) [(9)%Z] [(7)%Z] None))
  (Some (Build_desc (Some (bs "(?:[25][0-8]|[34][0-4]|6[0-5])[2-9]\d{6}")) [] [(7)%Z] (Some (bs "234567890"))))
  (Some (Build_desc (Some (bs "7\d{8}")) [] [(7)%Z] (Some (bs "701234567"))))
  (Some (Build_desc None [(-1)%Z] [] None))
  (Some (Build_desc None [(-1)%Z] [] None))
  (Some (Build_desc None [(-1)%Z] [] None))
  (Some (Build_desc None [(-1)%Z] [] None))
  (Some (Build_desc None [(-1)%Z] [] None))
  (Some (Build_desc None [(-1)%Z] [] None))
  (Some (Build_desc None [(-1)%Z] [] None))
  None
  (Some (Build_desc None [(-1)%Z] [] None))
  None
  None
  None
  None
  (Some (Build_desc None [(-1)%Z] [] None))
  (Some (bs "AF")) (Some (93)%Z) (Some (bs "00")) None (Some (bs "0"))
  None (Some (bs "0")) None None
  [Build_nfmt (Some (bs "(\d{3})(\d{4})")) (Some (bs "$1 $2")) [bs "[1-9]"] None None None;
    Build_nfmt (Some (bs "(\d{2})(\d{3})(\d{4})")) (Some (bs "$1 $2 $3")) [bs "[2-7]"] (Some (bs "0$1")) None None]
  [Build_nfmt (Some (bs "(\d{2})(\d{3})(\d{4})")) (Some (bs "$1 $2 $3")) [bs "[2-7]"] (Some (bs "0$1")) None None]
  None None None.

Definition md_AG : meta := Eval vm_compute in Build_meta
  (Some (Build_desc (Some (bs "(?:268|[58]\d\d|900)\d{7}")) [(10)%Z] [(7)%Z] None))
  (Some (Build_desc (Some (bs "268(?:4(?:6[0-38]|84)|56[0-2])\d{4}")) [] [(7)%Z] (Some (bs "2684601234"))))
  (Some (Build_desc (Some (bs "268(?:464|7(?:1[3-9]|[28]\d|3[0246]|64|7[0-689]))\d{4}")) [] [(7)%Z] (Some (bs "2684641234"))))
  (Some (Build_desc (Some (bs "8(?:00|33|44|55|66|77|88)[2-9]\d{6}")) [] [] (Some (bs "8002123456"))))
  (Some (Build_desc (Some (bs "900[2-9]\d{6}")) [] [] (Some (bs "9002123456"))))
  (Some (Build_desc None [(-1)%Z] [] None))
  (Some (Build_desc (Some (bs "52(?:3(?:[2-46-9][02-9]\d|5(?:[02-46-9]\d|5[0-46-9]))|4(?:[2-478][02-9]\d|5(?:[034]\d|2[024-9]|5[0-46-9])|6(?:0[1-9]|[2-9]\d)|9(?:[05-9]\d|2[0-5]|49)))\d{4}|52[34][2-9]1[02-9]\d{4}|5(?:00|2[125-9]|3[23]|44|66|77|88)[2-9]\d{6}")) [] [] (Some (bs "5002345678"))))
  (Some (Build_desc (Some (bs "26848[01]\d{4}")) [] [(7)%Z] (Some (bs "2684801234"))))
  (Some (Build_desc (Some (bs "26840[69]\d{4}")) [] [(7)%Z] (Some (bs "2684061234"))))
  (Some (Build_desc None [(-1)%Z] [] None))
  None
  (Some (Build_desc None [(-1)%Z] [] None))
  None
  None
  None
  None
  (Some (Build_desc None [(-1)%Z] [] None))
  (Some (bs "AG")) (Some (1)%Z) (Some (bs "011")) None (Some (bs "1"))
  None (Some (bs "([457]\d{6})$|1")) (Some (bs "268$1")) None
  []
  []
  None (Some (bs "268")) (Some true).

Definition md_AI : meta := Eval vm_compute in Build_meta
  (Some (Build_desc (Some (bs "(?:264|[58]\d\d|900)\d{7}")) [(10)%Z] [(7)%Z] None))
  (Some (Build_desc (Some (bs "264(?:292|4(?:6[12]|9[78]))\d{4}")) [] [(7)%Z] (Some (bs "2644612345"))))
  (Some (Build_desc (Some (bs "264(?:235|4(?:69|7[67])|5(?:3[6-9]|8[1-4])|7(?:29|72))\d{4}")) [] [(7)%Z] (Some (bs "2642351234"))))
  (Some (Build_desc (Some (bs "8(?:00|33|44|55|66|77|88)[2-9]\d{6}")) [] [] (Some (bs "8002123456"))))
  (Some (Build_desc (Some (bs "900[2-9]\d{6}")) [] [] (Some (bs "9002123456"))))
  (Some (Build_desc None [(-1)%Z] [] None))
  (Some (Build_desc (Some (bs "52(?:3(?:[2-46-9][02-9]\d|5(?:[02-46-9]\d|5[0-46-9]))|4(?:[2-478][02-9]\d|5(?:[034]\d|2[024-9]|5[0-46-9])|6(?:0[1-9]|[2-9]\d)|9(?:[05-9]\d|2[0-5]|49)))\d{4}|52[34][2-9]1[02-9]\d{4}|5(?:00|2[125-9]|3[23]|44|66|77|88)[2-9]\d{6}")) [] [] (Some (bs "5002345678"))))
  (Some (Build_desc None [(-1)%Z] [] None))
  (Some (Build_desc (Some (bs "264724\d{4}")) [] [(7)%Z] (Some (bs "2647241234"))))
  (Some (Build_desc None [(-1)%Z] [] None))
  None
  (Some (Build_desc None [(-1)%Z] [] None))
  None
  None
  None
  None
  (Some (Build_desc None [(-1)%Z] [] None))
  (Some (bs "AI")) (Some (1)%Z) (Some (bs "011")) None (Some (bs "1"))
  None (Some (bs "([2457]\d{6})$|1")) (Some (bs "264$1")) None
  []
  []
  None (Some (bs "264")) (Some true).

Definition md_AL : meta := Eval vm_compute in Build_meta
  (Some (Build_desc (Some (bs "(?:700\d\d|900)\d{3}|8\d{5,7}|(?:[2-5]|6\d)\d{7}")) [(6)%Z; (7)%Z; (8)%Z; (9)%Z] [(5)%Z] None))
  (Some (Build_desc (Some (bs "4505[0-2]\d{3}|(?:[2358][16-9]\d[2-9]|4410)\d{4}|(?:[2358][2-5][2-9]|4(?:[2-57-9][2-9]|6\d))\d{5}")) [(8)%Z] [(5)%Z; (6)%Z; (7)%Z] (Some (bs "22345678"))))
  (Some (Build_desc (Some (bs "6(?:[78][2-9]|9\d)\d{6}")) [(9)%Z] [] (Some (bs "672123456"))))
  (Some (Build_desc (Some (bs "800\d{4}")) [(7)%Z] [] (Some (bs "8001234"))))
  (Some (Build_desc (Some (bs "900[1-9]\d\d")) [(6)%Z] [] (Some (bs "900123"))))
  (Some (Build_desc (Some (bs "808[1-9]\d\d")) [(6)%Z] [] (Some (bs "808123"))))
  (Some (Build_desc (Some (bs "700[2-9]\d{4}")) [(8)%Z] [] (Some (bs "70021234"))))
  (Some (Build_desc None [(-1)%Z] [] None))
  (Some (Build_desc None [(-1)%Z] [] None))
  (Some (Build_desc None [(-1)%Z] [] None))
  None
  (Some (Build_desc None [(-1)%Z] [] None))
  None
  None
  None
  None
  (Some (Build_desc None [(-1)%Z] [] None))
  (Some (bs "AL")) (Some (355)%Z) (Some (bs "00")) None (Some (bs "0"))
  None (Some (bs "0")) None None
  [Build_nfmt (Some (bs "(\d{3})(\d{3,4})")) (Some (bs "$1 $2")) [bs "80|9"] (Some (bs "0$1")) None None;
    Build_nfmt (Some (bs "(\d)(\d{3})(\d{4})")) (Some (bs "$1 $2 $3")) [bs "4[2-6]"] (Some (bs "0$1")) None None;
    Build_nfmt (Some (bs "(\d{2})(\d{3})(\d{3})")) (Some (bs "$1 $2 $3")) [bs "[2358][2-5]|4"] (Some (bs "0$1")) None None;
    Build_nfmt (Some (bs "(\d{3})(\d{5})")) (Some (bs "$1 $2")) [bs "[23578]"] (Some (bs "0$1")) None None;
    Build_nfmt (Some (bs "(\d{2})(\d{3})(\d{4})")) (Some (bs "$1 $2 $3")) [bs "6"] (Some (bs "0$1")) None None]
  []
  None None (Some true).

Definition md_AM : meta := Eval vm_compute in Build_meta
  (Some (Build_desc (Some (bs "(?:[1-489]\d|55|60|77)\d{6}")) [(8)%Z] [(5)%Z; (6)%Z] None))
  (Some (Build_desc (Some (bs "(?:(?:1[0-25]|47)\d|2(?:2[2-46]|3[1-8]|4[2-69]|5[2-7]|6[1-9]|8[1-7])|3[12]2)\d{5}")) [] [(5)%Z; (6)%Z] (Some (bs "10123456"))))
  (Some (Build_desc (Some (bs "(?:33|4[1349]|55|77|88|9[13-9])\d{6}")) [] [] (Some (bs "77123456"))))
  (Some (Build_desc (Some (bs "800\d{5}")) [] [] (Some (bs "80012345"))))
  (Some (Build_desc (Some (bs "90[016]\d{5}")) [] [] (Some (bs "90012345"))))
  (Some (Build_desc (Some (bs "80[1-4]\d{5}")) [] [] (Some (bs "80112345"))))
  (Some (Build_desc None [(-1)%Z] [] None))
  (Some (Build_desc (Some (bs "60(?:2[78]|3[5-9]|4[02-9]|5[0-46-9]|[6-8]\d|9[0-2])\d{4}")) [] [] (Some (bs "60271234"))))
  (Some (Build_desc None [(-1)%Z] [] None))
  (Some (Build_desc None [(-1)%Z] [] None))
  None
  (Some (Build_desc None [(-1)%Z] [] None))
  None
  None
  None
  None
  (Some (Build_desc None [(-1)%Z] [] None))
  (Some (bs "AM")) (Some (374)%Z) (Some (bs "00")) None (Some (bs "0"))
  None (Some (bs "0")) None None
  [Build_nfmt (Some (bs "(\d{3})(\d{2})(\d{3})")) (Some (bs "$1 $2 $3")) [bs "[89]0"] (Some (bs "0 $1")) None None;
    Build_nfmt (Some (bs "(\d{3})(\d{5})")) (Some (bs "$1 $2")) [bs "2|3[12]"] (Some (bs "(0$1)")) None None;
    Build_nfmt (Some (bs "(\d{2})(\d{6})")) (Some (bs "$1 $2")) [bs "1|47"] (Some (bs "(0$1)")) None None;
    Build_nfmt (Some (bs "(\d{2})(\d{6})")) (Some (bs "$1 $2")) [bs "[3-9]"] (Some (bs "0$1")) None None]
  []
  None None (Some true).

Definition md_AO : meta := Eval vm_compute in Build_meta
  (Some (Build_desc (Some (bs "[29]\d{8}")) [(9)%Z] [] None))
  (Some (Build_desc (Some (bs "2\d(?:[0134][25-9]|[25-9]\d)\d{5}")) [] [] (Some (bs "222123456"))))
  (Some (Build_desc (Some (bs "9[1-79]\d{7}")) [] [] (Some (bs "923123456"))))
  (Some (Build_desc None [(-1)%Z] [] None))
  (Some (Build_desc None [(-1)%Z] [] None))
  (Some (Build_desc None [(-1)%Z] [] None))
  (Some (Build_desc None [(-1)%Z] [] None))
  (Some (Build_desc None [(-1)%Z] [] None))
  (Some (Build_desc None [(-1)%Z] [] None))
  (Some (Build_desc None [(-1)%Z] [] None))
  None
  (Some (Build_desc None [(-1)%Z] [] None))
  None
  None
  None
  None
  (Some (Build_desc None [(-1)%Z] [] None))
  (Some (bs "AO")) (Some (244)%Z) (Some (bs "00")) None None
  None None None None
  [Build_nfmt (Some (bs "(\d{3})(\d{3})(\d{3})")) (Some (bs "$1 $2 $3")) [bs "[29]"] None None None]
  []
  None None None.

Definition md_AR : meta := Eval vm_compute in Build_meta
  (Some (Build_desc (Some (bs "(?:11|[89]\d\d)\d{8}|[2368]\d{9}")) [(10)%Z; (11)%Z] [(6)%Z; (7)%Z; (8)%Z] None))
  (Some (Build_desc (Some (bs "3(?:7(?:1[15]|81)|8(?:21|4[16]|69|9[12]))[46]\d{5}|(?:2(?:2(?:2[59]|44|52)|3(?:26|44)|47[35]|9(?:[07]2|2[26]|34|46))|3327)[45]\d{5}|(?:2(?:657|9(?:54|66))|3(?:48[27]|7(?:55|77)|8(?:65|78)))[2-8]\d{5}|(?:2(?:284|3(?:02|23)|477|622|920)|3(?:4(?:46|89|92)|541))[2-7]\d{5}|(?:(?:11[0-8]|670)\d|2(?:2(?:0[45]|1[2-6]|3[3-6])|3(?:[06]4|7[45])|494|6(?:04|1[2-8]|[36][45]|4[3-6])|80[45]|9(?:[17][4-6]|[48][45]|9[3-6]))|3(?:364|4(?:1[2-8]|[25][4-6]|3[3-6]|84)|5(?:1[2-9]|[38][4-6])|6(?:2[45]|44)|7[069][45]|8(?:0[45]|1[2-7]|3[4-6]|5[3-6]|7[2-6]|8[3-68])))\d{6}|(?:2(?:2(?:62|81)|320|9(?:42|83))|3(?:329|4(?:62|7[16])|5(?:43|64)|7(?:18|5[17])))[2-6]\d{5}|2(?:2(?:21|4[23]|6[145]|7[1-4]|8[356]|9[267])|3(?:16|3[13-8]|43|5[346-8]|9[3-5])|6(?:2[46]|4[78]|5[1568])|9(?:03|2[1457-9]|3[1356]|4[08]|[56][23]|82))4\d{5}|(?:2(?:257|3(?:24|46|92)|9(?:01|23|64))|3(?:4(?:42|64)|5(?:25|37|4[47]|71)|7(?:35|72)|825))[3-6]\d{5}|(?:2(?:2(?:02|2[3467]|4[156]|5[45]|6[6-8]|91)|3(?:1[47]|25|[45][25]|96)|47[48]|625|932)|3(?:38[2578]|4(?:0[0-24-9]|3[78]|4[457]|58|6[035-9]|72|83|9[136-8])|5(?:2[124]|[368][23]|4[2689]|7[2-6])|7(?:16|2[15]|3[14]|4[13]|5[468]|7[3-5]|8[26])|8(?:2[67]|3[278]|4[3-5]|5[78]|6[1-378]|[78]7|94)))[4-6]\d{5}")) [(10)%Z] [(6)%Z; (7)%Z; (8)%Z] (Some (bs "1123456789"))))
  (Some (Build_desc (Some (bs "93(?:7(?:1[15]|81)|8(?:21|4[16]|69|9[12]))[46]\d{5}|9(?:2(?:2(?:2[59]|44|52)|3(?:26|44)|47[35]|9(?:[07]2|2[26]|34|46))|3327)[45]\d{5}|9(?:2(?:657|9(?:54|66))|3(?:48[27]|7(?:55|77)|8(?:65|78)))[2-8]\d{5}|9(?:2(?:284|3(?:02|23)|477|622|920)|3(?:4(?:46|89|92)|541))[2-7]\d{5}|(?:675\d|9(?:11[0-8]\d|2(?:2(?:0[45]|1[2-6]|3[3-6])|3(?:[06]4|7[45])|494|6(?:04|1[2-8]|[36][45]|4[3-6])|80[45]|9(?:[17][4-6]|[48][45]|9[3-6]))|3(?:364|4(?:1[2-8]|[25][4-6]|3[3-6]|84)|5(?:1[2-9]|[38][4-6])|6(?:2[45]|44)|7[069][45]|8(?:0[45]|1[2-7]|3[4-6]|5[3-6]|7[2-6]|8[3-68]))))\d{6}|9(?:2(?:2(?:62|81)|320|9(?:42|83))|3(?:329|4(?:62|7[16])|5(?:43|64)|7(?:18|5[17])))[2-6]\d{5}|92(?:2(?:21|4[23]|6[145]|7[1-4]|8[356]|9[267])|3(?:16|3[13-8]|43|5[346-8]|9[3-5])|6(?:2[46]|4[78]|5[1568])|9(?:03|2[1457-9]|3[1356]|4[08]|[56][23]|82))4\d{5}|9(?:2(?:257|3(?:24|46|92)|9(?:01|23|64))|3(?:4(?:42|64)|5(?:25|37|4[47]|71)|7(?:35|72)|825))[3-6]\d{5}|9(?:2(?:2(?:02|2[3467]|4[156]|5[45]|6[6-8]|91)|3(?:1[47]|25|[45][25]|96)|47[48]|625|932)|3(?:38[2578]|4(?:0[0-24-9]|3[78]|4[457]|58|6[035-9]|72|83|9[136-8])|5(?:2[124]|[368][23]|4[2689]|7[2-6])|7(?:16|2[15]|3[14]|4[13]|5[468]|7[3-5]|8[26])|8(?:2[67]|3[278]|4[3-5]|5[78]|6[1-378]|[78]7|94)))[4-6]\d{5}")) [] [(6)%Z; (7)%Z; (8)%Z] (Some (bs "91123456789"))))
  (Some (Build_desc (Some (bs "800\d{7,8}")) [] [] (Some (bs "8001234567"))))
  (Some (Build_desc (Some (bs "60[04579]\d{7}")) [(10)%Z] [] (Some (bs "6001234567"))))
  (Some (Build_desc None [(-1)%Z] [] None))
  (Some (Build_desc None [(-1)%Z] [] None))
  (Some (Build_desc None [(-1)%Z] [] None))
  (Some (Build_desc None [(-1)%Z] [] None))
  (Some (Build_desc (Some (bs "810\d{7}")) [(10)%Z] [] (Some (bs "8101234567"))))
  None
  (Some (Build_desc None [(-1)%Z] [] None))
  None
  None
  None
  None
  (Some (Build_desc (Some (bs "810\d{7}")) [(10)%Z] [] None))
  (Some (bs "AR")) (Some (54)%Z) (Some (bs "00")) None (Some (bs "0"))
  None (Some (bs "0?(?:(11|2(?:2(?:02?|[13]|2[13-79]|4[1-6]|5[2457]|6[124-8]|7[1-4]|8[13-6]|9[1267])|3(?:02?|1[467]|2[03-6]|3[13-8]|[49][2-6]|5[2-8]|[67])|4(?:7[3-578]|9)|6(?:[0136]|2[24-6]|4[6-8]?|5[15-8])|80|9(?:0[1-3]|[19]|2\d|3[1-6]|4[02568]?|5[2-4]|6[2-46]|72?|8[23]?))|3(?:3(?:2[79]|6|8[2578])|4(?:0[0-24-9]|[12]|3[5-8]?|4[24-7]|5[4-68]?|6[02-9]|7[126]|8[2379]?|9[1-36-8])|5(?:1|2[1245]|3[237]?|4[1-46-9]|6[2-4]|7[1-6]|8[2-5]?)|6[24]|7(?:[069]|1[1568]|2[15]|3[145]|4[13]|5[14-8]|7[2-57]|8[126])|8(?:[01]|2[15-7]|3[2578]?|4[13-6]|5[4-8]?|6[1-357-9]|7[36-8]?|8[5-8]?|9[124])))15)?")) (Some (bs "9$1")) None
  [Build_nfmt (Some (bs "(\d{3})")) (Some (bs "$1")) [bs "0|1(?:0[0-35-7]|1[02-5]|2[015]|3[47]|4[478])|911"] None None None;
    Build_nfmt (Some (bs "(\d{2})(\d{4})")) (Some (bs "$1-$2")) [bs "[1-9]"] None None None;
    Build_nfmt (Some (bs "(\d{3})(\d{4})")) (Some (bs "$1-$2")) [bs "[2-9]"] None None None;
    Build_nfmt (Some (bs "(\d{4})(\d{4})")) (Some (bs "$1-$2")) [bs "[1-8]"] None None None;
    Build_nfmt (Some (bs "(\d{4})(\d{2})(\d{4})")) (Some (bs "$1 $2-$3")) [bs "2(?:2[024-9]|3[0-59]|47|6[245]|9[02-8])|3(?:3[28]|4[03-9]|5[2-46-8]|7[1-578]|8[2-9])"; bs "2(?:[23]02|6(?:[25]|4[6-8])|9(?:[02356]|4[02568]|72|8[23]))|3(?:3[28]|4(?:[04679]|3[5-8]|5[4-68]|8[2379])|5(?:[2467]|3[237]|8[2-5])|7[1-578]|8(?:[2469]|3[2578]|5[4-8]|7[36-8]|8[5-8]))|2(?:2[24-9]|3[1-59]|47)"; bs "2(?:[23]02|6(?:[25]|4(?:64|[78]))|9(?:[02356]|4(?:[0268]|5[2-6])|72|8[23]))|3(?:3[28]|4(?:[04679]|3[78]|5(?:4[46]|8)|8[2379])|5(?:[2467]|3[237]|8[23])|7[1-578]|8(?:[2469]|3[278]|5[56][46]|86[3-6]))|2(?:2[24-9]|3[1-59]|47)|38(?:[58][78]|7[378])|3(?:4[35][56]|58[45]|8(?:[38]5|54|76))[4-6]"; bs "2(?:[23]02|6(?:[25]|4(?:64|[78]))|9(?:[02356]|4(?:[0268]|5[2-6])|72|8[23]))|3(?:3[28]|4(?:[04679]|3(?:5(?:4[0-25689]|[56])|[78])|58|8[2379])|5(?:[2467]|3[237]|8(?:[23]|4(?:[45]|60)|5(?:4[0-39]|5|64)))|7[1-578]|8(?:[2469]|3[278]|54(?:4|5[13-7]|6[89])|86[3-6]))|2(?:2[24-9]|3[1-59]|47)|38(?:[58][78]|7[378])|3(?:454|85[56])[46]|3(?:4(?:36|5[56])|8(?:[38]5|76))[4-6]"] (Some (bs "0$1")) (Some true) None;
    Build_nfmt (Some (bs "(\d{2})(\d{4})(\d{4})")) (Some (bs "$1 $2-$3")) [bs "1"] (Some (bs "0$1")) (Some true) None;
    Build_nfmt (Some (bs "(\d{3})(\d{3})(\d{4})")) (Some (bs "$1-$2-$3")) [bs "[68]"] (Some (bs "0$1")) None None;
    Build_nfmt (Some (bs "(\d{3})(\d{3})(\d{4})")) (Some (bs "$1 $2-$3")) [bs "[23]"] (Some (bs "0$1")) (Some true) None;
    Build_nfmt (Some (bs "(\d)(\d{4})(\d{2})(\d{4})")) (Some (bs "$2 15-$3-$4")) [bs "9(?:2[2-469]|3[3-578])"; bs "9(?:2(?:2[024-9]|3[0-59]|47|6[245]|9[02-8])|3(?:3[28]|4[03-9]|5[2-46-8]|7[1-578]|8[2-9]))"; bs "9(?:2(?:[23]02|6(?:[25]|4[6-8])|9(?:[02356]|4[02568]|72|8[23]))|3(?:3[28]|4(?:[04679]|3[5-8]|5[4-68]|8[2379])|5(?:[2467]|3[237]|8[2-5])|7[1-578]|8(?:[2469]|3[2578]|5[4-8]|7[36-8]|8[5-8])))|92(?:2[24-9]|3[1-59]|47)"; bs "9(?:2(?:[23]02|6(?:[25]|4(?:64|[78]))|9(?:[02356]|4(?:[0268]|5[2-6])|72|8[23]))|3(?:3[28]|4(?:[04679]|3[78]|5(?:4[46]|8)|8[2379])|5(?:[2467]|3[237]|8[23])|7[1-578]|8(?:[2469]|3[278]|5(?:[56][46]|[78])|7[378]|8(?:6[3-6]|[78]))))|92(?:2[24-9]|3[1-59]|47)|93(?:4[35][56]|58[45]|8(?:[38]5|54|76))[4-6]"; bs "9(?:2(?:[23]02|6(?:[25]|4(?:64|[78]))|9(?:[02356]|4(?:[0268]|5[2-6])|72|8[23]))|3(?:3[28]|4(?:[04679]|3(?:5(?:4[0-25689]|[56])|[78])|5(?:4[46]|8)|8[2379])|5(?:[2467]|3[237]|8(?:[23]|4(?:[45]|60)|5(?:4[0-39]|5|64)))|7[1-578]|8(?:[2469]|3[278]|5(?:4(?:4|5[13-7]|6[89])|[56][46]|[78])|7[378]|8(?:6[3-6]|[78]))))|92(?:2[24-9]|3[1-59]|47)|93(?:4(?:36|5[56])|8(?:[38]5|76))[4-6]"] (Some (bs "0$1")) None None;
    Build_nfmt (Some (bs "(\d)(\d{2})(\d{4})(\d{4})")) (Some (bs "$2 15-$3-$4")) [bs "91"] (Some (bs "0$1")) None None;
    Build_nfmt (Some (bs "(\d{3})(\d{3})(\d{5})")) (Some (bs "$1-$2-$3")) [bs "8"] (Some (bs "0$1")) None None;
    Build_nfmt (Some (bs "(\d)(\d{3})(\d{3})(\d{4})")) (Some (bs "$2 15-$3-$4")) [bs "9"] (Some (bs "0$1")) None None]
  [Build_nfmt (Some (bs "(\d{4})(\d{2})(\d{4})")) (Some (bs "$1 $2-$3")) [bs "2(?:2[024-9]|3[0-59]|47|6[245]|9[02-8])|3(?:3[28]|4[03-9]|5[2-46-8]|7[1-578]|8[2-9])"; bs "2(?:[23]02|6(?:[25]|4[6-8])|9(?:[02356]|4[02568]|72|8[23]))|3(?:3[28]|4(?:[04679]|3[5-8]|5[4-68]|8[2379])|5(?:[2467]|3[237]|8[2-5])|7[1-578]|8(?:[2469]|3[2578]|5[4-8]|7[36-8]|8[5-8]))|2(?:2[24-9]|3[1-59]|47)"; bs "2(?:[23]02|6(?:[25]|4(?:64|[78]))|9(?:[02356]|4(?:[0268]|5[2-6])|72|8[23]))|3(?:3[28]|4(?:[04679]|3[78]|5(?:4[46]|8)|8[2379])|5(?:[2467]|3[237]|8[23])|7[1-578]|8(?:[2469]|3[278]|5[56][46]|86[3-6]))|2(?:2[24-9]|3[1-59]|47)|38(?:[58][78]|7[378])|3(?:4[35][56]|58[45]|8(?:[38]5|54|76))[4-6]"; bs "2(?:[23]02|6(?:[25]|4(?:64|[78]))|9(?:[02356]|4(?:[0268]|5[2-6])|72|8[23]))|3(?:3[28]|4(?:[04679]|3(?:5(?:4[0-25689]|[56])|[78])|58|8[2379])|5(?:[2467]|3[237]|8(?:[23]|4(?:[45]|60)|5(?:4[0-39]|5|64)))|7[1-578]|8(?:[2469]|3[278]|54(?:4|5[13-7]|6[89])|86[3-6]))|2(?:2[24-9]|3[1-59]|47)|38(?:[58][78]|7[378])|3(?:454|85[56])[46]|3(?:4(?:36|5[56])|8(?:[38]5|76))[4-6]"] (Some (bs "0$1")) (Some true) None;
    Build_nfmt (Some (bs "(\d{2})(\d{4})(\d{4})")) (Some (bs "$1 $2-$3")) [bs "1"] (Some (bs "0$1")) (Some true) None;
    Build_nfmt (Some (bs "(\d{3})(\d{3})(\d{4})")) (Some (bs "$1-$2-$3")) [bs "[68]"] (Some (bs "0$1")) None None;
    Build_nfmt (Some (bs "(\d{3})(\d{3})(\d{4})")) (Some (bs "$1 $2-$3")) [bs "[23]"] (Some (bs "0$1")) (Some true) None;
    Build_nfmt (Some (bs "(\d)(\d{4})(\d{2})(\d{4})")) (Some (bs "$1 $2 $3-$4")) [bs "9(?:2[2-469]|3[3-578])"; bs "9(?:2(?:2[024-9]|3[0-59]|47|6[245]|9[02-8])|3(?:3[28]|4[03-9]|5[2-46-8]|7[1-578]|8[2-9]))"; bs "9(?:2(?:[23]02|6(?:[25]|4[6-8])|9(?:[02356]|4[02568]|72|8[23]))|3(?:3[28]|4(?:[04679]|3[5-8]|5[4-68]|8[2379])|5(?:[2467]|3[237]|8[2-5])|7[1-578]|8(?:[2469]|3[2578]|5[4-8]|7[36-8]|8[5-8])))|92(?:2[24-9]|3[1-59]|47)"; bs "9(?:2(?:[23]02|6(?:[25]|4(?:64|[78]))|9(?:[02356]|4(?:[0268]|5[2-6])|72|8[23]))|3(?:3[28]|4(?:[04679]|3[78]|5(?:4[46]|8)|8[2379])|5(?:[2467]|3[237]|8[23])|7[1-578]|8(?:[2469]|3[278]|5(?:[56][46]|[78])|7[378]|8(?:6[3-6]|[78]))))|92(?:2[24-9]|3[1-59]|47)|93(?:4[35][56]|58[45]|8(?:[38]5|54|76))[4-6]"; bs "9(?:2(?:[23]02|6(?:[25]|4(?:64|[78]))|9(?:[02356]|4(?:[0268]|5[2-6])|72|8[23]))|3(?:3[28]|4(?:[04679]|3(?:5(?:4[0-25689]|[56])|[78])|5(?:4[46]|8)|8[2379])|5(?:[2467]|3[237]|8(?:[23]|4(?:[45]|60)|5(?:4[0-39]|5|64)))|7[1-578]|8(?:[2469]|3[278]|5(?:4(?:4|5[13-7]|6[89])|[56][46]|[78])|7[378]|8(?:6[3-6]|[78]))))|92(?:2[24-9]|3[1-59]|47)|93(?:4(?:36|5[56])|8(?:[38]5|76))[4-6]"] None None None;
    Build_nfmt (Some (bs "(\d)(\d{2})(\d{4})(\d{4})")) (Some (bs "$1 $2 $3-$4")) [bs "91"] None None None;
    Build_nfmt (Some (bs "(\d{3})(\d{3})(\d{5})")) (Some (bs "$1-$2-$3")) [bs "8"] (Some (bs "0$1")) None None;
    Build_nfmt (Some (bs "(\d)(\d{3})(\d{3})(\d{4})")) (Some (bs "$1 $2 $3-$4")) [bs "9"] None None None]
  None None (Some true).

Definition md_AS : meta := Eval vm_compute in Build_meta
  (Some (Build_desc (Some (bs "(?:[58]\d\d|684|900)\d{7}")) [(10)%Z] [(7)%Z] None))
  (Some (Build_desc (Some (bs "684(?:274|6(?:22|33|44|55|77|88|9[19]))\d{4}")) [] [(7)%Z] (Some (bs "6846221234"))))
  (Some (Build_desc (Some (bs "684(?:2(?:48|5[2468]|7[246])|7(?:3[13]|70|82))\d{4}")) [] [(7)%Z] (Some (bs "6847331234"))))
  (Some (Build_desc (Some (bs "8(?:00|33|44|55|66|77|88)[2-9]\d{6}")) [] [] (Some (bs "8002123456"))))
  (Some (Build_desc (Some (bs "900[2-9]\d{6}")) [] [] (Some (bs "9002123456"))))
  (Some (Build_desc None [(-1)%Z] [] None))
  (Some (Build_desc (Some (bs "52(?:3(?:[2-46-9][02-9]\d|5(?:[02-46-9]\d|5[0-46-9]))|4(?:[2-478][02-9]\d|5(?:[034]\d|2[024-9]|5[0-46-9])|6(?:0[1-9]|[2-9]\d)|9(?:[05-9]\d|2[0-5]|49)))\d{4}|52[34][2-9]1[02-9]\d{4}|5(?:00|2[125-9]|3[23]|44|66|77|88)[2-9]\d{6}")) [] [] (Some (bs "5002345678"))))
  (Some (Build_desc None [(-1)%Z] [] None))
  (Some (Build_desc None [(-1)%Z] [] None))
  (Some (Build_desc None [(-1)%Z] [] None))
  None
  (Some (Build_desc None [(-1)%Z] [] None))
  None
  None
  None
  None
  (Some (Build_desc None [(-1)%Z] [] None))
  (Some (bs "AS")) (Some (1)%Z) (Some (bs "011")) None (Some (bs "1"))
  None (Some (bs "([267]\d{6})$|1")) (Some (bs "684$1")) None
  []
  []
  None (Some (bs "684")) None.

Definition md_AT : meta := Eval vm_compute in Build_meta
  (Some (Build_desc (Some (bs "1\d{3,12}|2\d{6,12}|43(?:(?:0\d|5[02-9])\d{3,9}|2\d{4,5}|[3467]\d{4}|8\d{4,6}|9\d{4,7})|5\d{4,12}|8\d{7,12}|9\d{8,12}|(?:[367]\d|4[0-24-9])\d{4,11}")) [(4)%Z; (5)%Z; (6)%Z; (7)%Z; (8)%Z; (9)%Z; (10)%Z; (11)%Z; (12)%Z; (13)%Z] [(3)%Z] None))
  (Some (Build_desc (Some (bs "1(?:11\d|[2-9]\d{3,11})|(?:316|463)\d{3,10}|648[34]\d{3,9}|(?:51|66|73)2\d{3,10}|(?:2(?:1[467]|2[13-8]|5[2357]|6[1-46-8]|7[1-8]|8[124-7]|9[1458])|3(?:1[1-578]|3[23568]|4[5-7]|5[1378]|6[1-38]|8[3-68])|4(?:2[1-8]|35|7[1368]|8[2457])|5(?:2[1-8]|3[357]|4[147]|5[12578]|6[37])|6(?:13|2[1-47]|4[135-7]|5[468])|7(?:2[1-8]|35|4[13478]|5[68]|6[16-8]|7[1-6]|9[45]))\d{4,10}")) [] [(3)%Z] (Some (bs "1234567890"))))
  (Some (Build_desc (Some (bs "6(?:485|(?:5[0-3579]|6[013-9]|[7-9]\d)\d)\d{3,9}")) [(7)%Z; (8)%Z; (9)%Z; (10)%Z; (11)%Z; (12)%Z; (13)%Z] [] (Some (bs "664123456"))))
  (Some (Build_desc (Some (bs "800\d{6,10}")) [(9)%Z; (10)%Z; (11)%Z; (12)%Z; (13)%Z] [] (Some (bs "800123456"))))
  (Some (Build_desc (Some (bs "(?:8[69][2-68]|9(?:0[01]|3[019]))\d{6,10}")) [(9)%Z; (10)%Z; (11)%Z; (12)%Z; (13)%Z] [] (Some (bs "900123456"))))
  (Some (Build_desc (Some (bs "8(?:10|2[018])\d{6,10}|828\d{5}")) [(8)%Z; (9)%Z; (10)%Z; (11)%Z; (12)%Z; (13)%Z] [] (Some (bs "810123456"))))
  (Some (Build_desc None [(-1)%Z] [] None))
  (Some (Build_desc (Some (bs "5(?:0[1-9]|17|[79]\d)\d{2,10}|7[28]0\d{6,10}")) [(5)%Z; (6)%Z; (7)%Z; (8)%Z; (9)%Z; (10)%Z; (11)%Z; (12)%Z; (13)%Z] [] (Some (bs "780123456"))))
  (Some (Build_desc None [(-1)%Z] [] None))
  (Some (Build_desc None [(-1)%Z] [] None))
  None
  (Some (Build_desc None [(-1)%Z] [] None))
  None
  None
  None
  None
  (Some (Build_desc None [(-1)%Z] [] None))
  (Some (bs "AT")) (Some (43)%Z) (Some (bs "00")) None (Some (bs "0"))
  None (Some (bs "0")) None None
  [Build_nfmt (Some (bs "(\d{4})")) (Some (bs "$1")) [bs "14"] None None None;
    Build_nfmt (Some (bs "(\d)(\d{3,12})")) (Some (bs "$1 $2")) [bs "1(?:11|[2-9])"] (Some (bs "0$1")) None None;
    Build_nfmt (Some (bs "(\d{3})(\d{2})")) (Some (bs "$1 $2")) [bs "517"] (Some (bs "0$1")) None None;
    Build_nfmt (Some (bs "(\d{2})(\d{3,5})")) (Some (bs "$1 $2")) [bs "5[079]"] (Some (bs "0$1")) None None;
    Build_nfmt (Some (bs "(\d{6})")) (Some (bs "$1")) [bs "[18]"] None None None;
    Build_nfmt (Some (bs "(\d{3})(\d{3,10})")) (Some (bs "$1 $2")) [bs "(?:31|4)6|51|6(?:48|5[0-3579]|[6-9])|7(?:20|32|8)|[89]"; bs "(?:31|4)6|51|6(?:485|5[0-3579]|[6-9])|7(?:20|32|8)|[89]"] (Some (bs "0$1")) None None;
    Build_nfmt (Some (bs "(\d{4})(\d{3,9})")) (Some (bs "$1 $2")) [bs "[2-467]|5[2-6]"] (Some (bs "0$1")) None None;
    Build_nfmt (Some (bs "(\d{2})(\d{3})(\d{3,4})")) (Some (bs "$1 $2 $3")) [bs "5"] (Some (bs "0$1")) None None;
    Build_nfmt (Some (bs "(\d{2})(\d{4})(\d{4,7})")) (Some (bs "$1 $2 $3")) [bs "5"] (Some (bs "0$1")) None None]
  [Build_nfmt (Some (bs "(\d)(\d{3,12})")) (Some (bs "$1 $2")) [bs "1(?:11|[2-9])"] (Some (bs "0$1")) None None;
    Build_nfmt (Some (bs "(\d{3})(\d{2})")) (Some (bs "$1 $2")) [bs "517"] (Some (bs "0$1")) None None;
    Build_nfmt (Some (bs "(\d{2})(\d{3,5})")) (Some (bs "$1 $2")) [bs "5[079]"] (Some (bs "0$1")) None None;
    Build_nfmt (Some (bs "(\d{3})(\d{3,10})")) (Some (bs "$1 $2")) [bs "(?:31|4)6|51|6(?:48|5[0-3579]|[6-9])|7(?:20|32|8)|[89]"; bs "(?:31|4)6|51|6(?:485|5[0-3579]|[6-9])|7(?:20|32|8)|[89]"] (Some (bs "0$1")) None None;
    Build_nfmt (Some (bs "(\d{4})(\d{3,9})")) (Some (bs "$1 $2")) [bs "[2-467]|5[2-6]"] (Some (bs "0$1")) None None;
    Build_nfmt (Some (bs "(\d{2})(\d{3})(\d{3,4})")) (Some (bs "$1 $2 $3")) [bs "5"] (Some (bs "0$1")) None None;
    Build_nfmt (Some (bs "(\d{2})(\d{4})(\d{4,7})")) (Some (bs "$1 $2 $3")) [bs "5"] (Some (bs "0$1")) None None]
  None None (Some true).

Definition md_AU : meta := Eval vm_compute in Build_meta
  (Some (Build_desc (Some (bs "1(?:[0-79]\d{7}(?:\d(?:\d{2})?)?|8[0-24-9]\d{7})|[2-478]\d{8}|1\d{4,7}")) [(5)%Z; (6)%Z; (7)%Z; (8)%Z; (9)%Z; (10)%Z; (12)%Z] [] None))
  (Some (Build_desc (Some (bs "(?:(?:241|349)0\d\d|8(?:51(?:0(?:0[03-9]|[12479]\d|3[2-9]|5[0-8]|6[1-9]|8[0-7])|1(?:[0235689]\d|1[0-69]|4[0-589]|7[0-47-9])|2(?:0[0-79]|[18][13579]|2[14-9]|3[0-46-9]|[4-6]\d|7[89]|9[0-4])|[34]\d\d)|91(?:(?:[0-58]\d|6[0135-9])\d|7(?:0[0-24-9]|[1-9]\d)|9(?:[0-46-9]\d|5[0-79]))))\d{3}|(?:2(?:[0-26-9]\d|3[0-8]|4[02-9]|5[0135-9])|3(?:[0-3589]\d|4[0-578]|6[1-9]|7[0-35-9])|7(?:[013-57-9]\d|2[0-8])|8(?:55|6[0-8]|[78]\d|9[02-9]))\d{6}")) [(9)%Z] [(8)%Z] (Some (bs "212345678"))))
  (Some (Build_desc (Some (bs "4(?:79[01]|83[0-36-9]|95[0-3])\d{5}|4(?:[0-36]\d|4[047-9]|[58][0-24-9]|7[02-8]|9[0-47-9])\d{6}")) [(9)%Z] [] (Some (bs "412345678"))))
  (Some (Build_desc (Some (bs "180(?:0\d{3}|2)\d{3}")) [(7)%Z; (10)%Z] [] (Some (bs "1800123456"))))
  (Some (Build_desc (Some (bs "190[0-26]\d{6}")) [(10)%Z] [] (Some (bs "1900123456"))))
  (Some (Build_desc (Some (bs "13(?:00\d{6}(?:\d{2})?|45[0-4]\d{3})|13\d{4}")) [(6)%Z; (8)%Z; (10)%Z; (12)%Z] [] (Some (bs "1300123456"))))
  (Some (Build_desc None [(-1)%Z] [] None))
  (Some (Build_desc (Some (bs "14(?:5(?:1[0458]|[23][458])|71\d)\d{4}")) [(9)%Z] [] (Some (bs "147101234"))))
  (Some (Build_desc (Some (bs "163\d{2,6}")) [(5)%Z; (6)%Z; (7)%Z; (8)%Z; (9)%Z] [] (Some (bs "1631234"))))
  (Some (Build_desc None [(-1)%Z] [] None))
  None
  (Some (Build_desc None [(-1)%Z] [] None))
  None
  None
  None
  None
  (Some (Build_desc (Some (bs "1(?:3(?:00\d{5}|45[0-4])|802)\d{3}|1[38]00\d{6}|13\d{4}")) [(6)%Z; (7)%Z; (8)%Z; (10)%Z; (12)%Z] [] None))
  (Some (bs "AU")) (Some (61)%Z) (Some (bs "001[14-689]|14(?:1[14]|34|4[17]|[56]6|7[47]|88)0011")) (Some (bs "0011")) (Some (bs "0"))
  None (Some (bs "(183[12])|0")) None None
  [Build_nfmt (Some (bs "(\d{2})(\d{3,4})")) (Some (bs "$1 $2")) [bs "16"] (Some (bs "0$1")) None None;
    Build_nfmt (Some (bs "(\d{2})(\d{2})(\d{2})")) (Some (bs "$1 $2 $3")) [bs "13"] None None None;
    Build_nfmt (Some (bs "(\d{3})(\d{3})")) (Some (bs "$1 $2")) [bs "19"] None None None;
    Build_nfmt (Some (bs "(\d{3})(\d{4})")) (Some (bs "$1 $2")) [bs "180"; bs "1802"] None None None;
    Build_nfmt (Some (bs "(\d{4})(\d{3,4})")) (Some (bs "$1 $2")) [bs "19"] None None None;
    Build_nfmt (Some (bs "(\d{2})(\d{3})(\d{2,4})")) (Some (bs "$1 $2 $3")) [bs "16"] (Some (bs "0$1")) None None;
    Build_nfmt (Some (bs "(\d{3})(\d{3})(\d{3})")) (Some (bs "$1 $2 $3")) [bs "14|4"] (Some (bs "0$1")) None None;
    Build_nfmt (Some (bs "(\d)(\d{4})(\d{4})")) (Some (bs "$1 $2 $3")) [bs "[2378]"] (Some (bs "(0$1)")) None (Some (bs "$CC ($1)"));
    Build_nfmt (Some (bs "(\d{4})(\d{3})(\d{3})")) (Some (bs "$1 $2 $3")) [bs "1(?:30|[89])"] None None None;
    Build_nfmt (Some (bs "(\d{4})(\d{4})(\d{4})")) (Some (bs "$1 $2 $3")) [bs "130"] None None None]
  [Build_nfmt (Some (bs "(\d{2})(\d{3,4})")) (Some (bs "$1 $2")) [bs "16"] (Some (bs "0$1")) None None;
    Build_nfmt (Some (bs "(\d{2})(\d{3})(\d{2,4})")) (Some (bs "$1 $2 $3")) [bs "16"] (Some (bs "0$1")) None None;
    Build_nfmt (Some (bs "(\d{3})(\d{3})(\d{3})")) (Some (bs "$1 $2 $3")) [bs "14|4"] (Some (bs "0$1")) None None;
    Build_nfmt (Some (bs "(\d)(\d{4})(\d{4})")) (Some (bs "$1 $2 $3")) [bs "[2378]"] (Some (bs "(0$1)")) None (Some (bs "$CC ($1)"));
    Build_nfmt (Some (bs "(\d{4})(\d{3})(\d{3})")) (Some (bs "$1 $2 $3")) [bs "1(?:30|[89])"] None None None]
  (Some true) None (Some true).

Definition md_AW : meta := Eval vm_compute in Build_meta
  (Some (Build_desc (Some (bs "(?:[25-79]\d\d|800)\d{4}")) [(7)%Z] [] None))
  (Some (Build_desc (Some (bs "5(?:2\d|8[1-9])\d{4}")) [] [] (Some (bs "5212345"))))
  (Some (Build_desc (Some (bs "(?:290|5[69]\d|6(?:[03]0|22|4[0-2]|[69]\d)|7(?:[34]\d|7[07])|9(?:6[45]|9[4-8]))\d{4}")) [] [] (Some (bs "5601234"))))
  (Some (Build_desc (Some (bs "800\d{4}")) [] [] (Some (bs "8001234"))))
  (Some (Build_desc (Some (bs "900\d{4}")) [] [] (Some (bs "9001234"))))
  (Some (Build_desc None [(-1)%Z] [] None))
  (Some (Build_desc None [(-1)%Z] [] None))
  (Some (Build_desc (Some (bs "(?:28\d|501)\d{4}")) [] [] (Some (bs "5011234"))))
  (Some (Build_desc None [(-1)%Z] [] None))
  (Some (Build_desc None [(-1)%Z] [] None))
  None
  (Some (Build_desc None [(-1)%Z] [] None))
  None
  None
  None
  None
  (Some (Build_desc None [(-1)%Z] [] None))
  (Some (bs "AW")) (Some (297)%Z) (Some (bs "00")) None None
  None None None None
  [Build_nfmt (Some (bs "(\d{3})(\d{4})")) (Some (bs "$1 $2")) [bs "[25-9]"] None None None]
  []
  None None None.

Definition md_AX : meta := Eval vm_compute in Build_meta
  (Some (Build_desc (Some (bs "2\d{4,9}|35\d{4,5}|(?:60\d\d|800)\d{4,6}|7\d{5,11}|(?:[14]\d|3[0-46-9]|50)\d{4,8}")) [(5)%Z; (6)%Z; (7)%Z; (8)%Z; (9)%Z; (10)%Z; (11)%Z; (12)%Z] [] None))
  (Some (Build_desc (Some (bs "18[1-8]\d{3,6}")) [(6)%Z; (7)%Z; (8)%Z; (9)%Z] [] (Some (bs "181234567"))))
  (Some (Build_desc (Some (bs "4946\d{2,6}|(?:4[0-8]|50)\d{4,8}")) [(6)%Z; (7)%Z; (8)%Z; (9)%Z; (10)%Z] [] (Some (bs "412345678"))))
  (Some (Build_desc (Some (bs "800\d{4,6}")) [(7)%Z; (8)%Z; (9)%Z] [] (Some (bs "800123456"))))
  (Some (Build_desc (Some (bs "[67]00\d{5,6}")) [(8)%Z; (9)%Z] [] (Some (bs "600123456"))))
  (Some (Build_desc None [(-1)%Z] [] None))
  (Some (Build_desc None [(-1)%Z] [] None))
  (Some (Build_desc None [(-1)%Z] [] None))
  (Some (Build_desc None [(-1)%Z] [] None))
  (Some (Build_desc (Some (bs "20\d{4,8}|60[12]\d{5,6}|7(?:099\d{4,5}|5[03-9]\d{3,7})|20[2-59]\d\d|(?:606|7(?:0[78]|1|3\d))\d{7}|(?:10|29|3[09]|70[1-5]\d)\d{4,8}")) [] [] (Some (bs "10112345"))))
  None
  (Some (Build_desc None [(-1)%Z] [] None))
  None
  None
  None
  None
  (Some (Build_desc None [(-1)%Z] [] None))
  (Some (bs "AX")) (Some (358)%Z) (Some (bs "00|99(?:[01469]|5(?:[14]1|3[23]|5[59]|77|88|9[09]))")) (Some (bs "00")) (Some (bs "0"))
  None (Some (bs "0")) None None
  []
  []
  None (Some (bs "18")) None.

Definition md_AZ : meta := Eval vm_compute in Build_meta
  (Some (Build_desc (Some (bs "365\d{6}|(?:[124579]\d|60|88)\d{7}")) [(9)%Z] [(7)%Z] None))
  (Some (Build_desc (Some (bs "(?:2[12]428|3655[02])\d{4}|(?:2(?:22[0-79]|63[0-28])|3654)\d{5}|(?:(?:1[28]|46)\d|2(?:[014-6]2|[23]3))\d{6}")) [] [(7)%Z] (Some (bs "123123456"))))
  (Some (Build_desc (Some (bs "36554\d{4}|(?:[16]0|4[04]|5[015]|7[07]|99)\d{7}")) [] [] (Some (bs "401234567"))))
  (Some (Build_desc (Some (bs "88\d{7}")) [] [] (Some (bs "881234567"))))
  (Some (Build_desc (Some (bs "900200\d{3}")) [] [] (Some (bs "900200123"))))
  (Some (Build_desc None [(-1)%Z] [] None))
  (Some (Build_desc None [(-1)%Z] [] None))
  (Some (Build_desc None [(-1)%Z] [] None))
  (Some (Build_desc None [(-1)%Z] [] None))
  (Some (Build_desc None [(-1)%Z] [] None))
  None
  (Some (Build_desc None [(-1)%Z] [] None))
  None
  None
  None
  None
  (Some (Build_desc None [(-1)%Z] [] None))
  (Some (bs "AZ")) (Some (994)%Z) (Some (bs "00")) None (Some (bs "0"))
  None (Some (bs "0")) None None
  [Build_nfmt (Some (bs "(\d{3})(\d{2})(\d{2})")) (Some (bs "$1 $2 $3")) [bs "[1-9]"] None None None;
    Build_nfmt (Some (bs "(\d{3})(\d{2})(\d{2})(\d{2})")) (Some (bs "$1 $2 $3 $4")) [bs "90"] (Some (bs "0$1")) None None;
    Build_nfmt (Some (bs "(\d{2})(\d{3})(\d{2})(\d{2})")) (Some (bs "$1 $2 $3 $4")) [bs "1[28]|2|365|46"; bs "1[28]|2|365[45]|46"; bs "1[28]|2|365(?:4|5[02])|46"] (Some (bs "(0$1)")) None None;
    Build_nfmt (Some (bs "(\d{2})(\d{3})(\d{2})(\d{2})")) (Some (bs "$1 $2 $3 $4")) [bs "[13-9]"] (Some (bs "0$1")) None None]
  [Build_nfmt (Some (bs "(\d{3})(\d{2})(\d{2})(\d{2})")) (Some (bs "$1 $2 $3 $4")) [bs "90"] (Some (bs "0$1")) None None;
    Build_nfmt (Some (bs "(\d{2})(\d{3})(\d{2})(\d{2})")) (Some (bs "$1 $2 $3 $4")) [bs "1[28]|2|365|46"; bs "1[28]|2|365[45]|46"; bs "1[28]|2|365(?:4|5[02])|46"] (Some (bs "(0$1)")) None None;
    Build_nfmt (Some (bs "(\d{2})(\d{3})(\d{2})(\d{2})")) (Some (bs "$1 $2 $3 $4")) [bs "[13-9]"] (Some (bs "0$1")) None None]
  None None (Some true).

Definition md_BA : meta := Eval vm_compute in Build_meta
  (Some (Build_desc (Some (bs "6\d{8}|(?:[35689]\d|49|70)\d{6}")) [(8)%Z; (9)%Z] [(6)%Z] None))
  (Some (Build_desc (Some (bs "(?:3(?:[05-79][2-9]|1[4579]|[23][24-9]|4[2-4689]|8[2457-9])|49[2-579]|5(?:0[2-49]|[13][2-9]|[268][2-4679]|4[4689]|5[2-79]|7[2-69]|9[2-4689]))\d{5}")) [(8)%Z] [(6)%Z] (Some (bs "30212345"))))
  (Some (Build_desc (Some (bs "6040\d{5}|6(?:03|[1-356]|44|7\d)\d{6}")) [] [] (Some (bs "61123456"))))
  (Some (Build_desc (Some (bs "8[08]\d{6}")) [(8)%Z] [] (Some (bs "80123456"))))
  (Some (Build_desc (Some (bs "9[0246]\d{6}")) [(8)%Z] [] (Some (bs "90123456"))))
  (Some (Build_desc (Some (bs "8[12]\d{6}")) [(8)%Z] [] (Some (bs "82123456"))))
  (Some (Build_desc None [(-1)%Z] [] None))
  (Some (Build_desc None [(-1)%Z] [] None))
  (Some (Build_desc None [(-1)%Z] [] None))
  (Some (Build_desc (Some (bs "703[235]0\d{3}|70(?:2[0-5]|3[0146]|[56]0)\d{4}")) [(8)%Z] [] (Some (bs "70341234"))))
  None
  (Some (Build_desc None [(-1)%Z] [] None))
  None
  None
  None
  None
  (Some (Build_desc None [(-1)%Z] [] None))
  (Some (bs "BA")) (Some (387)%Z) (Some (bs "00")) None (Some (bs "0"))
  None (Some (bs "0")) None None
  [Build_nfmt (Some (bs "(\d{3})(\d{3})")) (Some (bs "$1-$2")) [bs "[2-9]"] None None None;
    Build_nfmt (Some (bs "(\d{2})(\d{3})(\d{3})")) (Some (bs "$1 $2 $3")) [bs "6[1-3]|[7-9]"] (Some (bs "0$1")) None None;
    Build_nfmt (Some (bs "(\d{2})(\d{3})(\d{3})")) (Some (bs "$1 $2-$3")) [bs "[3-5]|6[56]"] (Some (bs "0$1")) None None;
    Build_nfmt (Some (bs "(\d{2})(\d{2})(\d{2})(\d{3})")) (Some (bs "$1 $2 $3 $4")) [bs "6"] (Some (bs "0$1")) None None]
  [Build_nfmt (Some (bs "(\d{2})(\d{3})(\d{3})")) (Some (bs "$1 $2 $3")) [bs "6[1-3]|[7-9]"] (Some (bs "0$1")) None None;
    Build_nfmt (Some (bs "(\d{2})(\d{3})(\d{3})")) (Some (bs "$1 $2-$3")) [bs "[3-5]|6[56]"] (Some (bs "0$1")) None None;
    Build_nfmt (Some (bs "(\d{2})(\d{2})(\d{2})(\d{3})")) (Some (bs "$1 $2 $3 $4")) [bs "6"] (Some (bs "0$1")) None None]
  None None (Some true).

Definition md_BB : meta := Eval vm_compute in Build_meta
  (Some (Build_desc (Some (bs "(?:246|[58]\d\d|900)\d{7}")) [(10)%Z] [(7)%Z] None))
  (Some (Build_desc (Some (bs "246521[0369]\d{3}|246(?:2(?:2[78]|7[0-4])|4(?:1[024-6]|2\d|3[2-9])|5(?:20|[34]\d|54|7[1-3])|6(?:2\d|38)|7[35]7|9(?:1[89]|63))\d{4}")) [] [(7)%Z] (Some (bs "2464123456"))))
  (Some (Build_desc (Some (bs "246(?:(?:2(?:[3568]\d|4[0-57-9])|3(?:5[2-9]|6[0-6])|4(?:46|5\d)|69[5-7]|8(?:[2-5]\d|83))\d|52(?:1[147]|20))\d{3}")) [] [(7)%Z] (Some (bs "2462501234"))))
  (Some (Build_desc (Some (bs "8(?:00|33|44|55|66|77|88)[2-9]\d{6}")) [] [] (Some (bs "8002123456"))))
  (Some (Build_desc (Some (bs "(?:246976|900[2-9]\d\d)\d{4}")) [] [(7)%Z] (Some (bs "9002123456"))))
  (Some (Build_desc None [(-1)%Z] [] None))
  (Some (Build_desc (Some (bs "52(?:3(?:[2-46-9][02-9]\d|5(?:[02-46-9]\d|5[0-46-9]))|4(?:[2-478][02-9]\d|5(?:[034]\d|2[024-9]|5[0-46-9])|6(?:0[1-9]|[2-9]\d)|9(?:[05-9]\d|2[0-5]|49)))\d{4}|52[34][2-9]1[02-9]\d{4}|5(?:00|2[125-9]|3[23]|44|66|77|88)[2-9]\d{6}")) [] [] (Some (bs "5002345678"))))
  (Some (Build_desc (Some (bs "24631\d{5}")) [] [(7)%Z] (Some (bs "2463101234"))))
  (Some (Build_desc None [(-1)%Z] [] None))
  (Some (Build_desc (Some (bs "246(?:292|367|4(?:1[7-9]|3[01]|4[47-9]|67)|7(?:1[2-9]|2\d|3[016]|53))\d{4}")) [] [(7)%Z] (Some (bs "2464301234"))))
  None
  (Some (Build_desc None [(-1)%Z] [] None))
  None
  None
  None
  None
  (Some (Build_desc None [(-1)%Z] [] None))
  (Some (bs "BB")) (Some (1)%Z) (Some (bs "011")) None (Some (bs "1"))
  None (Some (bs "([2-9]\d{6})$|1")) (Some (bs "246$1")) None
  []
  []
  None (Some (bs "246")) (Some true).

Definition md_BD : meta := Eval vm_compute in Build_meta
  (Some (Build_desc (Some (bs "[1-469]\d{9}|8[0-79]\d{7,8}|[2-79]\d{8}|[2-9]\d{7}|[3-9]\d{6}|[57-9]\d{5}")) [(6)%Z; (7)%Z; (8)%Z; (9)%Z; (10)%Z] [] None))
  (Some (Build_desc (Some (bs "(?:4(?:31\d\d|423)|5222)\d{3}(?:\d{2})?|8332[6-9]\d\d|(?:3(?:03[56]|224)|4(?:22[25]|653))\d{3,4}|(?:3(?:42[47]|529|823)|4(?:027|525|65(?:28|8))|562|6257|7(?:1(?:5[3-5]|6[12]|7[156]|89)|22[589]56|32|42675|52(?:[25689](?:56|8)|[347]8)|71(?:6[1267]|75|89)|92374)|82(?:2[59]|32)56|9(?:03[23]56|23(?:256|373)|31|5(?:1|2[4589]56)))\d{3}|(?:3(?:02[348]|22[35]|324|422)|4(?:22[67]|32[236-9]|6(?:2[46]|5[57])|953)|5526|6(?:024|6655)|81)\d{4,5}|(?:2(?:7(?:1[0-267]|2[0-289]|3[0-29]|4[01]|5[1-3]|6[013]|7[0178]|91)|8(?:0[125]|1[1-6]|2[0157-9]|3[1-69]|41|6[1-35]|7[1-5]|8[1-8]|9[0-6])|9(?:0[0-2]|1[0-4]|2[568]|3[3-6]|5[5-7]|6[0136-9]|7[0-7]|8[014-9]))|3(?:0(?:2[025-79]|3[2-4])|181|22[12]|32[2356]|824)|4(?:02[09]|22[348]|32[045]|523|6(?:27|54))|666(?:22|53)|7(?:22[57-9]|42[56]|82[35])8|8(?:0[124-9]|2(?:181|2[02-4679]8)|4[12]|[5-7]2)|9(?:[04]2|2(?:2|328)|81))\d{4}|(?:2(?:[23]\d|[45])\d\d|3(?:1(?:2[5-7]|[5-7])|425|822)|4(?:033|1\d|[257]1|332|4(?:2[246]|5[25])|6(?:2[35]|56|62)|8(?:23|54)|92[2-5])|5(?:02[03489]|22[457]|32[35-79]|42[46]|6(?:[18]|53)|724|826)|6(?:023|2(?:2[2-5]|5[3-5]|8)|32[3478]|42[34]|52[47]|6(?:[18]|6(?:2[34]|5[24]))|[78]2[2-5]|92[2-6])|7(?:02|21\d|[3-589]1|6[12]|72[24])|8(?:217|3[12]|[5-7]1)|9[24]1)\d{5}|(?:(?:3[2-8]|5[2-57-9]|6[03-589])1|4[4689][18])\d{5}|[59]1\d{5}")) [] [] (Some (bs "27111234"))))
  (Some (Build_desc (Some (bs "(?:1[13-9]\d|644)\d{7}|(?:3[78]|44|66)[02-9]\d{7}")) [(10)%Z] [] (Some (bs "1812345678"))))
  (Some (Build_desc (Some (bs "80[03]\d{7}")) [(10)%Z] [] (Some (bs "8001234567"))))
  (Some (Build_desc None [(-1)%Z] [] None))
  (Some (Build_desc None [(-1)%Z] [] None))
  (Some (Build_desc None [(-1)%Z] [] None))
  (Some (Build_desc (Some (bs "96(?:0[1-69]|1[0-479]|2[278]|3[13-9]|4[0134]|54|6[69]|7[78]|88)\d{6}")) [(10)%Z] [] (Some (bs "9604123456"))))
  (Some (Build_desc None [(-1)%Z] [] None))
  (Some (Build_desc None [(-1)%Z] [] None))
  None
  (Some (Build_desc None [(-1)%Z] [] None))
  None
  None
  None
  None
  (Some (Build_desc None [(-1)%Z] [] None))
  (Some (bs "BD")) (Some (880)%Z) (Some (bs "00")) None (Some (bs "0"))
  None (Some (bs "0")) None None
  [Build_nfmt (Some (bs "(\d{2})(\d{4,6})")) (Some (bs "$1-$2")) [bs "31[5-8]|[459]1"] (Some (bs "0$1")) None None;
    Build_nfmt (Some (bs "(\d{3})(\d{3,7})")) (Some (bs "$1-$2")) [bs "3(?:[67]|8[013-9])|4(?:6[168]|7|[89][18])|5(?:6[128]|9)|6(?:[15]|28|4[14])|7[2-589]|8(?:0[014-9]|[12])|9[358]|(?:3[2-5]|4[235]|5[2-578]|6[0389]|76|8[3-7]|9[24])1|(?:44|66)[01346-9]"] (Some (bs "0$1")) None None;
    Build_nfmt (Some (bs "(\d{4})(\d{3,6})")) (Some (bs "$1-$2")) [bs "[13-9]|2[23]"] (Some (bs "0$1")) None None;
    Build_nfmt (Some (bs "(\d)(\d{7,8})")) (Some (bs "$1-$2")) [bs "2"] (Some (bs "0$1")) None None]
  []
  None None None.

Definition md_BE : meta := Eval vm_compute in Build_meta
  (Some (Build_desc (Some (bs "4\d{8}|[1-9]\d{7}")) [(8)%Z; (9)%Z] [] None))
  (Some (Build_desc (Some (bs "80[2-8]\d{5}|(?:1[0-69]|[23][2-8]|4[23]|5\d|6[013-57-9]|71|8[1-79]|9[2-4])\d{6}")) [(8)%Z] [] (Some (bs "12345678"))))
  (Some (Build_desc (Some (bs "4[5-9]\d{7}")) [(9)%Z] [] (Some (bs "450001234"))))
  (Some (Build_desc (Some (bs "800[1-9]\d{4}")) [(8)%Z] [] (Some (bs "80012345"))))
  (Some (Build_desc (Some (bs "(?:70(?:2[0-57]|3[04-7]|44|6[04-69]|7[0579])|90\d\d)\d{4}")) [(8)%Z] [] (Some (bs "90012345"))))
  (Some (Build_desc (Some (bs "7879\d{4}")) [(8)%Z] [] (Some (bs "78791234"))))
  (Some (Build_desc None [(-1)%Z] [] None))
  (Some (Build_desc None [(-1)%Z] [] None))
  (Some (Build_desc None [(-1)%Z] [] None))
  (Some (Build_desc (Some (bs "78(?:0[578]|1[014-8]|2[25]|3[15-8]|48|5[05]|60|7[06-8]|9\d)\d{4}")) [(8)%Z] [] (Some (bs "78102345"))))
  None
  (Some (Build_desc None [(-1)%Z] [] None))
  None
  None
  None
  None
  (Some (Build_desc None [(-1)%Z] [] None))
  (Some (bs "BE")) (Some (32)%Z) (Some (bs "00")) None (Some (bs "0"))
  None (Some (bs "0")) None None
  [Build_nfmt (Some (bs "(\d{3})(\d{2})(\d{3})")) (Some (bs "$1 $2 $3")) [bs "(?:80|9)0"] (Some (bs "0$1")) None None;
    Build_nfmt (Some (bs "(\d)(\d{3})(\d{2})(\d{2})")) (Some (bs "$1 $2 $3 $4")) [bs "[239]|4[23]"] (Some (bs "0$1")) None None;
    Build_nfmt (Some (bs "(\d{2})(\d{2})(\d{2})(\d{2})")) (Some (bs "$1 $2 $3 $4")) [bs "[15-8]"] (Some (bs "0$1")) None None;
    Build_nfmt (Some (bs "(\d{3})(\d{2})(\d{2})(\d{2})")) (Some (bs "$1 $2 $3 $4")) [bs "4"] (Some (bs "0$1")) None None]
  []
  None None (Some true).

Definition md_BF : meta := Eval vm_compute in Build_meta
  (Some (Build_desc (Some (bs "[024-7]\d{7}")) [(8)%Z] [] None))
  (Some (Build_desc (Some (bs "2(?:0(?:49|5[23]|6[5-7]|9[016-9])|4(?:4[569]|5[4-6]|6[5-7]|7[0179])|5(?:[34]\d|50|6[5-8]))\d{4}")) [] [] (Some (bs "20491234"))))
  (Some (Build_desc (Some (bs "(?:0[1-7]|4[4-6]|5[0-8]|[67]\d)\d{6}")) [] [] (Some (bs "70123456"))))
  (Some (Build_desc None [(-1)%Z] [] None))
  (Some (Build_desc None [(-1)%Z] [] None))
  (Some (Build_desc None [(-1)%Z] [] None))
  (Some (Build_desc None [(-1)%Z] [] None))
  (Some (Build_desc None [(-1)%Z] [] None))
  (Some (Build_desc None [(-1)%Z] [] None))
  (Some (Build_desc None [(-1)%Z] [] None))
  None
  (Some (Build_desc None [(-1)%Z] [] None))
  None
  None
  None
  None
  (Some (Build_desc None [(-1)%Z] [] None))
  (Some (bs "BF")) (Some (226)%Z) (Some (bs "00")) None None
  None None None None
  [Build_nfmt (Some (bs "(\d{2})(\d{2})(\d{2})(\d{2})")) (Some (bs "$1 $2 $3 $4")) [bs "[024-7]"] None None None]
  []
  None None None.

Definition md_BG : meta := Eval vm_compute in Build_meta
  (Some (Build_desc (Some (bs "00800\d{7}|[2-7]\d{6,7}|[89]\d{6,8}|2\d{5}")) [(6)%Z; (7)%Z; (8)%Z; (9)%Z; (12)%Z] [(4)%Z; (5)%Z] None))
  (Some (Build_desc (Some (bs "2\d{5,7}|(?:43[1-6]|70[1-9])\d{4,5}|(?:[36]\d|4[124-7]|[57][1-9]|8[1-6]|9[1-7])\d{5,6}")) [(6)%Z; (7)%Z; (8)%Z] [(4)%Z; (5)%Z] (Some (bs "2123456"))))
  (Some (Build_desc (Some (bs "(?:43[07-9]|99[69]\d)\d{5}|(?:8[7-9]|98)\d{7}")) [(8)%Z; (9)%Z] [] (Some (bs "43012345"))))
  (Some (Build_desc (Some (bs "(?:00800\d\d|800)\d{5}")) [(8)%Z; (12)%Z] [] (Some (bs "80012345"))))
  (Some (Build_desc (Some (bs "90\d{6}")) [(8)%Z] [] (Some (bs "90123456"))))
  (Some (Build_desc (Some (bs "700\d{5}")) [(8)%Z] [] (Some (bs "70012345"))))
  (Some (Build_desc None [(-1)%Z] [] None))
  (Some (Build_desc None [(-1)%Z] [] None))
  (Some (Build_desc None [(-1)%Z] [] None))
  (Some (Build_desc None [(-1)%Z] [] None))
  None
  (Some (Build_desc None [(-1)%Z] [] None))
  None
  None
  None
  None
  (Some (Build_desc None [(-1)%Z] [] None))
  (Some (bs "BG")) (Some (359)%Z) (Some (bs "00")) None (Some (bs "0"))
  None (Some (bs "0")) None None
  [Build_nfmt (Some (bs "(\d{6})")) (Some (bs "$1")) [bs "1"] None None None;
    Build_nfmt (Some (bs "(\d)(\d)(\d{2})(\d{2})")) (Some (bs "$1 $2 $3 $4")) [bs "2"] (Some (bs "0$1")) None None;
    Build_nfmt (Some (bs "(\d{3})(\d{4})")) (Some (bs "$1 $2")) [bs "43[1-6]|70[1-9]"] (Some (bs "0$1")) None None;
    Build_nfmt (Some (bs "(\d)(\d{3})(\d{3,4})")) (Some (bs "$1 $2 $3")) [bs "2"] (Some (bs "0$1")) None None;
    Build_nfmt (Some (bs "(\d{2})(\d{3})(\d{2,3})")) (Some (bs "$1 $2 $3")) [bs "[356]|4[124-7]|7[1-9]|8[1-6]|9[1-7]"] (Some (bs "0$1")) None None;
    Build_nfmt (Some (bs "(\d{3})(\d{2})(\d{3})")) (Some (bs "$1 $2 $3")) [bs "(?:70|8)0"] (Some (bs "0$1")) None None;
    Build_nfmt (Some (bs "(\d{3})(\d{3})(\d{2})")) (Some (bs "$1 $2 $3")) [bs "43[1-7]|7"] (Some (bs "0$1")) None None;
    Build_nfmt (Some (bs "(\d{2})(\d{3})(\d{3,4})")) (Some (bs "$1 $2 $3")) [bs "[48]|9[08]"] (Some (bs "0$1")) None None;
    Build_nfmt (Some (bs "(\d{3})(\d{3})(\d{3})")) (Some (bs "$1 $2 $3")) [bs "9"] (Some (bs "0$1")) None None]
  [Build_nfmt (Some (bs "(\d)(\d)(\d{2})(\d{2})")) (Some (bs "$1 $2 $3 $4")) [bs "2"] (Some (bs "0$1")) None None;
    Build_nfmt (Some (bs "(\d{3})(\d{4})")) (Some (bs "$1 $2")) [bs "43[1-6]|70[1-9]"] (Some (bs "0$1")) None None;
    Build_nfmt (Some (bs "(\d)(\d{3})(\d{3,4})")) (Some (bs "$1 $2 $3")) [bs "2"] (Some (bs "0$1")) None None;
    Build_nfmt (Some (bs "(\d{2})(\d{3})(\d{2,3})")) (Some (bs "$1 $2 $3")) [bs "[356]|4[124-7]|7[1-9]|8[1-6]|9[1-7]"] (Some (bs "0$1")) None None;
    Build_nfmt (Some (bs "(\d{3})(\d{2})(\d{3})")) (Some (bs "$1 $2 $3")) [bs "(?:70|8)0"] (Some (bs "0$1")) None None;
    Build_nfmt (Some (bs "(\d{3})(\d{3})(\d{2})")) (Some (bs "$1 $2 $3")) [bs "43[1-7]|7"] (Some (bs "0$1")) None None;
    Build_nfmt (Some (bs "(\d{2})(\d{3})(\d{3,4})")) (Some (bs "$1 $2 $3")) [bs "[48]|9[08]"] (Some (bs "0$1")) None None;
    Build_nfmt (Some (bs "(\d{3})(\d{3})(\d{3})")) (Some (bs "$1 $2 $3")) [bs "9"] (Some (bs "0$1")) None None]
  None None (Some true).

Definition md_BH : meta := Eval vm_compute in Build_meta
  (Some (Build_desc (Some (bs "[136-9]\d{7}")) [(8)%Z] [] None))
  (Some (Build_desc (Some (bs "(?:1(?:3[1356]|6[0156]|7\d)\d|6(?:1[16]\d|500|6(?:0\d|3[12]|44|55|7[7-9]|88)|9[69][69])|7(?:[07]\d\d|1(?:11|78)))\d{4}")) [] [] (Some (bs "17001234"))))
  (Some (Build_desc (Some (bs "(?:3(?:[0-79]\d|8[0-57-9])\d|6(?:3(?:00|33|6[16])|441|6(?:3[03-9]|[69]\d|7[0-689])))\d{4}")) [] [] (Some (bs "36001234"))))
  (Some (Build_desc (Some (bs "8[02369]\d{6}")) [] [] (Some (bs "80123456"))))
  (Some (Build_desc (Some (bs "(?:87|9[0-8])\d{6}")) [] [] (Some (bs "90123456"))))
  (Some (Build_desc (Some (bs "84\d{6}")) [] [] (Some (bs "84123456"))))
  (Some (Build_desc None [(-1)%Z] [] None))
  (Some (Build_desc None [(-1)%Z] [] None))
  (Some (Build_desc None [(-1)%Z] [] None))
  (Some (Build_desc None [(-1)%Z] [] None))
  None
  (Some (Build_desc None [(-1)%Z] [] None))
  None
  None
  None
  None
  (Some (Build_desc None [(-1)%Z] [] None))
  (Some (bs "BH")) (Some (973)%Z) (Some (bs "00")) None None
  None None None None
  [Build_nfmt (Some (bs "(\d{4})(\d{4})")) (Some (bs "$1 $2")) [bs "[13679]|8[02-4679]"] None None None]
  []
  None None (Some true).

Definition md_BI : meta := Eval vm_compute in Build_meta
  (Some (Build_desc (Some (bs "(?:[267]\d|31)\d{6}")) [(8)%Z] [] None))
  (Some (Build_desc (Some (bs "(?:22|31)\d{6}")) [] [] (Some (bs "22201234"))))
  (Some (Build_desc (Some (bs "(?:29|6[1-9]|7[125-9])\d{6}")) [] [] (Some (bs "79561234"))))
  (Some (Build_desc None [(-1)%Z] [] None))
  (Some (Build_desc None [(-1)%Z] [] None))
  (Some (Build_desc None [(-1)%Z] [] None))
  (Some (Build_desc None [(-1)%Z] [] None))
  (Some (Build_desc None [(-1)%Z] [] None))
  (Some (Build_desc None [(-1)%Z] [] None))
  (Some (Build_desc None [(-1)%Z] [] None))
  None
  (Some (Build_desc None [(-1)%Z] [] None))
  None
  None
  None
  None
  (Some (Build_desc None [(-1)%Z] [] None))
  (Some (bs "BI")) (Some (257)%Z) (Some (bs "00")) None None
  None None None None
  [Build_nfmt (Some (bs "(\d{2})(\d{2})(\d{2})(\d{2})")) (Some (bs "$1 $2 $3 $4")) [bs "[2367]"] None None None]
  []
  None None None.

Definition md_BJ : meta := Eval vm_compute in Build_meta
  (Some (Build_desc (Some (bs "(?:01\d|8)\d{7}")) [(8)%Z; (10)%Z] [] None))
  (Some (Build_desc (Some (bs "012\d{7}")) [(10)%Z] [] (Some (bs "0120211234"))))
  (Some (Build_desc (Some (bs "01(?:2[5-9]|[4-69]\d)\d{6}")) [(10)%Z] [] (Some (bs "0195123456"))))
  (Some (Build_desc None [(-1)%Z] [] None))
  (Some (Build_desc None [(-1)%Z] [] None))
  (Some (Build_desc None [(-1)%Z] [] None))
  (Some (Build_desc None [(-1)%Z] [] None))
  (Some (Build_desc (Some (bs "857[58]\d{4}")) [(8)%Z] [] (Some (bs "85751234"))))
  (Some (Build_desc None [(-1)%Z] [] None))
  (Some (Build_desc (Some (bs "81\d{6}")) [(8)%Z] [] (Some (bs "81123456"))))
  None
  (Some (Build_desc None [(-1)%Z] [] None))
  None
  None
  None
  None
  (Some (Build_desc None [(-1)%Z] [] None))
  (Some (bs "BJ")) (Some (229)%Z) (Some (bs "00")) None None
  None None None None
  [Build_nfmt (Some (bs "(\d{2})(\d{2})(\d{2})(\d{2})")) (Some (bs "$1 $2 $3 $4")) [bs "8"] None None None;
    Build_nfmt (Some (bs "(\d{2})(\d{2})(\d{2})(\d{2})(\d{2})")) (Some (bs "$1 $2 $3 $4 $5")) [bs "0"] None None None]
  []
  None None (Some true).

Definition md_BL : meta := Eval vm_compute in Build_meta
  (Some (Build_desc (Some (bs "7090\d{5}|(?:[56]9|[89]\d)\d{7}")) [(9)%Z] [] None))
  (Some (Build_desc (Some (bs "(?:59(?:0(?:2[7-9]|3[3-7]|5[12]|87)|87\d)|80[6-9]\d\d)\d{4}")) [] [] (Some (bs "590271234"))))
  (Some (Build_desc (Some (bs "(?:69(?:0\d\d|1(?:2[2-9]|3[0-5]))|7090[0-4])\d{4}")) [] [] (Some (bs "690001234"))))
  (Some (Build_desc (Some (bs "80[0-5]\d{6}")) [] [] (Some (bs "800012345"))))
  (Some (Build_desc (Some (bs "8[129]\d{7}")) [] [] (Some (bs "810123456"))))
  (Some (Build_desc None [(-1)%Z] [] None))
  (Some (Build_desc None [(-1)%Z] [] None))
  (Some (Build_desc (Some (bs "9(?:(?:39[5-7]|76[018])\d|475[0-6])\d{4}")) [] [] (Some (bs "976012345"))))
  (Some (Build_desc None [(-1)%Z] [] None))
  (Some (Build_desc None [(-1)%Z] [] None))
  None
  (Some (Build_desc None [(-1)%Z] [] None))
  None
  None
  None
  None
  (Some (Build_desc None [(-1)%Z] [] None))
  (Some (bs "BL")) (Some (590)%Z) (Some (bs "00")) None (Some (bs "0"))
  None (Some (bs "0")) None None
  []
  []
  None None (Some true).

Definition md_BM : meta := Eval vm_compute in Build_meta
  (Some (Build_desc (Some (bs "(?:441|[58]\d\d|900)\d{7}")) [(10)%Z] [(7)%Z] None))
  (Some (Build_desc (Some (bs "441(?:[46]\d\d|5(?:4\d|60|89))\d{4}")) [] [(7)%Z] (Some (bs "4414123456"))))
  (Some (Build_desc (Some (bs "441(?:[2378]\d|5[0-39]|9[02])\d{5}")) [] [(7)%Z] (Some (bs "4413701234"))))
  (Some (Build_desc (Some (bs "8(?:00|33|44|55|66|77|88)[2-9]\d{6}")) [] [] (Some (bs "8002123456"))))
  (Some (Build_desc (Some (bs "900[2-9]\d{6}")) [] [] (Some (bs "9002123456"))))
  (Some (Build_desc None [(-1)%Z] [] None))
  (Some (Build_desc (Some (bs "52(?:3(?:[2-46-9][02-9]\d|5(?:[02-46-9]\d|5[0-46-9]))|4(?:[2-478][02-9]\d|5(?:[034]\d|2[024-9]|5[0-46-9])|6(?:0[1-9]|[2-9]\d)|9(?:[05-9]\d|2[0-5]|49)))\d{4}|52[34][2-9]1[02-9]\d{4}|5(?:00|2[125-9]|3[23]|44|66|77|88)[2-9]\d{6}")) [] [] (Some (bs "5002345678"))))
  (Some (Build_desc None [(-1)%Z] [] None))
  (Some (Build_desc None [(-1)%Z] [] None))
  (Some (Build_desc None [(-1)%Z] [] None))
  None
  (Some (Build_desc None [(-1)%Z] [] None))
  None
  None
  None
  None
  (Some (Build_desc None [(-1)%Z] [] None))
  (Some (bs "BM")) (Some (1)%Z) (Some (bs "011")) None (Some (bs "1"))
  None (Some (bs "([2-9]\d{6})$|1")) (Some (bs "441$1")) None
  []
  []
  None (Some (bs "441")) (Some true).

Definition md_BN : meta := Eval vm_compute in Build_meta
  (Some (Build_desc (Some (bs "[2-578]\d{6}")) [(7)%Z] [] None))
  (Some (Build_desc (Some (bs "22[0-7]\d{4}|(?:2[013-9]|[34]\d|5[0-25-9])\d{5}")) [] [] (Some (bs "2345678"))))
  (Some (Build_desc (Some (bs "(?:22[89]|[78]\d\d)\d{4}")) [] [] (Some (bs "7123456"))))
  (Some (Build_desc None [(-1)%Z] [] None))
  (Some (Build_desc None [(-1)%Z] [] None))
  (Some (Build_desc None [(-1)%Z] [] None))
  (Some (Build_desc None [(-1)%Z] [] None))
  (Some (Build_desc (Some (bs "5[34]\d{5}")) [] [] (Some (bs "5345678"))))
  (Some (Build_desc None [(-1)%Z] [] None))
  (Some (Build_desc None [(-1)%Z] [] None))
  None
  (Some (Build_desc None [(-1)%Z] [] None))
  None
  None
  None
  None
  (Some (Build_desc None [(-1)%Z] [] None))
  (Some (bs "BN")) (Some (673)%Z) (Some (bs "00")) None None
  None None None None
  [Build_nfmt (Some (bs "(\d{3})(\d{4})")) (Some (bs "$1 $2")) [bs "[2-578]"] None None None]
  []
  None None None.

Definition md_BO : meta := Eval vm_compute in Build_meta
  (Some (Build_desc (Some (bs "(?:[2-7]\d\d|8001)\d{5}")) [(8)%Z; (9)%Z] [(7)%Z] None))
  (Some (Build_desc (Some (bs "(?:2(?:2\d\d|5(?:11|[258]\d|9[67])|6(?:12|2\d|9[34])|8(?:2[34]|39|62))|3(?:3\d\d|4(?:6\d|8[24])|8(?:25|42|5[257]|86|9[25])|9(?:[27]\d|3[2-4]|4[248]|5[24]|6[2-6]))|4(?:4\d\d|6(?:11|[24689]\d|72)))\d{4}")) [(8)%Z] [(7)%Z] (Some (bs "22123456"))))
  (Some (Build_desc (Some (bs "(?:57|[67]\d)\d{6}")) [(8)%Z] [] (Some (bs "71234567"))))
  (Some (Build_desc (Some (bs "8001[07]\d{4}")) [(9)%Z] [] (Some (bs "800171234"))))
  (Some (Build_desc None [(-1)%Z] [] None))
  (Some (Build_desc None [(-1)%Z] [] None))
  (Some (Build_desc None [(-1)%Z] [] None))
  (Some (Build_desc (Some (bs "50\d{6}")) [(8)%Z] [(7)%Z] (Some (bs "50123456"))))
  (Some (Build_desc None [(-1)%Z] [] None))
  (Some (Build_desc None [(-1)%Z] [] None))
  None
  (Some (Build_desc None [(-1)%Z] [] None))
  None
  None
  None
  None
  (Some (Build_desc (Some (bs "8001[07]\d{4}")) [(9)%Z] [] None))
  (Some (bs "BO")) (Some (591)%Z) (Some (bs "00(?:1\d)?")) None (Some (bs "0"))
  None (Some (bs "0(1\d)?")) None None
  [Build_nfmt (Some (bs "(\d)(\d{7})")) (Some (bs "$1 $2")) [bs "[23]|4[46]|50"] None None (Some (bs "0$CC $1"));
    Build_nfmt (Some (bs "(\d{8})")) (Some (bs "$1")) [bs "[5-7]"] None None (Some (bs "0$CC $1"));
    Build_nfmt (Some (bs "(\d{3})(\d{2})(\d{4})")) (Some (bs "$1 $2 $3")) [bs "8"] None None (Some (bs "0$CC $1"))]
  []
  None None None.

Definition md_BQ : meta := Eval vm_compute in Build_meta
  (Some (Build_desc (Some (bs "(?:[34]1|7\d)\d{5}")) [(7)%Z] [] None))
  (Some (Build_desc (Some (bs "(?:318[023]|41(?:6[023]|70)|7(?:1[578]|2[05]|50)\d)\d{3}")) [] [] (Some (bs "7151234"))))
  (Some (Build_desc (Some (bs "(?:31(?:8[14-8]|9[14578])|416[14-9]|7(?:0[01]|7[07]|8\d|9[056])\d)\d{3}")) [] [] (Some (bs "3181234"))))
  (Some (Build_desc None [(-1)%Z] [] None))
  (Some (Build_desc None [(-1)%Z] [] None))
  (Some (Build_desc None [(-1)%Z] [] None))
  (Some (Build_desc None [(-1)%Z] [] None))
  (Some (Build_desc None [(-1)%Z] [] None))
  (Some (Build_desc None [(-1)%Z] [] None))
  (Some (Build_desc None [(-1)%Z] [] None))
  None
  (Some (Build_desc None [(-1)%Z] [] None))
  None
  None
  None
  None
  (Some (Build_desc None [(-1)%Z] [] None))
  (Some (bs "BQ")) (Some (599)%Z) (Some (bs "00")) None None
  None None None None
  []
  []
  None (Some (bs "[347]")) None.

Definition md_BR : meta := Eval vm_compute in Build_meta
  (Some (Build_desc (Some (bs "[1-467]\d{9,10}|55[0-46-9]\d{8}|[34]\d{7}|55\d{7,8}|(?:5[0-46-9]|[89]\d)\d{7,9}")) [(8)%Z; (9)%Z; (10)%Z; (11)%Z] [] None))
  (Some (Build_desc (Some (bs "(?:[14689][1-9]|2[12478]|3[1-578]|5[13-5]|7[13-579])[2-5]\d{7}")) [(10)%Z] [(8)%Z] (Some (bs "1123456789"))))
  (Some (Build_desc (Some (bs "(?:[14689][1-9]|2[12478]|3[1-578]|5[13-5]|7[13-579])(?:7|9\d)\d{7}")) [(10)%Z; (11)%Z] [(8)%Z; (9)%Z] (Some (bs "11961234567"))))
  (Some (Build_desc (Some (bs "800\d{6,7}")) [(9)%Z; (10)%Z] [] (Some (bs "800123456"))))
  (Some (Build_desc (Some (bs "[59]00\d{6,7}")) [(9)%Z; (10)%Z] [] (Some (bs "500123456"))))
  (Some (Build_desc (Some (bs "(?:30[03]\d{3}|4(?:0(?:0\d|20)|370|864))\d{4}|300\d{5}")) [(8)%Z; (10)%Z] [] (Some (bs "40041234"))))
  (Some (Build_desc None [(-1)%Z] [] None))
  (Some (Build_desc None [(-1)%Z] [] None))
  (Some (Build_desc None [(-1)%Z] [] None))
  (Some (Build_desc None [(-1)%Z] [] None))
  None
  (Some (Build_desc None [(-1)%Z] [] None))
  None
  None
  None
  None
  (Some (Build_desc (Some (bs "(?:30[03]\d{3}|4(?:0(?:0\d|20)|864))\d{4}|800\d{6,7}|300\d{5}")) [(8)%Z; (9)%Z; (10)%Z] [] None))
  (Some (bs "BR")) (Some (55)%Z) (Some (bs "00(?:1[245]|2[1-35]|31|4[13]|[56]5|99)")) None (Some (bs "0"))
  None (Some (bs "(?:0|90)(?:(1[245]|2[1-35]|31|4[13]|[56]5|99)(\d{10,11}))?")) (Some (bs "$2")) None
  [Build_nfmt (Some (bs "(\d{3,6})")) (Some (bs "$1")) [bs "1(?:1[25-8]|2[357-9]|3[02-68]|4[12568]|5|6[0-8]|8[015]|9[0-47-9])|321|610"] None None None;
    Build_nfmt (Some (bs "(\d{4})(\d{4})")) (Some (bs "$1-$2")) [bs "300|4(?:0[02]|37|86)"; bs "300|4(?:0(?:0|20)|370|864)"] None None None;
    Build_nfmt (Some (bs "(\d{4})(\d{4})")) (Some (bs "$1-$2")) [bs "[2-57]"; bs "[2357]|4(?:[0-24-9]|3(?:[0-689]|7[1-9]))"] None None None;
    Build_nfmt (Some (bs "(\d{3})(\d{2,3})(\d{4})")) (Some (bs "$1 $2 $3")) [bs "(?:[358]|90)0"] (Some (bs "0$1")) None None;
    Build_nfmt (Some (bs "(\d{5})(\d{4})")) (Some (bs "$1-$2")) [bs "9"] None None None;
    Build_nfmt (Some (bs "(\d{2})(\d{4})(\d{4})")) (Some (bs "$1 $2-$3")) [bs "(?:[14689][1-9]|2[12478]|3[1-578]|5[13-5]|7[13-579])[2-57]"] (Some (bs "($1)")) None (Some (bs "0 $CC ($1)"));
    Build_nfmt (Some (bs "(\d{2})(\d{5})(\d{4})")) (Some (bs "$1 $2-$3")) [bs "[16][1-9]|[2-57-9]"] (Some (bs "($1)")) None (Some (bs "0 $CC ($1)"))]
  [Build_nfmt (Some (bs "(\d{4})(\d{4})")) (Some (bs "$1-$2")) [bs "300|4(?:0[02]|37|86)"; bs "300|4(?:0(?:0|20)|370|864)"] None None None;
    Build_nfmt (Some (bs "(\d{3})(\d{2,3})(\d{4})")) (Some (bs "$1 $2 $3")) [bs "(?:[358]|90)0"] (Some (bs "0$1")) None None;
    Build_nfmt (Some (bs "(\d{2})(\d{4})(\d{4})")) (Some (bs "$1 $2-$3")) [bs "(?:[14689][1-9]|2[12478]|3[1-578]|5[13-5]|7[13-579])[2-57]"] (Some (bs "($1)")) None (Some (bs "0 $CC ($1)"));
    Build_nfmt (Some (bs "(\d{2})(\d{5})(\d{4})")) (Some (bs "$1 $2-$3")) [bs "[16][1-9]|[2-57-9]"] (Some (bs "($1)")) None (Some (bs "0 $CC ($1)"))]
  None None (Some true).

Definition md_BS : meta := Eval vm_compute in Build_meta
  (Some (Build_desc (Some (bs "(?:242|[58]\d\d|900)\d{7}")) [(10)%Z] [(7)%Z] None))
  (Some (Build_desc (Some (bs "242(?:3(?:02|[236][1-9]|4[0-24-9]|5[0-68]|7[347]|8[0-4]|9[2-467])|461|502|6(?:0[1-5]|12|2[013]|[45]0|7[67]|8[78]|9[89])|7(?:02|88))\d{4}")) [] [(7)%Z] (Some (bs "2423456789"))))
  (Some (Build_desc (Some (bs "242(?:3(?:5[79]|7[56]|95)|4(?:[23][1-9]|4[1-35-9]|5[1-8]|6[2-8]|7\d|81)|5(?:2[45]|3[35]|44|5[1-46-9]|65|77)|6[34]6|7(?:27|38)|8(?:0[1-9]|1[02-9]|2\d|3[0-4]|[89]9))\d{4}")) [] [(7)%Z] (Some (bs "2423591234"))))
  (Some (Build_desc (Some (bs "242300\d{4}|8(?:00|33|44|55|66|77|88)[2-9]\d{6}")) [] [(7)%Z] (Some (bs "8002123456"))))
  (Some (Build_desc (Some (bs "900[2-9]\d{6}")) [] [] (Some (bs "9002123456"))))
  (Some (Build_desc None [(-1)%Z] [] None))
  (Some (Build_desc (Some (bs "52(?:3(?:[2-46-9][02-9]\d|5(?:[02-46-9]\d|5[0-46-9]))|4(?:[2-478][02-9]\d|5(?:[034]\d|2[024-9]|5[0-46-9])|6(?:0[1-9]|[2-9]\d)|9(?:[05-9]\d|2[0-5]|49)))\d{4}|52[34][2-9]1[02-9]\d{4}|5(?:00|2[125-9]|3[23]|44|66|77|88)[2-9]\d{6}")) [] [] (Some (bs "5002345678"))))
  (Some (Build_desc None [(-1)%Z] [] None))
  (Some (Build_desc None [(-1)%Z] [] None))
  (Some (Build_desc (Some (bs "242225\d{4}")) [] [] (Some (bs "2422250123"))))
  None
  (Some (Build_desc None [(-1)%Z] [] None))
  None
  None
  None
  None
  (Some (Build_desc None [(-1)%Z] [] None))
  (Some (bs "BS")) (Some (1)%Z) (Some (bs "011")) None (Some (bs "1"))
  None (Some (bs "([3-8]\d{6})$|1")) (Some (bs "242$1")) None
  []
  []
  None (Some (bs "242")) (Some true).

Definition md_BT : meta := Eval vm_compute in Build_meta
  (Some (Build_desc (Some (bs "[178]\d{7}|[2-8]\d{6}")) [(7)%Z; (8)%Z] [(6)%Z] None))
  (Some (Build_desc (Some (bs "(?:2[3-6]|[34][5-7]|5[236]|6[2-46]|7[246]|8[2-4])\d{5}")) [(7)%Z] [(6)%Z] (Some (bs "2345678"))))
  (Some (Build_desc (Some (bs "(?:1[67]|[78]7)\d{6}")) [(8)%Z] [] (Some (bs "17123456"))))
  (Some (Build_desc None [(-1)%Z] [] None))
  (Some (Build_desc None [(-1)%Z] [] None))
  (Some (Build_desc None [(-1)%Z] [] None))
  (Some (Build_desc None [(-1)%Z] [] None))
  (Some (Build_desc None [(-1)%Z] [] None))
  (Some (Build_desc None [(-1)%Z] [] None))
  (Some (Build_desc None [(-1)%Z] [] None))
  None
  (Some (Build_desc None [(-1)%Z] [] None))
  None
  None
  None
  None
  (Some (Build_desc None [(-1)%Z] [] None))
  (Some (bs "BT")) (Some (975)%Z) (Some (bs "00")) None None
  None None None None
  [Build_nfmt (Some (bs "(\d{3})(\d{3})")) (Some (bs "$1 $2")) [bs "[2-7]"] None None None;
    Build_nfmt (Some (bs "(\d)(\d{3})(\d{3})")) (Some (bs "$1 $2 $3")) [bs "[2-6]|7[246]|8[2-4]"] None None None;
    Build_nfmt (Some (bs "(\d{2})(\d{2})(\d{2})(\d{2})")) (Some (bs "$1 $2 $3 $4")) [bs "1[67]|[78]"] None None None]
  [Build_nfmt (Some (bs "(\d)(\d{3})(\d{3})")) (Some (bs "$1 $2 $3")) [bs "[2-6]|7[246]|8[2-4]"] None None None;
    Build_nfmt (Some (bs "(\d{2})(\d{2})(\d{2})(\d{2})")) (Some (bs "$1 $2 $3 $4")) [bs "1[67]|[78]"] None None None]
  None None None.

Definition md_BW : meta := Eval vm_compute in Build_meta
  (Some (Build_desc (Some (bs "(?:0800|(?:[37]|800)\d)\d{6}|(?:[2-6]\d|90)\d{5}")) [(7)%Z; (8)%Z; (10)%Z] [] None))
  (Some (Build_desc (Some (bs "(?:2(?:4[0-48]|6[0-24]|9[0578])|3(?:1[0-35-9]|55|[69]\d|7[013]|81)|4(?:6[03]|7[1267]|9[0-5])|5(?:3[03489]|4[0489]|7[1-47]|88|9[0-49])|6(?:2[1-35]|5[149]|8[013467]))\d{4}")) [(7)%Z] [] (Some (bs "2401234"))))
  (Some (Build_desc (Some (bs "(?:321|7(?:[1-8]\d|9[03]))\d{5}")) [(8)%Z] [] (Some (bs "71123456"))))
  (Some (Build_desc (Some (bs "(?:0800|800\d)\d{6}")) [(10)%Z] [] (Some (bs "0800012345"))))
  (Some (Build_desc (Some (bs "90\d{5}")) [(7)%Z] [] (Some (bs "9012345"))))
  (Some (Build_desc None [(-1)%Z] [] None))
  (Some (Build_desc None [(-1)%Z] [] None))
  (Some (Build_desc (Some (bs "79(?:1(?:[0-2]\d|3[0-8])|2[0-7]\d)\d{3}")) [(8)%Z] [] (Some (bs "79101234"))))
  (Some (Build_desc None [(-1)%Z] [] None))
  (Some (Build_desc None [(-1)%Z] [] None))
  None
  (Some (Build_desc None [(-1)%Z] [] None))
  None
  None
  None
  None
  (Some (Build_desc None [(-1)%Z] [] None))
  (Some (bs "BW")) (Some (267)%Z) (Some (bs "00")) None None
  None None None None
  [Build_nfmt (Some (bs "(\d{2})(\d{5})")) (Some (bs "$1 $2")) [bs "90"] None None None;
    Build_nfmt (Some (bs "(\d{3})(\d{4})")) (Some (bs "$1 $2")) [bs "[24-6]|3[15-9]"] None None None;
    Build_nfmt (Some (bs "(\d{2})(\d{3})(\d{3})")) (Some (bs "$1 $2 $3")) [bs "[37]"] None None None;
    Build_nfmt (Some (bs "(\d{4})(\d{3})(\d{3})")) (Some (bs "$1 $2 $3")) [bs "0"] None None None;
    Build_nfmt (Some (bs "(\d{3})(\d{4})(\d{3})")) (Some (bs "$1 $2 $3")) [bs "8"] None None None]
  []
  None None None.

Definition md_BY : meta := Eval vm_compute in Build_meta
  (Some (Build_desc (Some (bs "(?:[12]\d|33|44|902)\d{7}|8(?:0[0-79]\d{5,7}|[1-7]\d{9})|8(?:1[0-489]|[5-79]\d)\d{7}|8[1-79]\d{6,7}|8[0-79]\d{5}|8\d{5}")) [(6)%Z; (7)%Z; (8)%Z; (9)%Z; (10)%Z; (11)%Z] [(5)%Z] None))
  (Some (Build_desc (Some (bs "(?:1(?:5(?:1[1-5]|[24]\d|6[2-4]|9[1-7])|6(?:[235]\d|4[1-7])|7\d\d)|2(?:1(?:[246]\d|3[0-35-9]|5[1-9])|2(?:[235]\d|4[0-8])|3(?:[26]\d|3[02-79]|4[024-7]|5[03-7])))\d{5}")) [(9)%Z] [(5)%Z; (6)%Z; (7)%Z] (Some (bs "152450911"))))
  (Some (Build_desc (Some (bs "(?:2(?:5[5-79]|9[1-9])|(?:33|44)\d)\d{6}")) [(9)%Z] [] (Some (bs "294911911"))))
  (Some (Build_desc (Some (bs "800\d{3,7}|8(?:0[13]|20\d)\d{7}")) [] [] (Some (bs "8011234567"))))
  (Some (Build_desc (Some (bs "(?:810|902)\d{7}")) [(10)%Z] [] (Some (bs "9021234567"))))
  (Some (Build_desc None [(-1)%Z] [] None))
  (Some (Build_desc None [(-1)%Z] [] None))
  (Some (Build_desc (Some (bs "249\d{6}")) [(9)%Z] [] (Some (bs "249123456"))))
  (Some (Build_desc None [(-1)%Z] [] None))
  (Some (Build_desc None [(-1)%Z] [] None))
  None
  (Some (Build_desc None [(-1)%Z] [] None))
  None
  None
  None
  None
  (Some (Build_desc (Some (bs "800\d{3,7}|(?:8(?:0[13]|10|20\d)|902)\d{7}")) [] [] None))
  (Some (bs "BY")) (Some (375)%Z) (Some (bs "810")) (Some (bs "8~10")) (Some (bs "8"))
  None (Some (bs "0|80?")) None None
  [Build_nfmt (Some (bs "(\d{3})(\d{3})")) (Some (bs "$1 $2")) [bs "800"] (Some (bs "8 $1")) None None;
    Build_nfmt (Some (bs "(\d{3})(\d{2})(\d{2,4})")) (Some (bs "$1 $2 $3")) [bs "800"] (Some (bs "8 $1")) None None;
    Build_nfmt (Some (bs "(\d{4})(\d{2})(\d{3})")) (Some (bs "$1 $2-$3")) [bs "1(?:5[169]|6[3-5]|7[179])|2(?:1[35]|2[34]|3[3-5])"; bs "1(?:5[169]|6(?:3[1-3]|4|5[125])|7(?:1[3-9]|7[0-24-6]|9[2-7]))|2(?:1[35]|2[34]|3[3-5])"] (Some (bs "8 0$1")) None None;
    Build_nfmt (Some (bs "(\d{3})(\d{2})(\d{2})(\d{2})")) (Some (bs "$1 $2-$3-$4")) [bs "1(?:[56]|7[467])|2[1-3]"] (Some (bs "8 0$1")) None None;
    Build_nfmt (Some (bs "(\d{2})(\d{3})(\d{2})(\d{2})")) (Some (bs "$1 $2-$3-$4")) [bs "[1-4]"] (Some (bs "8 0$1")) None None;
    Build_nfmt (Some (bs "(\d{3})(\d{3,4})(\d{4})")) (Some (bs "$1 $2 $3")) [bs "[89]"] (Some (bs "8 $1")) None None]
  []
  None None (Some true).

Definition md_BZ : meta := Eval vm_compute in Build_meta
  (Some (Build_desc (Some (bs "(?:0800\d|[2-8])\d{6}")) [(7)%Z; (11)%Z] [] None))
  (Some (Build_desc (Some (bs "(?:2(?:[02]\d|36|[68]0)|[3-58](?:[02]\d|[68]0)|7(?:[02]\d|32|[68]0))\d{4}")) [(7)%Z] [] (Some (bs "2221234"))))
  (Some (Build_desc (Some (bs "6[0-35-7]\d{5}")) [(7)%Z] [] (Some (bs "6221234"))))
  (Some (Build_desc (Some (bs "0800\d{7}")) [(11)%Z] [] (Some (bs "08001234123"))))
  (Some (Build_desc None [(-1)%Z] [] None))
  (Some (Build_desc None [(-1)%Z] [] None))
  (Some (Build_desc None [(-1)%Z] [] None))
  (Some (Build_desc None [(-1)%Z] [] None))
  (Some (Build_desc None [(-1)%Z] [] None))
  (Some (Build_desc None [(-1)%Z] [] None))
  None
  (Some (Build_desc None [(-1)%Z] [] None))
  None
  None
  None
  None
  (Some (Build_desc None [(-1)%Z] [] None))
  (Some (bs "BZ")) (Some (501)%Z) (Some (bs "00")) None None
  None None None None
  [Build_nfmt (Some (bs "(\d{3})(\d{4})")) (Some (bs "$1-$2")) [bs "[2-8]"] None None None;
    Build_nfmt (Some (bs "(\d)(\d{3})(\d{4})(\d{3})")) (Some (bs "$1-$2-$3-$4")) [bs "0"] None None None]
  []
  None None None.

Definition md_CA : meta := Eval vm_compute in Build_meta
  (Some (Build_desc (Some (bs "[2-9]\d{9}|3\d{6}")) [(7)%Z; (10)%Z] [] None))
  (Some (Build_desc (Some (bs "(?:2(?:04|[23]6|[48]9|5[07]|63)|3(?:06|43|54|6[578]|82)|4(?:03|1[68]|[26]8|3[178]|50|74)|5(?:06|1[49]|48|79|8[147])|6(?:04|[18]3|39|47|72)|7(?:0[59]|42|53|78|8[02])|8(?:[06]7|19|25|7[39])|9(?:0[25]|42))[2-9]\d{6}")) [(10)%Z] [(7)%Z] (Some (bs "5062345678"))))
  (Some (Build_desc (Some (bs "(?:2(?:04|[23]6|[48]9|5[07]|63)|3(?:06|43|54|6[578]|82)|4(?:03|1[68]|[26]8|3[178]|50|74)|5(?:06|1[49]|48|79|8[147])|6(?:04|[18]3|39|47|72)|7(?:0[59]|42|53|78|8[02])|8(?:[06]7|19|25|7[39])|9(?:0[25]|42))[2-9]\d{6}")) [(10)%Z] [(7)%Z] (Some (bs "5062345678"))))
  (Some (Build_desc (Some (bs "8(?:00|33|44|55|66|77|88)[2-9]\d{6}")) [(10)%Z] [] (Some (bs "8002123456"))))
  (Some (Build_desc (Some (bs "900[2-9]\d{6}")) [(10)%Z] [] (Some (bs "9002123456"))))
  (Some (Build_desc None [(-1)%Z] [] None))
  (Some (Build_desc (Some (bs "52(?:3(?:[2-46-9][02-9]\d|5(?:[02-46-9]\d|5[0-46-9]))|4(?:[2-478][02-9]\d|5(?:[034]\d|2[024-9]|5[0-46-9])|6(?:0[1-9]|[2-9]\d)|9(?:[05-9]\d|2[0-5]|49)))\d{4}|52[34][2-9]1[02-9]\d{4}|(?:5(?:2[125-9]|3[23]|44|66|77|88)|6(?:22|33))[2-9]\d{6}")) [(10)%Z] [] (Some (bs "5219023456"))))
  (Some (Build_desc (Some (bs "600[2-9]\d{6}")) [(10)%Z] [] (Some (bs "6002012345"))))
  (Some (Build_desc None [(-1)%Z] [] None))
  (Some (Build_desc (Some (bs "310\d{4}")) [(7)%Z] [] (Some (bs "3101234"))))
  None
  (Some (Build_desc None [(-1)%Z] [] None))
  None
  None
  None
  None
  (Some (Build_desc None [(-1)%Z] [] None))
  (Some (bs "CA")) (Some (1)%Z) (Some (bs "011")) None (Some (bs "1"))
  None (Some (bs "1")) None (Some true)
  []
  []
  None None (Some true).

Definition md_CC : meta := Eval vm_compute in Build_meta
  (Some (Build_desc (Some (bs "1(?:[0-79]\d{8}(?:\d{2})?|8[0-24-9]\d{7})|[148]\d{8}|1\d{5,7}")) [(6)%Z; (7)%Z; (8)%Z; (9)%Z; (10)%Z; (12)%Z] [] None))
  (Some (Build_desc (Some (bs "8(?:51(?:0(?:02|31|60|89)|1(?:18|76)|223)|91(?:0(?:1[0-2]|29)|1(?:[28]2|50|79)|2(?:10|64)|3(?:[06]8|22)|4[29]8|62\d|70[23]|959))\d{3}")) [(9)%Z] [(8)%Z] (Some (bs "891621234"))))
  (Some (Build_desc (Some (bs "4(?:79[01]|83[0-36-9]|95[0-3])\d{5}|4(?:[0-36]\d|4[047-9]|[58][0-24-9]|7[02-8]|9[0-47-9])\d{6}")) [(9)%Z] [] (Some (bs "412345678"))))
  (Some (Build_desc (Some (bs "180(?:0\d{3}|2)\d{3}")) [(7)%Z; (10)%Z] [] (Some (bs "1800123456"))))
  (Some (Build_desc (Some (bs "190[0-26]\d{6}")) [(10)%Z] [] (Some (bs "1900123456"))))
  (Some (Build_desc (Some (bs "13(?:00\d{6}(?:\d{2})?|45[0-4]\d{3})|13\d{4}")) [(6)%Z; (8)%Z; (10)%Z; (12)%Z] [] (Some (bs "1300123456"))))
  (Some (Build_desc None [(-1)%Z] [] None))
  (Some (Build_desc (Some (bs "14(?:5(?:1[0458]|[23][458])|71\d)\d{4}")) [(9)%Z] [] (Some (bs "147101234"))))
  (Some (Build_desc None [(-1)%Z] [] None))
  (Some (Build_desc None [(-1)%Z] [] None))
  None
  (Some (Build_desc None [(-1)%Z] [] None))
  None
  None
  None
  None
  (Some (Build_desc None [(-1)%Z] [] None))
  (Some (bs "CC")) (Some (61)%Z) (Some (bs "001[14-689]|14(?:1[14]|34|4[17]|[56]6|7[47]|88)0011")) (Some (bs "0011")) (Some (bs "0"))
  None (Some (bs "([59]\d{7})$|0")) (Some (bs "8$1")) None
  []
  []
  None None None.

Definition md_CD : meta := Eval vm_compute in Build_meta
  (Some (Build_desc (Some (bs "(?:(?:[189]|5\d)\d|2)\d{7}|[1-68]\d{6}")) [(7)%Z; (8)%Z; (9)%Z; (10)%Z] [] None))
  (Some (Build_desc (Some (bs "(?:(?:12|573)\d\d|276)\d{5}|[1-6]\d{6}")) [] [] (Some (bs "1234567"))))
  (Some (Build_desc (Some (bs "88\d{5}|(?:8[0-69]|9[016-9])\d{7}")) [(7)%Z; (9)%Z] [] (Some (bs "991234567"))))
  (Some (Build_desc None [(-1)%Z] [] None))
  (Some (Build_desc None [(-1)%Z] [] None))
  (Some (Build_desc None [(-1)%Z] [] None))
  (Some (Build_desc None [(-1)%Z] [] None))
  (Some (Build_desc None [(-1)%Z] [] None))
  (Some (Build_desc None [(-1)%Z] [] None))
  (Some (Build_desc None [(-1)%Z] [] None))
  None
  (Some (Build_desc None [(-1)%Z] [] None))
  None
  None
  None
  None
  (Some (Build_desc None [(-1)%Z] [] None))
  (Some (bs "CD")) (Some (243)%Z) (Some (bs "00")) None (Some (bs "0"))
  None (Some (bs "0")) None None
  [Build_nfmt (Some (bs "(\d{2})(\d{2})(\d{3})")) (Some (bs "$1 $2 $3")) [bs "88"] (Some (bs "0$1")) None None;
    Build_nfmt (Some (bs "(\d{2})(\d{5})")) (Some (bs "$1 $2")) [bs "[1-6]"] (Some (bs "0$1")) None None;
    Build_nfmt (Some (bs "(\d{2})(\d{2})(\d{4})")) (Some (bs "$1 $2 $3")) [bs "2"] (Some (bs "0$1")) None None;
    Build_nfmt (Some (bs "(\d{2})(\d{3})(\d{4})")) (Some (bs "$1 $2 $3")) [bs "1"] (Some (bs "0$1")) None None;
    Build_nfmt (Some (bs "(\d{3})(\d{3})(\d{3})")) (Some (bs "$1 $2 $3")) [bs "[89]"] (Some (bs "0$1")) None None;
    Build_nfmt (Some (bs "(\d{2})(\d{2})(\d{3})(\d{3})")) (Some (bs "$1 $2 $3 $4")) [bs "5"] (Some (bs "0$1")) None None]
  []
  None None None.

Definition md_CF : meta := Eval vm_compute in Build_meta
  (Some (Build_desc (Some (bs "8776\d{4}|(?:[27]\d|61)\d{6}")) [(8)%Z] [] None))
  (Some (Build_desc (Some (bs "(?:2[12]|61)\d{6}")) [] [] (Some (bs "21612345"))))
  (Some (Build_desc (Some (bs "7[02-7]\d{6}")) [] [] (Some (bs "70012345"))))
  (Some (Build_desc None [(-1)%Z] [] None))
  (Some (Build_desc (Some (bs "8776\d{4}")) [] [] (Some (bs "87761234"))))
  (Some (Build_desc None [(-1)%Z] [] None))
  (Some (Build_desc None [(-1)%Z] [] None))
  (Some (Build_desc None [(-1)%Z] [] None))
  (Some (Build_desc None [(-1)%Z] [] None))
  (Some (Build_desc None [(-1)%Z] [] None))
  None
  (Some (Build_desc None [(-1)%Z] [] None))
  None
  None
  None
  None
  (Some (Build_desc None [(-1)%Z] [] None))
  (Some (bs "CF")) (Some (236)%Z) (Some (bs "00")) None None
  None None None None
  [Build_nfmt (Some (bs "(\d{2})(\d{2})(\d{2})(\d{2})")) (Some (bs "$1 $2 $3 $4")) [bs "[26-8]"] None None None]
  []
  None None None.

Definition md_CG : meta := Eval vm_compute in Build_meta
  (Some (Build_desc (Some (bs "222\d{6}|(?:0\d|80)\d{7}")) [(9)%Z] [] None))
  (Some (Build_desc (Some (bs "222[1-589]\d{5}")) [] [] (Some (bs "222123456"))))
  (Some (Build_desc (Some (bs "026(?:1[0-5]|6[6-9])\d{4}|0(?:[14-6]\d\d|2(?:40|5[5-8]|6[07-9]))\d{5}")) [] [] (Some (bs "061234567"))))
  (Some (Build_desc None [(-1)%Z] [] None))
  (Some (Build_desc (Some (bs "80[0-2]\d{6}")) [] [] (Some (bs "800123456"))))
  (Some (Build_desc None [(-1)%Z] [] None))
  (Some (Build_desc None [(-1)%Z] [] None))
  (Some (Build_desc None [(-1)%Z] [] None))
  (Some (Build_desc None [(-1)%Z] [] None))
  (Some (Build_desc None [(-1)%Z] [] None))
  None
  (Some (Build_desc None [(-1)%Z] [] None))
  None
  None
  None
  None
  (Some (Build_desc None [(-1)%Z] [] None))
  (Some (bs "CG")) (Some (242)%Z) (Some (bs "00")) None None
  None None None None
  [Build_nfmt (Some (bs "(\d)(\d{4})(\d{4})")) (Some (bs "$1 $2 $3")) [bs "8"] None None None;
    Build_nfmt (Some (bs "(\d{2})(\d{3})(\d{4})")) (Some (bs "$1 $2 $3")) [bs "[02]"] None None None]
  []
  None None None.

Definition md_CH : meta := Eval vm_compute in Build_meta
  (Some (Build_desc (Some (bs "8\d{11}|[2-9]\d{8}")) [(9)%Z; (12)%Z] [] None))
  (Some (Build_desc (Some (bs "(?:2[12467]|3[1-4]|4[134]|5[256]|6[12]|[7-9]1)\d{7}")) [(9)%Z] [] (Some (bs "212345678"))))
  (Some (Build_desc (Some (bs "(?:6[89]|7[235-9])\d{7}")) [(9)%Z] [] (Some (bs "781234567"))))
  (Some (Build_desc (Some (bs "800\d{6}")) [(9)%Z] [] (Some (bs "800123456"))))
  (Some (Build_desc (Some (bs "90[016]\d{6}")) [(9)%Z] [] (Some (bs "900123456"))))
  (Some (Build_desc (Some (bs "84[0248]\d{6}")) [(9)%Z] [] (Some (bs "840123456"))))
  (Some (Build_desc (Some (bs "878\d{6}")) [(9)%Z] [] (Some (bs "878123456"))))
  (Some (Build_desc None [(-1)%Z] [] None))
  (Some (Build_desc (Some (bs "74[0248]\d{6}")) [(9)%Z] [] (Some (bs "740123456"))))
  (Some (Build_desc (Some (bs "5[18]\d{7}")) [(9)%Z] [] (Some (bs "581234567"))))
  None
  (Some (Build_desc (Some (bs "860\d{9}")) [(12)%Z] [] (Some (bs "860123456789"))))
  None
  None
  None
  None
  (Some (Build_desc None [(-1)%Z] [] None))
  (Some (bs "CH")) (Some (41)%Z) (Some (bs "00")) None (Some (bs "0"))
  None (Some (bs "0")) None None
  [Build_nfmt (Some (bs "(\d{3})(\d{3})(\d{3})")) (Some (bs "$1 $2 $3")) [bs "8[047]|90"] (Some (bs "0$1")) None None;
    Build_nfmt (Some (bs "(\d{2})(\d{3})(\d{2})(\d{2})")) (Some (bs "$1 $2 $3 $4")) [bs "[2-79]|81"] (Some (bs "0$1")) None None;
    Build_nfmt (Some (bs "(\d{3})(\d{2})(\d{3})(\d{2})(\d{2})")) (Some (bs "$1 $2 $3 $4 $5")) [bs "8"] (Some (bs "0$1")) None None]
  []
  None None (Some true).

Definition md_CI : meta := Eval vm_compute in Build_meta
  (Some (Build_desc (Some (bs "[02]\d{9}")) [(10)%Z] [] None))
  (Some (Build_desc (Some (bs "2(?:[15]\d{3}|7(?:2(?:0[23]|1[2357]|2[245]|3[45]|4[3-5])|3(?:06|1[69]|[2-6]7)))\d{5}")) [] [] (Some (bs "2123456789"))))
  (Some (Build_desc (Some (bs "0[157]\d{8}")) [] [] (Some (bs "0123456789"))))
  (Some (Build_desc None [(-1)%Z] [] None))
  (Some (Build_desc None [(-1)%Z] [] None))
  (Some (Build_desc None [(-1)%Z] [] None))
  (Some (Build_desc None [(-1)%Z] [] None))
  (Some (Build_desc None [(-1)%Z] [] None))
  (Some (Build_desc None [(-1)%Z] [] None))
  (Some (Build_desc None [(-1)%Z] [] None))
  None
  (Some (Build_desc None [(-1)%Z] [] None))
  None
  None
  None
  None
  (Some (Build_desc None [(-1)%Z] [] None))
  (Some (bs "CI")) (Some (225)%Z) (Some (bs "00")) None None
  None None None None
  [Build_nfmt (Some (bs "(\d{2})(\d{2})(\d)(\d{5})")) (Some (bs "$1 $2 $3 $4")) [bs "2"] None None None;
    Build_nfmt (Some (bs "(\d{2})(\d{2})(\d{2})(\d{4})")) (Some (bs "$1 $2 $3 $4")) [bs "0"] None None None]
  []
  None None None.

Definition md_CK : meta := Eval vm_compute in Build_meta
  (Some (Build_desc (Some (bs "[2-578]\d{4}")) [(5)%Z] [] None))
  (Some (Build_desc (Some (bs "(?:2\d|3[13-7]|4[1-5])\d{3}")) [] [] (Some (bs "21234"))))
  (Some (Build_desc (Some (bs "[578]\d{4}")) [] [] (Some (bs "71234"))))
  (Some (Build_desc None [(-1)%Z] [] None))
  (Some (Build_desc None [(-1)%Z] [] None))
  (Some (Build_desc None [(-1)%Z] [] None))
  (Some (Build_desc None [(-1)%Z] [] None))
  (Some (Build_desc None [(-1)%Z] [] None))
  (Some (Build_desc None [(-1)%Z] [] None))
  (Some (Build_desc None [(-1)%Z] [] None))
  None
  (Some (Build_desc None [(-1)%Z] [] None))
  None
  None
  None
  None
  (Some (Build_desc None [(-1)%Z] [] None))
  (Some (bs "CK")) (Some (682)%Z) (Some (bs "00")) None None
  None None None None
  [Build_nfmt (Some (bs "(\d{2})(\d{3})")) (Some (bs "$1 $2")) [bs "[2-578]"] None None None]
  []
  None None None.

Definition md_CL : meta := Eval vm_compute in Build_meta
  (Some (Build_desc (Some (bs "12300\d{6}|6\d{9,10}|[2-9]\d{8}")) [(9)%Z; (10)%Z; (11)%Z] [] None))
  (Some (Build_desc (Some (bs "2(?:1982[0-6]|3314[05-9])\d{3}|(?:2(?:1(?:160|962)|3(?:(?:[24]\d|50)\d|3(?:[0346-9]\d|1[0-35-9]|2[1-9]|5[0-24-9])|600)|646[59])|(?:600|80[1-9])\d\d|9(?:(?:10[0-2]|7[1-9]\d)\d|3(?:[0-57-9]\d\d|6(?:0[02-9]|[1-9]\d))|6(?:[0-8]\d\d|9(?:[02-79]\d|1[05-9]))|9(?:[03-9]\d\d|1(?:[0235-9]\d|4[0-24-9])|2(?:[0-79]\d|8[0-46-9]))))\d{4}|(?:22|3[2-5]|[47][1-35]|5[1-3578]|6[13-57]|8[1-9]|9[2458])\d{7}")) [(9)%Z] [] (Some (bs "600123456"))))
  (Some (Build_desc (Some (bs "2(?:1982[0-6]|3314[05-9])\d{3}|(?:2(?:1(?:160|962)|3(?:(?:[24]\d|50)\d|3(?:[0346-9]\d|1[0-35-9]|2[1-9]|5[0-24-9])|600)|646[59])|80[1-8]\d\d|9(?:(?:10[0-2]|7[1-9]\d)\d|3(?:[0-57-9]\d\d|6(?:0[02-9]|[1-9]\d))|6(?:[0-8]\d\d|9(?:[02-79]\d|1[05-9]))|9(?:[03-9]\d\d|1(?:[0235-9]\d|4[0-24-9])|2(?:[0-79]\d|8[0-46-9]))))\d{4}|(?:22|3[2-5]|[47][1-35]|5[1-3578]|6[13-57]|8[1-9]|9[2458])\d{7}")) [(9)%Z] [] (Some (bs "221234567"))))
  (Some (Build_desc (Some (bs "(?:123|8)00\d{6}")) [(9)%Z; (11)%Z] [] (Some (bs "800123456"))))
  (Some (Build_desc None [(-1)%Z] [] None))
  (Some (Build_desc (Some (bs "600\d{7,8}")) [(10)%Z; (11)%Z] [] (Some (bs "6001234567"))))
  (Some (Build_desc None [(-1)%Z] [] None))
  (Some (Build_desc (Some (bs "44\d{7}")) [(9)%Z] [] (Some (bs "441234567"))))
  (Some (Build_desc None [(-1)%Z] [] None))
  (Some (Build_desc None [(-1)%Z] [] None))
  None
  (Some (Build_desc None [(-1)%Z] [] None))
  None
  None
  None
  None
  (Some (Build_desc (Some (bs "600\d{7,8}")) [(10)%Z; (11)%Z] [] None))
  (Some (bs "CL")) (Some (56)%Z) (Some (bs "(?:0|1(?:1[0-69]|2[02-5]|5[13-58]|69|7[0167]|8[018]))0")) None None
  None None None None
  [Build_nfmt (Some (bs "(\d{4})")) (Some (bs "$1")) [bs "1(?:[03-589]|21)|[29]0|78"] None None None;
    Build_nfmt (Some (bs "(\d{5})(\d{4})")) (Some (bs "$1 $2")) [bs "219"; bs "2196"] (Some (bs "($1)")) None None;
    Build_nfmt (Some (bs "(\d{3})(\d{3})(\d{3})")) (Some (bs "$1 $2 $3")) [bs "60|809"] None None None;
    Build_nfmt (Some (bs "(\d{2})(\d{3})(\d{4})")) (Some (bs "$1 $2 $3")) [bs "44"] None None None;
    Build_nfmt (Some (bs "(\d)(\d{4})(\d{4})")) (Some (bs "$1 $2 $3")) [bs "2[1-36]"] (Some (bs "($1)")) None None;
    Build_nfmt (Some (bs "(\d)(\d{4})(\d{4})")) (Some (bs "$1 $2 $3")) [bs "9(?:10|[2-9])"] None None None;
    Build_nfmt (Some (bs "(\d{2})(\d{3})(\d{4})")) (Some (bs "$1 $2 $3")) [bs "3[2-5]|[47]|5[1-3578]|6[13-57]|8(?:0[1-8]|[1-9])"] (Some (bs "($1)")) None None;
    Build_nfmt (Some (bs "(\d{3})(\d{3})(\d{3,4})")) (Some (bs "$1 $2 $3")) [bs "60|8"] None None None;
    Build_nfmt (Some (bs "(\d{4})(\d{3})(\d{4})")) (Some (bs "$1 $2 $3")) [bs "1"] None None None;
    Build_nfmt (Some (bs "(\d{3})(\d{3})(\d{2})(\d{3})")) (Some (bs "$1 $2 $3 $4")) [bs "60"] None None None]
  [Build_nfmt (Some (bs "(\d{5})(\d{4})")) (Some (bs "$1 $2")) [bs "219"; bs "2196"] (Some (bs "($1)")) None None;
    Build_nfmt (Some (bs "(\d{3})(\d{3})(\d{3})")) (Some (bs "$1 $2 $3")) [bs "60|809"] None None None;
    Build_nfmt (Some (bs "(\d{2})(\d{3})(\d{4})")) (Some (bs "$1 $2 $3")) [bs "44"] None None None;
    Build_nfmt (Some (bs "(\d)(\d{4})(\d{4})")) (Some (bs "$1 $2 $3")) [bs "2[1-36]"] (Some (bs "($1)")) None None;
    Build_nfmt (Some (bs "(\d)(\d{4})(\d{4})")) (Some (bs "$1 $2 $3")) [bs "9(?:10|[2-9])"] None None None;
    Build_nfmt (Some (bs "(\d{2})(\d{3})(\d{4})")) (Some (bs "$1 $2 $3")) [bs "3[2-5]|[47]|5[1-3578]|6[13-57]|8(?:0[1-8]|[1-9])"] (Some (bs "($1)")) None None;
    Build_nfmt (Some (bs "(\d{3})(\d{3})(\d{3,4})")) (Some (bs "$1 $2 $3")) [bs "60|8"] None None None;
    Build_nfmt (Some (bs "(\d{4})(\d{3})(\d{4})")) (Some (bs "$1 $2 $3")) [bs "1"] None None None;
    Build_nfmt (Some (bs "(\d{3})(\d{3})(\d{2})(\d{3})")) (Some (bs "$1 $2 $3 $4")) [bs "60"] None None None]
  None None (Some true).

Definition md_CM : meta := Eval vm_compute in Build_meta
  (Some (Build_desc (Some (bs "[26]\d{8}|88\d{6,7}")) [(8)%Z; (9)%Z] [] None))
  (Some (Build_desc (Some (bs "2(?:22|33)\d{6}")) [(9)%Z] [] (Some (bs "222123456"))))
  (Some (Build_desc (Some (bs "(?:24[23]|6(?:[25-9]\d|4[0-2]))\d{6}")) [(9)%Z] [] (Some (bs "671234567"))))
  (Some (Build_desc (Some (bs "88\d{6,7}")) [] [] (Some (bs "88012345"))))
  (Some (Build_desc None [(-1)%Z] [] None))
  (Some (Build_desc None [(-1)%Z] [] None))
  (Some (Build_desc None [(-1)%Z] [] None))
  (Some (Build_desc None [(-1)%Z] [] None))
  (Some (Build_desc None [(-1)%Z] [] None))
  (Some (Build_desc None [(-1)%Z] [] None))
  None
  (Some (Build_desc None [(-1)%Z] [] None))
  None
  None
  None
  None
  (Some (Build_desc None [(-1)%Z] [] None))
  (Some (bs "CM")) (Some (237)%Z) (Some (bs "00")) None None
  None None None None
  [Build_nfmt (Some (bs "(\d{2})(\d{2})(\d{2})(\d{2})")) (Some (bs "$1 $2 $3 $4")) [bs "88"] None None None;
    Build_nfmt (Some (bs "(\d)(\d{2})(\d{2})(\d{2})(\d{2})")) (Some (bs "$1 $2 $3 $4 $5")) [bs "[26]|88"] None None None]
  []
  None None (Some true).

Definition md_CN : meta := Eval vm_compute in Build_meta
  (Some (Build_desc (Some (bs "(?:(?:1[03-689]|2\d)\d\d|6)\d{8}|1\d{10}|[126]\d{6}(?:\d(?:\d{2})?)?|86\d{5,6}|(?:[3-579]\d|8[0-57-9])\d{5,9}")) [(7)%Z; (8)%Z; (9)%Z; (10)%Z; (11)%Z; (12)%Z] [(5)%Z; (6)%Z] None))
  (Some (Build_desc (Some (bs "(?:10(?:[02-79]\d\d|[18](?:0[1-9]|[1-9]\d))|2(?:[02-57-9]\d{3}|1(?:[18](?:0[1-9]|[1-9]\d)|[2-79]\d\d))|(?:41[03]|8078|9(?:78|94))\d\d)\d{5}|(?:10|2[0-57-9])(?:1(?:00|23)\d\d|95\d{3,4})|(?:41[03]|9(?:78|94))(?:100\d\d|95\d{3,4})|8078123|(?:43[35]|754|851)\d{7,8}|(?:43[35]|754|851)(?:1(?:00\d|23)\d|95\d{3,4})|(?:3(?:11|7[179])|4(?:[15]1|3[12])|5(?:1\d|2[37]|3[12]|51|7[13-79]|9[15])|7(?:[39]1|5[57]|6[09])|8(?:71|98))(?:[02-8]\d{7}|1(?:0(?:0\d\d(?:\d{3})?|[1-9]\d{5})|[13-9]\d{6}|2(?:[0-24-9]\d{5}|3\d(?:\d{4})?))|9(?:[0-46-9]\d{6}|5\d{3}(?:\d(?:\d{2})?)?))|(?:3(?:1[02-9]|35|49|5\d|7[02-68]|9[1-68])|4(?:1[24-9]|2[179]|3[46-9]|5[2-9]|6[47-9]|7\d|8[23])|5(?:3[03-9]|4[36]|5[02-9]|6[1-46]|7[028]|80|9[2-46-9])|6(?:3[1-5]|6[0238]|9[12])|7(?:01|[17]\d|2[248]|3[04-9]|4[3-6]|5[0-3689]|6[2368]|9[02-9])|8(?:1[236-8]|2[5-7]|3\d|5[2-9]|7[02-9]|8[36-8]|9[1-7])|9(?:0[1-3689]|1[1-79]|3\d|4[13]|5[1-5]|7[0-79]|9[0-35-9]))(?:[02-8]\d{6}|1(?:0(?:0\d\d(?:\d{2})?|[1-9]\d{4})|[13-9]\d{5}|2(?:[0-24-9]\d{4}|3\d(?:\d{3})?))|9(?:[0-46-9]\d{5}|5\d{3,5}))")) [(7)%Z; (8)%Z; (9)%Z; (10)%Z; (11)%Z] [(5)%Z; (6)%Z] (Some (bs "1012345678"))))
  (Some (Build_desc (Some (bs "1(?:610\d|740[0-5])\d{6}|1(?:[38]\d|4[57]|[59][0-35-9]|6[25-7]|7[0-35-8])\d{8}")) [(11)%Z] [] (Some (bs "13123456789"))))
  (Some (Build_desc (Some (bs "(?:(?:10|21)8|8)00\d{7}")) [(10)%Z; (12)%Z] [] (Some (bs "8001234567"))))
  (Some (Build_desc (Some (bs "16[08]\d{5}")) [(8)%Z] [] (Some (bs "16812345"))))
  (Some (Build_desc (Some (bs "10(?:10\d{4}|96\d{3,4})|400\d{7}|950\d{7,8}|(?:2[0-57-9]|3(?:[157]\d|35|49|9[1-68])|4(?:[17]\d|2[179]|[35][1-9]|6[47-9]|8[23])|5(?:[1357]\d|2[37]|4[36]|6[1-46]|80|9[1-9])|6(?:3[1-5]|6[0238]|9[12])|7(?:01|[1579]\d|2[248]|3[014-9]|4[3-6]|6[023689])|8(?:1[236-8]|2[5-7]|[37]\d|5[14-9]|8[36-8]|9[1-8])|9(?:0[1-3689]|1[1-79]|[379]\d|4[13]|5[1-5]))96\d{3,4}")) [(7)%Z; (8)%Z; (9)%Z; (10)%Z; (11)%Z] [(5)%Z; (6)%Z] (Some (bs "4001234567"))))
  (Some (Build_desc None [(-1)%Z] [] None))
  (Some (Build_desc None [(-1)%Z] [] None))
  (Some (Build_desc None [(-1)%Z] [] None))
  (Some (Build_desc None [(-1)%Z] [] None))
  None
  (Some (Build_desc None [(-1)%Z] [] None))
  None
  None
  None
  None
  (Some (Build_desc (Some (bs "(?:(?:10|21)8|[48])00\d{7}|950\d{7,8}")) [(10)%Z; (11)%Z; (12)%Z] [] None))
  (Some (bs "CN")) (Some (86)%Z) (Some (bs "00|1(?:[12]\d|79)\d\d00")) (Some (bs "00")) (Some (bs "0"))
  None (Some (bs "(1(?:[12]\d|79)\d\d)|0")) None None
  [Build_nfmt (Some (bs "(\d{5,6})")) (Some (bs "$1")) [bs "1(?:00|2[13])|9[56]"; bs "1(?:00|2(?:1|39))|9[56]"; bs "1(?:00|2(?:1|395))|9[56]"] None None None;
    Build_nfmt (Some (bs "(\d{5,6})")) (Some (bs "$1")) [bs "1(?:0|23)|781|[1-9]12"; bs "1(?:0|23)|7812|[1-9]123"; bs "1(?:0|23(?:[0-8]|9[0-46-9]))|78123|[1-9]123"] None None None;
    Build_nfmt (Some (bs "(\d{2})(\d{5,6})")) (Some (bs "$1 $2")) [bs "(?:10|2[0-57-9])[19]|3(?:[157]|35|49|9[1-68])|4(?:1[124-9]|2[179]|6[47-9]|7|8[23])|5(?:[1357]|2[37]|4[36]|6[1-46]|80)|6(?:3[1-5]|6[0238]|9[12])|7(?:01|[1579]|2[248]|3[014-9]|4[3-6]|6[023689])|8(?:07|1[236-8]|2[5-7]|[37]|8[36-8]|9[1-8])|9(?:0[1-3689]|1[1-79]|3|4[13]|5[1-5]|7[0-79]|9[0-35-9])|(?:4[35]|59|85)[1-9]"; bs "(?:10|2[0-57-9])(?:1[02]|9[56])|8078|(?:3(?:[157]\d|35|49|9[1-68])|4(?:1[124-9]|2[179]|[35][1-9]|6[47-9]|7\d|8[23])|5(?:[1357]\d|2[37]|4[36]|6[1-46]|80|9[1-9])|6(?:3[1-5]|6[0238]|9[12])|7(?:01|[1579]\d|2[248]|3[014-9]|4[3-6]|6[023689])|8(?:1[236-8]|2[5-7]|[37]\d|5[1-9]|8[36-8]|9[1-8])|9(?:0[1-3689]|1[1-79]|3\d|4[13]|5[1-5]|7[0-79]|9[0-35-9]))1"; bs "10(?:1(?:0|23)|9[56])|2[0-57-9](?:1(?:00|23)|9[56])|80781|(?:3(?:[157]\d|35|49|9[1-68])|4(?:1[124-9]|2[179]|[35][1-9]|6[47-9]|7\d|8[23])|5(?:[1357]\d|2[37]|4[36]|6[1-46]|80|9[1-9])|6(?:3[1-5]|6[0238]|9[12])|7(?:01|[1579]\d|2[248]|3[014-9]|4[3-6]|6[023689])|8(?:1[236-8]|2[5-7]|[37]\d|5[1-9]|8[36-8]|9[1-8])|9(?:0[1-3689]|1[1-79]|3\d|4[13]|5[1-5]|7[0-79]|9[0-35-9]))12"; bs "10(?:1(?:0|23)|9[56])|2[0-57-9](?:1(?:00|23)|9[56])|807812|(?:3(?:[157]\d|35|49|9[1-68])|4(?:1[124-9]|2[179]|[35][1-9]|6[47-9]|7\d|8[23])|5(?:[1357]\d|2[37]|4[36]|6[1-46]|80|9[1-9])|6(?:3[1-5]|6[0238]|9[12])|7(?:01|[1579]\d|2[248]|3[014-9]|4[3-6]|6[023689])|8(?:1[236-8]|2[5-7]|[37]\d|5[1-9]|8[36-8]|9[1-8])|9(?:0[1-3689]|1[1-79]|3\d|4[13]|5[1-5]|7[0-79]|9[0-35-9]))123"; bs "10(?:1(?:0|23)|9[56])|2[0-57-9](?:1(?:00|23)|9[56])|(?:3(?:[157]\d|35|49|9[1-68])|4(?:1[124-9]|2[179]|[35][1-9]|6[47-9]|7\d|8[23])|5(?:[1357]\d|2[37]|4[36]|6[1-46]|80|9[1-9])|6(?:3[1-5]|6[0238]|9[12])|7(?:01|[1579]\d|2[248]|3[014-9]|4[3-6]|6[023689])|8(?:078|1[236-8]|2[5-7]|[37]\d|5[1-9]|8[36-8]|9[1-8])|9(?:0[1-3689]|1[1-79]|3\d|4[13]|5[1-5]|7[0-79]|9[0-35-9]))123"] (Some (bs "0$1")) None (Some (bs "$CC $1"));
    Build_nfmt (Some (bs "(\d{3})(\d{4})")) (Some (bs "$1 $2")) [bs "[1-9]"; bs "1[1-9]|26|[3-9]|(?:10|2[0-57-9])(?:[0-8]|9[0-47-9])"; bs "1(?:0(?:[02-8]|1(?:[013-9]|2[0-24-9])|9[0-47-9])|[1-9])|2(?:[0-57-9](?:[02-8]|1(?:0[1-9]|[13-9]|2[0-24-9])|9[0-47-9])|6)|[3-9]"; bs "1(?:0(?:[02-8]|1(?:[013-9]|2[0-24-9])|9[0-47-9])|[1-9])|2(?:[0-57-9](?:[02-8]|1(?:0[1-9]|[13-9]|2[0-24-9])|9[0-47-9])|6)|3(?:[0268]|3[0-46-9]|4[0-8]|9[079])|4(?:[049]|1[03]|2[02-68]|[35]0|6[0-356]|8[014-9])|5(?:0|2[0-24-689]|4[0-2457-9]|6[057-9]|8[1-9]|90)|6(?:[0-24578]|3[06-9]|6[14-79]|9[03-9])|7(?:0[02-9]|2[0135-79]|3[23]|4[0-27-9]|6[1457]|8)|8(?:[046]|1[01459]|2[0-489]|50|8[0-2459]|9[09])|9(?:0[0457]|1[08]|[268]|4[024-9]|5[06-9]|78|94)|(?:3(?:[157]\d|35|49|9[1-68])|4(?:1[124-9]|2[179]|[35][1-9]|6[47-9]|7\d|8[23])|5(?:[1357]\d|2[37]|4[36]|6[1-46]|80|9[1-9])|6(?:3[1-5]|6[0238]|9[12])|7(?:01|[1579]\d|2[248]|3[014-9]|4[3-6]|6[023689])|8(?:1[236-8]|2[5-7]|[37]\d|5[1-9]|8[36-8]|9[1-8])|9(?:0[1-3689]|1[1-79]|3\d|4[13]|5[1-5]|7[0-79]|9[0-35-9]))(?:[02-9]|1(?:[013-9]|2[0-24-9]))"; bs "1(?:0(?:[02-8]|1(?:[013-9]|2[0-24-9])|9[0-47-9])|[1-9])|2(?:[0-57-9](?:[02-8]|1(?:0[1-9]|[13-9]|2[0-24-9])|9[0-47-9])|6)|3(?:[0268]|3[0-46-9]|4[0-8]|9[079])|4(?:[049]|1[03]|2[02-68]|[35]0|6[0-356]|8[014-9])|5(?:0|2[0-24-689]|4[0-2457-9]|6[057-9]|8[1-9]|90)|6(?:[0-24578]|3[06-9]|6[14-79]|9[03-9])|7(?:0[02-9]|2[0135-79]|3[23]|4[0-27-9]|6[1457]|8)|8(?:0(?:[0-689]|7[0-79])|1[01459]|2[0-489]|[46]|50|8[0-2459]|9[09])|9(?:0[0457]|1[08]|[268]|4[024-9]|5[06-9]|78|94)|(?:3(?:[157]\d|35|49|9[1-68])|4(?:1[124-9]|2[179]|[35][1-9]|6[47-9]|7\d|8[23])|5(?:[1357]\d|2[37]|4[36]|6[1-46]|80|9[1-9])|6(?:3[1-5]|6[0238]|9[12])|7(?:01|[1579]\d|2[248]|3[014-9]|4[3-6]|6[023689])|8(?:078|1[236-8]|2[5-7]|[37]\d|5[1-9]|8[36-8]|9[1-8])|9(?:0[1-3689]|1[1-79]|3\d|4[13]|5[1-5]|7[0-79]|9[0-35-9]))(?:[02-9]|1(?:[013-9]|2[0-24-9]))"] None None None;
    Build_nfmt (Some (bs "(\d{4})(\d{4})")) (Some (bs "$1 $2")) [bs "16[08]"] None None None;
    Build_nfmt (Some (bs "(\d{3})(\d{5,6})")) (Some (bs "$1 $2")) [bs "3(?:[157]|35|49|9[1-68])|4(?:[17]|2[179]|6[47-9]|8[23])|5(?:[1357]|2[37]|4[36]|6[1-46]|80)|6(?:3[1-5]|6[0238]|9[12])|7(?:01|[1579]|2[248]|3[014-9]|4[3-6]|6[023689])|8(?:1[236-8]|2[5-7]|[37]|8[36-8]|9[1-8])|9(?:0[1-3689]|1[1-79]|[379]|4[13]|5[1-5])|(?:4[35]|59|85)[1-9]"; bs "(?:3(?:[157]\d|35|49|9[1-68])|4(?:[17]\d|2[179]|[35][1-9]|6[47-9]|8[23])|5(?:[1357]\d|2[37]|4[36]|6[1-46]|80|9[1-9])|6(?:3[1-5]|6[0238]|9[12])|7(?:01|[1579]\d|2[248]|3[014-9]|4[3-6]|6[023689])|8(?:1[236-8]|2[5-7]|[37]\d|5[1-9]|8[36-8]|9[1-8])|9(?:0[1-3689]|1[1-79]|[379]\d|4[13]|5[1-5]))[19]"; bs "85[23](?:10|95)|(?:3(?:[157]\d|35|49|9[1-68])|4(?:[17]\d|2[179]|[35][1-9]|6[47-9]|8[23])|5(?:[1357]\d|2[37]|4[36]|6[1-46]|80|9[1-9])|6(?:3[1-5]|6[0238]|9[12])|7(?:01|[1579]\d|2[248]|3[014-9]|4[3-6]|6[023689])|8(?:1[236-8]|2[5-7]|[37]\d|5[14-9]|8[36-8]|9[1-8])|9(?:0[1-3689]|1[1-79]|[379]\d|4[13]|5[1-5]))(?:10|9[56])"; bs "85[23](?:100|95)|(?:3(?:[157]\d|35|49|9[1-68])|4(?:[17]\d|2[179]|[35][1-9]|6[47-9]|8[23])|5(?:[1357]\d|2[37]|4[36]|6[1-46]|80|9[1-9])|6(?:3[1-5]|6[0238]|9[12])|7(?:01|[1579]\d|2[248]|3[014-9]|4[3-6]|6[023689])|8(?:1[236-8]|2[5-7]|[37]\d|5[14-9]|8[36-8]|9[1-8])|9(?:0[1-3689]|1[1-79]|[379]\d|4[13]|5[1-5]))(?:100|9[56])"] (Some (bs "0$1")) None (Some (bs "$CC $1"));
    Build_nfmt (Some (bs "(\d{4})(\d{4})")) (Some (bs "$1 $2")) [bs "[1-9]"; bs "1(?:0(?:[02-8]|1[1-9]|9[0-47-9])|[1-9])|2(?:[0-57-9](?:[0-8]|9[0-47-9])|6)|[3-9]"; bs "1(?:0(?:[02-8]|1[1-9]|9[0-47-9])|[1-9])|26|3(?:[0268]|4[0-8]|9[079])|4(?:[049]|2[02-68]|[35]0|6[0-356]|8[014-9])|5(?:0|2[0-24-689]|4[0-2457-9]|6[057-9]|8[1-9]|90)|6(?:[0-24578]|3[06-9]|6[14-79]|9[03-9])|7(?:0[02-9]|2[0135-79]|3[23]|4[0-27-9]|6[1457]|8)|8(?:[046]|1[01459]|2[0-489]|5(?:0|[23][0-8])|8[0-2459]|9[09])|9(?:0[0457]|1[08]|[268]|4[024-9]|5[06-9])|(?:33|85[23]9)[0-46-9]|(?:2[0-57-9]|3(?:[157]\d|35|49|9[1-68])|4(?:[17]\d|2[179]|[35][1-9]|6[47-9]|8[23])|5(?:[1357]\d|2[37]|4[36]|6[1-46]|80|9[1-9])|6(?:3[1-5]|6[0238]|9[12])|7(?:01|[1579]\d|2[248]|3[014-9]|4[3-6]|6[023689])|8(?:1[236-8]|2[5-7]|[37]\d|5[14-9]|8[36-8]|9[1-8])|9(?:0[1-3689]|1[1-79]|[379]\d|4[13]|5[1-5]))(?:[0-8]|9[0-47-9])"; bs "1(?:0[02-8]|[1-9])|2(?:[0-57-9][0-8]|6)|3(?:[0268]|3[0-46-9]|4[0-8]|9[079])|4(?:[049]|2[02-68]|[35]0|6[0-356]|8[014-9])|5(?:0|2[0-24-689]|4[0-2457-9]|6[057-9]|90)|6(?:[0-24578]|3[06-9]|6[14-79]|9[03-9])|7(?:0[02-9]|2[0135-79]|3[23]|4[0-27-9]|6[1457]|8)|8(?:[046]|1[01459]|2[0-489]|5(?:0|[23](?:[02-8]|1[1-9]|9[0-46-9]))|8[0-2459]|9[09])|9(?:0[0457]|1[08]|[268]|4[024-9]|5[06-9])|(?:10|2[0-57-9])9[0-47-9]|(?:101|58|85[23]10)[1-9]|(?:3(?:[157]\d|35|49|9[1-68])|4(?:[17]\d|2[179]|[35][1-9]|6[47-9]|8[23])|5(?:[1357]\d|2[37]|4[36]|6[1-46]|80|9[1-9])|6(?:3[1-5]|6[0238]|9[12])|7(?:01|[1579]\d|2[248]|3[014-9]|4[3-6]|6[023689])|8(?:1[236-8]|2[5-7]|[37]\d|5[14-9]|8[36-8]|9[1-8])|9(?:0[1-3689]|1[1-79]|[379]\d|4[13]|5[1-5]))(?:[02-8]|1(?:0[1-9]|[1-9])|9[0-47-9])"] None None None;
    Build_nfmt (Some (bs "(\d{3})(\d{3})(\d{4})")) (Some (bs "$1 $2 $3")) [bs "(?:4|80)0"] None None None;
    Build_nfmt (Some (bs "(\d{2})(\d{4})(\d{4})")) (Some (bs "$1 $2 $3")) [bs "10|2(?:[02-57-9]|1[1-9])"; bs "10|2(?:[02-57-9]|1[1-9])"; bs "10[0-79]|2(?:[02-57-9]|1[1-79])|(?:10|21)8(?:0[1-9]|[1-9])"] (Some (bs "0$1")) (Some true) (Some (bs "$CC $1"));
    Build_nfmt (Some (bs "(\d{3})(\d{3})(\d{4})")) (Some (bs "$1 $2 $3")) [bs "3(?:[3-59]|7[02-68])|4(?:[26-8]|3[3-9]|5[2-9])|5(?:3[03-9]|[468]|7[028]|9[2-46-9])|6|7(?:[0-247]|3[04-9]|5[0-4689]|6[2368])|8(?:[1-358]|9[1-7])|9(?:[013479]|5[1-5])|(?:[34]1|55|79|87)[02-9]"] (Some (bs "0$1")) (Some true) (Some (bs "$CC $1"));
    Build_nfmt (Some (bs "(\d{3})(\d{7,8})")) (Some (bs "$1 $2")) [bs "9"] None None None;
    Build_nfmt (Some (bs "(\d{4})(\d{3})(\d{4})")) (Some (bs "$1 $2 $3")) [bs "80"] (Some (bs "0$1")) (Some true) (Some (bs "$CC $1"));
    Build_nfmt (Some (bs "(\d{3})(\d{4})(\d{4})")) (Some (bs "$1 $2 $3")) [bs "[3-578]"] (Some (bs "0$1")) (Some true) (Some (bs "$CC $1"));
    Build_nfmt (Some (bs "(\d{3})(\d{4})(\d{4})")) (Some (bs "$1 $2 $3")) [bs "1[3-9]"] None None (Some (bs "$CC $1"));
    Build_nfmt (Some (bs "(\d{2})(\d{3})(\d{3})(\d{4})")) (Some (bs "$1 $2 $3 $4")) [bs "[12]"] (Some (bs "0$1")) (Some true) None]
  [Build_nfmt (Some (bs "(\d{2})(\d{5,6})")) (Some (bs "$1 $2")) [bs "(?:10|2[0-57-9])[19]|3(?:[157]|35|49|9[1-68])|4(?:1[124-9]|2[179]|6[47-9]|7|8[23])|5(?:[1357]|2[37]|4[36]|6[1-46]|80)|6(?:3[1-5]|6[0238]|9[12])|7(?:01|[1579]|2[248]|3[014-9]|4[3-6]|6[023689])|8(?:07|1[236-8]|2[5-7]|[37]|8[36-8]|9[1-8])|9(?:0[1-3689]|1[1-79]|3|4[13]|5[1-5]|7[0-79]|9[0-35-9])|(?:4[35]|59|85)[1-9]"; bs "(?:10|2[0-57-9])(?:1[02]|9[56])|8078|(?:3(?:[157]\d|35|49|9[1-68])|4(?:1[124-9]|2[179]|[35][1-9]|6[47-9]|7\d|8[23])|5(?:[1357]\d|2[37]|4[36]|6[1-46]|80|9[1-9])|6(?:3[1-5]|6[0238]|9[12])|7(?:01|[1579]\d|2[248]|3[014-9]|4[3-6]|6[023689])|8(?:1[236-8]|2[5-7]|[37]\d|5[1-9]|8[36-8]|9[1-8])|9(?:0[1-3689]|1[1-79]|3\d|4[13]|5[1-5]|7[0-79]|9[0-35-9]))1"; bs "10(?:1(?:0|23)|9[56])|2[0-57-9](?:1(?:00|23)|9[56])|80781|(?:3(?:[157]\d|35|49|9[1-68])|4(?:1[124-9]|2[179]|[35][1-9]|6[47-9]|7\d|8[23])|5(?:[1357]\d|2[37]|4[36]|6[1-46]|80|9[1-9])|6(?:3[1-5]|6[0238]|9[12])|7(?:01|[1579]\d|2[248]|3[014-9]|4[3-6]|6[023689])|8(?:1[236-8]|2[5-7]|[37]\d|5[1-9]|8[36-8]|9[1-8])|9(?:0[1-3689]|1[1-79]|3\d|4[13]|5[1-5]|7[0-79]|9[0-35-9]))12"; bs "10(?:1(?:0|23)|9[56])|2[0-57-9](?:1(?:00|23)|9[56])|807812|(?:3(?:[157]\d|35|49|9[1-68])|4(?:1[124-9]|2[179]|[35][1-9]|6[47-9]|7\d|8[23])|5(?:[1357]\d|2[37]|4[36]|6[1-46]|80|9[1-9])|6(?:3[1-5]|6[0238]|9[12])|7(?:01|[1579]\d|2[248]|3[014-9]|4[3-6]|6[023689])|8(?:1[236-8]|2[5-7]|[37]\d|5[1-9]|8[36-8]|9[1-8])|9(?:0[1-3689]|1[1-79]|3\d|4[13]|5[1-5]|7[0-79]|9[0-35-9]))123"; bs "10(?:1(?:0|23)|9[56])|2[0-57-9](?:1(?:00|23)|9[56])|(?:3(?:[157]\d|35|49|9[1-68])|4(?:1[124-9]|2[179]|[35][1-9]|6[47-9]|7\d|8[23])|5(?:[1357]\d|2[37]|4[36]|6[1-46]|80|9[1-9])|6(?:3[1-5]|6[0238]|9[12])|7(?:01|[1579]\d|2[248]|3[014-9]|4[3-6]|6[023689])|8(?:078|1[236-8]|2[5-7]|[37]\d|5[1-9]|8[36-8]|9[1-8])|9(?:0[1-3689]|1[1-79]|3\d|4[13]|5[1-5]|7[0-79]|9[0-35-9]))123"] (Some (bs "0$1")) None (Some (bs "$CC $1"));
    Build_nfmt (Some (bs "(\d{3})(\d{5,6})")) (Some (bs "$1 $2")) [bs "3(?:[157]|35|49|9[1-68])|4(?:[17]|2[179]|6[47-9]|8[23])|5(?:[1357]|2[37]|4[36]|6[1-46]|80)|6(?:3[1-5]|6[0238]|9[12])|7(?:01|[1579]|2[248]|3[014-9]|4[3-6]|6[023689])|8(?:1[236-8]|2[5-7]|[37]|8[36-8]|9[1-8])|9(?:0[1-3689]|1[1-79]|[379]|4[13]|5[1-5])|(?:4[35]|59|85)[1-9]"; bs "(?:3(?:[157]\d|35|49|9[1-68])|4(?:[17]\d|2[179]|[35][1-9]|6[47-9]|8[23])|5(?:[1357]\d|2[37]|4[36]|6[1-46]|80|9[1-9])|6(?:3[1-5]|6[0238]|9[12])|7(?:01|[1579]\d|2[248]|3[014-9]|4[3-6]|6[023689])|8(?:1[236-8]|2[5-7]|[37]\d|5[1-9]|8[36-8]|9[1-8])|9(?:0[1-3689]|1[1-79]|[379]\d|4[13]|5[1-5]))[19]"; bs "85[23](?:10|95)|(?:3(?:[157]\d|35|49|9[1-68])|4(?:[17]\d|2[179]|[35][1-9]|6[47-9]|8[23])|5(?:[1357]\d|2[37]|4[36]|6[1-46]|80|9[1-9])|6(?:3[1-5]|6[0238]|9[12])|7(?:01|[1579]\d|2[248]|3[014-9]|4[3-6]|6[023689])|8(?:1[236-8]|2[5-7]|[37]\d|5[14-9]|8[36-8]|9[1-8])|9(?:0[1-3689]|1[1-79]|[379]\d|4[13]|5[1-5]))(?:10|9[56])"; bs "85[23](?:100|95)|(?:3(?:[157]\d|35|49|9[1-68])|4(?:[17]\d|2[179]|[35][1-9]|6[47-9]|8[23])|5(?:[1357]\d|2[37]|4[36]|6[1-46]|80|9[1-9])|6(?:3[1-5]|6[0238]|9[12])|7(?:01|[1579]\d|2[248]|3[014-9]|4[3-6]|6[023689])|8(?:1[236-8]|2[5-7]|[37]\d|5[14-9]|8[36-8]|9[1-8])|9(?:0[1-3689]|1[1-79]|[379]\d|4[13]|5[1-5]))(?:100|9[56])"] (Some (bs "0$1")) None (Some (bs "$CC $1"));
    Build_nfmt (Some (bs "(\d{3})(\d{3})(\d{4})")) (Some (bs "$1 $2 $3")) [bs "(?:4|80)0"] None None None;
    Build_nfmt (Some (bs "(\d{2})(\d{4})(\d{4})")) (Some (bs "$1 $2 $3")) [bs "10|2(?:[02-57-9]|1[1-9])"; bs "10|2(?:[02-57-9]|1[1-9])"; bs "10[0-79]|2(?:[02-57-9]|1[1-79])|(?:10|21)8(?:0[1-9]|[1-9])"] (Some (bs "0$1")) (Some true) (Some (bs "$CC $1"));
    Build_nfmt (Some (bs "(\d{3})(\d{3})(\d{4})")) (Some (bs "$1 $2 $3")) [bs "3(?:[3-59]|7[02-68])|4(?:[26-8]|3[3-9]|5[2-9])|5(?:3[03-9]|[468]|7[028]|9[2-46-9])|6|7(?:[0-247]|3[04-9]|5[0-4689]|6[2368])|8(?:[1-358]|9[1-7])|9(?:[013479]|5[1-5])|(?:[34]1|55|79|87)[02-9]"] (Some (bs "0$1")) (Some true) (Some (bs "$CC $1"));
    Build_nfmt (Some (bs "(\d{3})(\d{7,8})")) (Some (bs "$1 $2")) [bs "9"] None None None;
    Build_nfmt (Some (bs "(\d{4})(\d{3})(\d{4})")) (Some (bs "$1 $2 $3")) [bs "80"] (Some (bs "0$1")) (Some true) (Some (bs "$CC $1"));
    Build_nfmt (Some (bs "(\d{3})(\d{4})(\d{4})")) (Some (bs "$1 $2 $3")) [bs "[3-578]"] (Some (bs "0$1")) (Some true) (Some (bs "$CC $1"));
    Build_nfmt (Some (bs "(\d{3})(\d{4})(\d{4})")) (Some (bs "$1 $2 $3")) [bs "1[3-9]"] None None (Some (bs "$CC $1"));
    Build_nfmt (Some (bs "(\d{2})(\d{3})(\d{3})(\d{4})")) (Some (bs "$1 $2 $3 $4")) [bs "[12]"] (Some (bs "0$1")) (Some true) None]
  None None None.

Definition md_CO : meta := Eval vm_compute in Build_meta
  (Some (Build_desc (Some (bs "(?:46|60\d\d)\d{6}|(?:1\d|[39])\d{9}")) [(8)%Z; (10)%Z; (11)%Z] [(4)%Z; (7)%Z] None))
  (Some (Build_desc (Some (bs "601055(?:[0-4]\d|50)\d\d|6010(?:[0-4]\d|5[0-4])\d{4}|(?:46|60(?:[18][1-9]|[24-7][2-9]))\d{6}")) [(8)%Z; (10)%Z] [(4)%Z; (7)%Z] (Some (bs "6012345678"))))
  (Some (Build_desc (Some (bs "333301[0-5]\d{3}|3333(?:00|2[5-9]|[3-9]\d)\d{4}|(?:3(?:(?:0[0-5]|1\d|5[01]|70)\d|2(?:[0-3]\d|4[1-9])|3(?:00|3[0-24-9]))|9(?:101|408))\d{6}")) [(10)%Z] [] (Some (bs "3211234567"))))
  (Some (Build_desc (Some (bs "1800\d{7}")) [(11)%Z] [] (Some (bs "18001234567"))))
  (Some (Build_desc (Some (bs "(?:19(?:0[01]|4[78])|901)\d{7}")) [(10)%Z; (11)%Z] [] (Some (bs "19001234567"))))
  (Some (Build_desc None [(-1)%Z] [] None))
  (Some (Build_desc None [(-1)%Z] [] None))
  (Some (Build_desc None [(-1)%Z] [] None))
  (Some (Build_desc None [(-1)%Z] [] None))
  (Some (Build_desc None [(-1)%Z] [] None))
  None
  (Some (Build_desc None [(-1)%Z] [] None))
  None
  None
  None
  None
  (Some (Build_desc None [(-1)%Z] [] None))
  (Some (bs "CO")) (Some (57)%Z) (Some (bs "00(?:4(?:[14]4|56)|[579])")) None (Some (bs "0"))
  None (Some (bs "0([3579]|4(?:[14]4|56))?")) None None
  [Build_nfmt (Some (bs "(\d{4})(\d{4})")) (Some (bs "$1 $2")) [bs "46"] None None None;
    Build_nfmt (Some (bs "(\d{3})(\d{7})")) (Some (bs "$1 $2")) [bs "6|90"] (Some (bs "($1)")) None (Some (bs "0$CC $1"));
    Build_nfmt (Some (bs "(\d{3})(\d{7})")) (Some (bs "$1 $2")) [bs "3[0-357]|9[14]"] None None (Some (bs "0$CC $1"));
    Build_nfmt (Some (bs "(\d)(\d{3})(\d{7})")) (Some (bs "$1-$2-$3")) [bs "1"] (Some (bs "0$1")) None None]
  [Build_nfmt (Some (bs "(\d{4})(\d{4})")) (Some (bs "$1 $2")) [bs "46"] None None None;
    Build_nfmt (Some (bs "(\d{3})(\d{7})")) (Some (bs "$1 $2")) [bs "6|90"] (Some (bs "($1)")) None (Some (bs "0$CC $1"));
    Build_nfmt (Some (bs "(\d{3})(\d{7})")) (Some (bs "$1 $2")) [bs "3[0-357]|9[14]"] None None (Some (bs "0$CC $1"));
    Build_nfmt (Some (bs "(\d)(\d{3})(\d{7})")) (Some (bs "$1 $2 $3")) [bs "1"] None None None]
  None None (Some true).

Definition md_CR : meta := Eval vm_compute in Build_meta
  (Some (Build_desc (Some (bs "(?:8\d|90)\d{8}|(?:[24-8]\d{3}|3005)\d{4}")) [(8)%Z; (10)%Z] [] None))
  (Some (Build_desc (Some (bs "210[7-9]\d{4}|2(?:[024-7]\d|1[1-9])\d{5}")) [(8)%Z] [] (Some (bs "22123456"))))
  (Some (Build_desc (Some (bs "(?:3005\d|6500[01])\d{3}|(?:5[07]|6[0-4]|7[0-3]|8[3-9])\d{6}")) [(8)%Z] [] (Some (bs "83123456"))))
  (Some (Build_desc (Some (bs "800\d{7}")) [(10)%Z] [] (Some (bs "8001234567"))))
  (Some (Build_desc (Some (bs "90[059]\d{7}")) [(10)%Z] [] (Some (bs "9001234567"))))
  (Some (Build_desc None [(-1)%Z] [] None))
  (Some (Build_desc None [(-1)%Z] [] None))
  (Some (Build_desc (Some (bs "(?:210[0-6]|4\d{3}|5100)\d{4}")) [(8)%Z] [] (Some (bs "40001234"))))
  (Some (Build_desc None [(-1)%Z] [] None))
  (Some (Build_desc None [(-1)%Z] [] None))
  None
  (Some (Build_desc None [(-1)%Z] [] None))
  None
  None
  None
  None
  (Some (Build_desc None [(-1)%Z] [] None))
  (Some (bs "CR")) (Some (506)%Z) (Some (bs "00")) None None
  None (Some (bs "(19(?:0[0-2468]|1[09]|20|66|77|99))")) None None
  [Build_nfmt (Some (bs "(\d{4})(\d{4})")) (Some (bs "$1 $2")) [bs "[2-7]|8[3-9]"] None None (Some (bs "$CC $1"));
    Build_nfmt (Some (bs "(\d{3})(\d{3})(\d{4})")) (Some (bs "$1-$2-$3")) [bs "[89]"] None None (Some (bs "$CC $1"))]
  []
  None None None.

Definition md_CU : meta := Eval vm_compute in Build_meta
  (Some (Build_desc (Some (bs "(?:[2-7]|8\d\d)\d{7}|[2-47]\d{6}|[34]\d{5}")) [(6)%Z; (7)%Z; (8)%Z; (10)%Z] [(4)%Z; (5)%Z] None))
  (Some (Build_desc (Some (bs "(?:3[23]|4[89])\d{4,6}|(?:31|4[36]|8(?:0[25]|78)\d)\d{6}|(?:2[1-4]|4[1257]|7\d)\d{5,6}")) [] [(4)%Z; (5)%Z] (Some (bs "71234567"))))
  (Some (Build_desc (Some (bs "(?:5\d|6[2-4])\d{6}")) [(8)%Z] [] (Some (bs "51234567"))))
  (Some (Build_desc (Some (bs "800\d{7}")) [(10)%Z] [] (Some (bs "8001234567"))))
  (Some (Build_desc None [(-1)%Z] [] None))
  (Some (Build_desc (Some (bs "807\d{7}")) [(10)%Z] [] (Some (bs "8071234567"))))
  (Some (Build_desc None [(-1)%Z] [] None))
  (Some (Build_desc None [(-1)%Z] [] None))
  (Some (Build_desc None [(-1)%Z] [] None))
  (Some (Build_desc None [(-1)%Z] [] None))
  None
  (Some (Build_desc None [(-1)%Z] [] None))
  None
  None
  None
  None
  (Some (Build_desc None [(-1)%Z] [] None))
  (Some (bs "CU")) (Some (53)%Z) (Some (bs "119")) None (Some (bs "0"))
  None (Some (bs "0")) None None
  [Build_nfmt (Some (bs "(\d{2})(\d{4,6})")) (Some (bs "$1 $2")) [bs "2[1-4]|[34]"] (Some (bs "(0$1)")) None None;
    Build_nfmt (Some (bs "(\d)(\d{6,7})")) (Some (bs "$1 $2")) [bs "7"] (Some (bs "(0$1)")) None None;
    Build_nfmt (Some (bs "(\d)(\d{7})")) (Some (bs "$1 $2")) [bs "[56]"] (Some (bs "0$1")) None None;
    Build_nfmt (Some (bs "(\d{3})(\d{7})")) (Some (bs "$1 $2")) [bs "8"] (Some (bs "0$1")) None None]
  []
  None None None.

Definition md_CV : meta := Eval vm_compute in Build_meta
  (Some (Build_desc (Some (bs "(?:[2-59]\d\d|800)\d{4}")) [(7)%Z] [] None))
  (Some (Build_desc (Some (bs "2(?:2[1-7]|3[0-8]|4[12]|5[1256]|6\d|7[1-3]|8[1-5])\d{4}")) [] [] (Some (bs "2211234"))))
  (Some (Build_desc (Some (bs "(?:36|5[1-389]|9\d)\d{5}")) [] [] (Some (bs "9911234"))))
  (Some (Build_desc (Some (bs "800\d{4}")) [] [] (Some (bs "8001234"))))
  (Some (Build_desc None [(-1)%Z] [] None))
  (Some (Build_desc None [(-1)%Z] [] None))
  (Some (Build_desc None [(-1)%Z] [] None))
  (Some (Build_desc (Some (bs "(?:3[3-5]|4[356])\d{5}")) [] [] (Some (bs "3401234"))))
  (Some (Build_desc None [(-1)%Z] [] None))
  (Some (Build_desc None [(-1)%Z] [] None))
  None
  (Some (Build_desc None [(-1)%Z] [] None))
  None
  None
  None
  None
  (Some (Build_desc None [(-1)%Z] [] None))
  (Some (bs "CV")) (Some (238)%Z) (Some (bs "0")) None None
  None None None None
  [Build_nfmt (Some (bs "(\d{3})(\d{2})(\d{2})")) (Some (bs "$1 $2 $3")) [bs "[2-589]"] None None None]
  []
  None None None.

Definition md_CW : meta := Eval vm_compute in Build_meta
  (Some (Build_desc (Some (bs "(?:[34]1|60|(?:7|9\d)\d)\d{5}")) [(7)%Z; (8)%Z] [] None))
  (Some (Build_desc (Some (bs "9(?:4(?:3[0-5]|4[14]|6\d)|50\d|7(?:2[014]|3[02-9]|4[4-9]|6[357]|77|8[7-9])|8(?:3[39]|[46]\d|7[01]|8[57-9]))\d{4}")) [] [] (Some (bs "94351234"))))
  (Some (Build_desc (Some (bs "953[01]\d{4}|9(?:5[12467]|6[5-9])\d{5}")) [] [] (Some (bs "95181234"))))
  (Some (Build_desc None [(-1)%Z] [] None))
  (Some (Build_desc None [(-1)%Z] [] None))
  (Some (Build_desc (Some (bs "60[0-2]\d{4}")) [(7)%Z] [] (Some (bs "6001234"))))
  (Some (Build_desc None [(-1)%Z] [] None))
  (Some (Build_desc None [(-1)%Z] [] None))
  (Some (Build_desc (Some (bs "955\d{5}")) [(8)%Z] [] (Some (bs "95581234"))))
  (Some (Build_desc None [(-1)%Z] [] None))
  None
  (Some (Build_desc None [(-1)%Z] [] None))
  None
  None
  None
  None
  (Some (Build_desc None [(-1)%Z] [] None))
  (Some (bs "CW")) (Some (599)%Z) (Some (bs "00")) None None
  None None None None
  [Build_nfmt (Some (bs "(\d{3})(\d{4})")) (Some (bs "$1 $2")) [bs "[3467]"] None None None;
    Build_nfmt (Some (bs "(\d)(\d{3})(\d{4})")) (Some (bs "$1 $2 $3")) [bs "9[4-8]"] None None None]
  []
  (Some true) (Some (bs "[69]")) None.

Definition md_CX : meta := Eval vm_compute in Build_meta
  (Some (Build_desc (Some (bs "1(?:[0-79]\d{8}(?:\d{2})?|8[0-24-9]\d{7})|[148]\d{8}|1\d{5,7}")) [(6)%Z; (7)%Z; (8)%Z; (9)%Z; (10)%Z; (12)%Z] [] None))
  (Some (Build_desc (Some (bs "8(?:51(?:0(?:01|30|59|88)|1(?:17|46|75)|2(?:22|35))|91(?:00[6-9]|1(?:[28]1|49|78)|2(?:09|63)|3(?:12|26|75)|4(?:56|97)|64\d|7(?:0[01]|1[0-2])|958))\d{3}")) [(9)%Z] [(8)%Z] (Some (bs "891641234"))))
  (Some (Build_desc (Some (bs "4(?:79[01]|83[0-36-9]|95[0-3])\d{5}|4(?:[0-36]\d|4[047-9]|[58][0-24-9]|7[02-8]|9[0-47-9])\d{6}")) [(9)%Z] [] (Some (bs "412345678"))))
  (Some (Build_desc (Some (bs "180(?:0\d{3}|2)\d{3}")) [(7)%Z; (10)%Z] [] (Some (bs "1800123456"))))
  (Some (Build_desc (Some (bs "190[0-26]\d{6}")) [(10)%Z] [] (Some (bs "1900123456"))))
  (Some (Build_desc (Some (bs "13(?:00\d{6}(?:\d{2})?|45[0-4]\d{3})|13\d{4}")) [(6)%Z; (8)%Z; (10)%Z; (12)%Z] [] (Some (bs "1300123456"))))
  (Some (Build_desc None [(-1)%Z] [] None))
  (Some (Build_desc (Some (bs "14(?:5(?:1[0458]|[23][458])|71\d)\d{4}")) [(9)%Z] [] (Some (bs "147101234"))))
  (Some (Build_desc None [(-1)%Z] [] None))
  (Some (Build_desc None [(-1)%Z] [] None))
  None
  (Some (Build_desc None [(-1)%Z] [] None))
  None
  None
  None
  None
  (Some (Build_desc None [(-1)%Z] [] None))
  (Some (bs "CX")) (Some (61)%Z) (Some (bs "001[14-689]|14(?:1[14]|34|4[17]|[56]6|7[47]|88)0011")) (Some (bs "0011")) (Some (bs "0"))
  None (Some (bs "([59]\d{7})$|0")) (Some (bs "8$1")) None
  []
  []
  None None None.

Definition md_CY : meta := Eval vm_compute in Build_meta
  (Some (Build_desc (Some (bs "(?:[279]\d|[58]0)\d{6}")) [(8)%Z] [] None))
  (Some (Build_desc (Some (bs "2[2-6]\d{6}")) [] [] (Some (bs "22345678"))))
  (Some (Build_desc (Some (bs "9(?:10|[4-79]\d)\d{5}")) [] [] (Some (bs "96123456"))))
  (Some (Build_desc (Some (bs "800\d{5}")) [] [] (Some (bs "80001234"))))
  (Some (Build_desc (Some (bs "90[09]\d{5}")) [] [] (Some (bs "90012345"))))
  (Some (Build_desc (Some (bs "80[1-9]\d{5}")) [] [] (Some (bs "80112345"))))
  (Some (Build_desc (Some (bs "700\d{5}")) [] [] (Some (bs "70012345"))))
  (Some (Build_desc None [(-1)%Z] [] None))
  (Some (Build_desc None [(-1)%Z] [] None))
  (Some (Build_desc (Some (bs "(?:50|77)\d{6}")) [] [] (Some (bs "77123456"))))
  None
  (Some (Build_desc None [(-1)%Z] [] None))
  None
  None
  None
  None
  (Some (Build_desc None [(-1)%Z] [] None))
  (Some (bs "CY")) (Some (357)%Z) (Some (bs "00")) None None
  None None None None
  [Build_nfmt (Some (bs "(\d{2})(\d{6})")) (Some (bs "$1 $2")) [bs "[257-9]"] None None None]
  []
  None None (Some true).

Definition md_CZ : meta := Eval vm_compute in Build_meta
  (Some (Build_desc (Some (bs "(?:[2-578]\d|60)\d{7}|9\d{8,11}")) [(9)%Z; (10)%Z; (11)%Z; (12)%Z] [] None))
  (Some (Build_desc (Some (bs "(?:2\d|3[1257-9]|4[16-9]|5[13-9])\d{7}")) [(9)%Z] [] (Some (bs "212345678"))))
  (Some (Build_desc (Some (bs "7060\d{5}|(?:60[1-8]|7(?:0[2-5]|19|[2379]\d))\d{6}")) [(9)%Z] [] (Some (bs "601123456"))))
  (Some (Build_desc (Some (bs "800\d{6}")) [(9)%Z] [] (Some (bs "800123456"))))
  (Some (Build_desc (Some (bs "9(?:0[05689]|76)\d{6}")) [(9)%Z] [] (Some (bs "900123456"))))
  (Some (Build_desc (Some (bs "8[134]\d{7}")) [(9)%Z] [] (Some (bs "811234567"))))
  (Some (Build_desc (Some (bs "70[01]\d{6}")) [(9)%Z] [] (Some (bs "700123456"))))
  (Some (Build_desc (Some (bs "9[17]0\d{6}")) [(9)%Z] [] (Some (bs "910123456"))))
  (Some (Build_desc None [(-1)%Z] [] None))
  (Some (Build_desc (Some (bs "9(?:5\d|7[2-4])\d{6}")) [(9)%Z] [] (Some (bs "972123456"))))
  None
  (Some (Build_desc (Some (bs "9(?:3\d{9}|6\d{7,10})")) [] [] (Some (bs "93123456789"))))
  None
  None
  None
  None
  (Some (Build_desc None [(-1)%Z] [] None))
  (Some (bs "CZ")) (Some (420)%Z) (Some (bs "00")) None None
  None None None None
  [Build_nfmt (Some (bs "(\d{3})(\d{3})(\d{3})")) (Some (bs "$1 $2 $3")) [bs "[2-8]|9[015-7]"] None None None;
    Build_nfmt (Some (bs "(\d{2})(\d{3})(\d{3})(\d{2})")) (Some (bs "$1 $2 $3 $4")) [bs "96"] None None None;
    Build_nfmt (Some (bs "(\d{2})(\d{3})(\d{3})(\d{3})")) (Some (bs "$1 $2 $3 $4")) [bs "9"] None None None;
    Build_nfmt (Some (bs "(\d{3})(\d{3})(\d{3})(\d{3})")) (Some (bs "$1 $2 $3 $4")) [bs "9"] None None None]
  []
  None None (Some true).

Definition md_DE : meta := Eval vm_compute in Build_meta
  (Some (Build_desc (Some (bs "[2579]\d{5,14}|49(?:[34]0|69|8\d)\d\d?|49(?:37|49|60|7[089]|9\d)\d{1,3}|49(?:2[024-9]|3[2-689]|7[1-7])\d{1,8}|(?:1|[368]\d|4[0-8])\d{3,13}|49(?:[015]\d|2[13]|31|[46][1-8])\d{1,9}")) [(4)%Z; (5)%Z; (6)%Z; (7)%Z; (8)%Z; (9)%Z; (10)%Z; (11)%Z; (12)%Z; (13)%Z; (14)%Z; (15)%Z] [(2)%Z; (3)%Z] None))
  (Some (Build_desc (Some (bs "32\d{9,11}|49[1-6]\d{10}|322\d{6}|49[0-7]\d{3,9}|(?:[34]0|[68]9)\d{3,13}|(?:2(?:0[1-689]|[1-3569]\d|4[0-8]|7[1-7]|8[0-7])|3(?:[3569]\d|4[0-79]|7[1-7]|8[1-8])|4(?:1[02-9]|[2-48]\d|5[0-6]|6[0-8]|7[0-79])|5(?:0[2-8]|[124-6]\d|[38][0-8]|[79][0-7])|6(?:0[02-9]|[1-358]\d|[47][0-8]|6[1-9])|7(?:0[2-8]|1[1-9]|[27][0-7]|3\d|[4-6][0-8]|8[0-5]|9[013-7])|8(?:0[2-9]|1[0-79]|2\d|3[0-46-9]|4[0-6]|5[013-9]|6[1-8]|7[0-8]|8[0-24-6])|9(?:0[6-9]|[1-4]\d|[589][0-7]|6[0-8]|7[0-467]))\d{3,12}")) [(5)%Z; (6)%Z; (7)%Z; (8)%Z; (9)%Z; (10)%Z; (11)%Z; (12)%Z; (13)%Z; (14)%Z; (15)%Z] [(2)%Z; (3)%Z; (4)%Z] (Some (bs "30123456"))))
  (Some (Build_desc (Some (bs "1(?:6[023]|7\d)\d{7,8}|15(?:[0-25-9]\d\d|3(?:10|33))\d{6}")) [(10)%Z; (11)%Z] [] (Some (bs "15123456789"))))
  (Some (Build_desc (Some (bs "800\d{7,12}")) [(10)%Z; (11)%Z; (12)%Z; (13)%Z; (14)%Z; (15)%Z] [] (Some (bs "8001234567890"))))
  (Some (Build_desc (Some (bs "(?:137[7-9]|900(?:[135]|9\d))\d{6}")) [(10)%Z; (11)%Z] [] (Some (bs "9001234567"))))
  (Some (Build_desc (Some (bs "180\d{5,11}|13(?:7[1-6]\d\d|8)\d{4}")) [(7)%Z; (8)%Z; (9)%Z; (10)%Z; (11)%Z; (12)%Z; (13)%Z; (14)%Z] [] (Some (bs "18012345"))))
  (Some (Build_desc (Some (bs "700\d{8}")) [(11)%Z] [] (Some (bs "70012345678"))))
  (Some (Build_desc None [(-1)%Z] [] None))
  (Some (Build_desc (Some (bs "16(?:4\d{1,10}|[89]\d{1,11})")) [(4)%Z; (5)%Z; (6)%Z; (7)%Z; (8)%Z; (9)%Z; (10)%Z; (11)%Z; (12)%Z; (13)%Z; (14)%Z] [] (Some (bs "16412345"))))
  (Some (Build_desc (Some (bs "18(?:1\d{5,11}|[2-9]\d{8})")) [(8)%Z; (9)%Z; (10)%Z; (11)%Z; (12)%Z; (13)%Z; (14)%Z] [] (Some (bs "18500123456"))))
  None
  (Some (Build_desc (Some (bs "1(?:6(?:013|255|399)|7(?:(?:[015]1|[69]3)3|[2-4]55|[78]99))\d{7,8}|15(?:(?:[03-68]00|113)\d|2\d55|7\d99|9\d33)\d{7}")) [(12)%Z; (13)%Z] [] (Some (bs "177991234567"))))
  None
  None
  None
  None
  (Some (Build_desc None [(-1)%Z] [] None))
  (Some (bs "DE")) (Some (49)%Z) (Some (bs "00")) None (Some (bs "0"))
  None (Some (bs "0")) None None
  [Build_nfmt (Some (bs "(\d{2})(\d{3,13})")) (Some (bs "$1 $2")) [bs "3[02]|40|[68]9"] (Some (bs "0$1")) None None;
    Build_nfmt (Some (bs "(\d{6})")) (Some (bs "$1")) [bs "227"; bs "2277"] None None None;
    Build_nfmt (Some (bs "(\d{3})(\d{3,12})")) (Some (bs "$1 $2")) [bs "2(?:0[1-389]|1[124]|2[18]|3[14])|3(?:[35-9][15]|4[015])|906|(?:2[4-9]|4[2-9]|[579][1-9]|[68][1-8])1"; bs "2(?:0[1-389]|12[0-8])|3(?:[35-9][15]|4[015])|906|2(?:[13][14]|2[18])|(?:2[4-9]|4[2-9]|[579][1-9]|[68][1-8])1"] (Some (bs "0$1")) None None;
    Build_nfmt (Some (bs "(\d{4})(\d{2,11})")) (Some (bs "$1 $2")) [bs "[24-6]|3(?:[3569][02-46-9]|4[2-4679]|7[2-467]|8[2-46-8])|70[2-8]|8(?:0[2-9]|[1-8])|90[7-9]|[79][1-9]"; bs "[24-6]|3(?:3(?:0[1-467]|2[127-9]|3[124578]|7[1257-9]|8[1256]|9[145])|4(?:2[135]|4[13578]|9[1346])|5(?:0[14]|2[1-3589]|6[1-4]|7[13468]|8[13568])|6(?:2[1-489]|3[124-6]|6[13]|7[12579]|8[1-356]|9[135])|7(?:2[1-7]|4[145]|6[1-5]|7[1-4])|8(?:21|3[1468]|6|7[1467]|8[136])|9(?:0[12479]|2[1358]|4[134679]|6[1-9]|7[136]|8[147]|9[1468]))|70[2-8]|8(?:0[2-9]|[1-8])|90[7-9]|[79][1-9]|3[68]4[1347]|3(?:47|60)[1356]|3(?:3[46]|46|5[49])[1246]|3[4579]3[1357]"] (Some (bs "0$1")) None None;
    Build_nfmt (Some (bs "(\d{3})(\d{4})")) (Some (bs "$1 $2")) [bs "138"] (Some (bs "0$1")) None None;
    Build_nfmt (Some (bs "(\d{5})(\d{2,10})")) (Some (bs "$1 $2")) [bs "3"] (Some (bs "0$1")) None None;
    Build_nfmt (Some (bs "(\d{3})(\d{5,11})")) (Some (bs "$1 $2")) [bs "181"] (Some (bs "0$1")) None None;
    Build_nfmt (Some (bs "(\d{3})(\d)(\d{4,10})")) (Some (bs "$1 $2 $3")) [bs "1(?:3|80)|9"] (Some (bs "0$1")) None None;
    Build_nfmt (Some (bs "(\d{3})(\d{7,8})")) (Some (bs "$1 $2")) [bs "1[67]"] (Some (bs "0$1")) None None;
    Build_nfmt (Some (bs "(\d{3})(\d{7,12})")) (Some (bs "$1 $2")) [bs "8"] (Some (bs "0$1")) None None;
    Build_nfmt (Some (bs "(\d{5})(\d{6})")) (Some (bs "$1 $2")) [bs "185"; bs "1850"; bs "18500"] (Some (bs "0$1")) None None;
    Build_nfmt (Some (bs "(\d{3})(\d{4})(\d{4})")) (Some (bs "$1 $2 $3")) [bs "7"] (Some (bs "0$1")) None None;
    Build_nfmt (Some (bs "(\d{4})(\d{7})")) (Some (bs "$1 $2")) [bs "18[68]"] (Some (bs "0$1")) None None;
    Build_nfmt (Some (bs "(\d{4})(\d{7})")) (Some (bs "$1 $2")) [bs "15[1279]"] (Some (bs "0$1")) None None;
    Build_nfmt (Some (bs "(\d{5})(\d{6})")) (Some (bs "$1 $2")) [bs "15[03568]"; bs "15(?:[0568]|3[13])"] (Some (bs "0$1")) None None;
    Build_nfmt (Some (bs "(\d{3})(\d{8})")) (Some (bs "$1 $2")) [bs "18"] (Some (bs "0$1")) None None;
    Build_nfmt (Some (bs "(\d{3})(\d{2})(\d{7,8})")) (Some (bs "$1 $2 $3")) [bs "1(?:6[023]|7)"] (Some (bs "0$1")) None None;
    Build_nfmt (Some (bs "(\d{4})(\d{2})(\d{7})")) (Some (bs "$1 $2 $3")) [bs "15[279]"] (Some (bs "0$1")) None None;
    Build_nfmt (Some (bs "(\d{3})(\d{2})(\d{8})")) (Some (bs "$1 $2 $3")) [bs "15"] (Some (bs "0$1")) None None]
  [Build_nfmt (Some (bs "(\d{2})(\d{3,13})")) (Some (bs "$1 $2")) [bs "3[02]|40|[68]9"] (Some (bs "0$1")) None None;
    Build_nfmt (Some (bs "(\d{3})(\d{3,12})")) (Some (bs "$1 $2")) [bs "2(?:0[1-389]|1[124]|2[18]|3[14])|3(?:[35-9][15]|4[015])|906|(?:2[4-9]|4[2-9]|[579][1-9]|[68][1-8])1"; bs "2(?:0[1-389]|12[0-8])|3(?:[35-9][15]|4[015])|906|2(?:[13][14]|2[18])|(?:2[4-9]|4[2-9]|[579][1-9]|[68][1-8])1"] (Some (bs "0$1")) None None;
    Build_nfmt (Some (bs "(\d{4})(\d{2,11})")) (Some (bs "$1 $2")) [bs "[24-6]|3(?:[3569][02-46-9]|4[2-4679]|7[2-467]|8[2-46-8])|70[2-8]|8(?:0[2-9]|[1-8])|90[7-9]|[79][1-9]"; bs "[24-6]|3(?:3(?:0[1-467]|2[127-9]|3[124578]|7[1257-9]|8[1256]|9[145])|4(?:2[135]|4[13578]|9[1346])|5(?:0[14]|2[1-3589]|6[1-4]|7[13468]|8[13568])|6(?:2[1-489]|3[124-6]|6[13]|7[12579]|8[1-356]|9[135])|7(?:2[1-7]|4[145]|6[1-5]|7[1-4])|8(?:21|3[1468]|6|7[1467]|8[136])|9(?:0[12479]|2[1358]|4[134679]|6[1-9]|7[136]|8[147]|9[1468]))|70[2-8]|8(?:0[2-9]|[1-8])|90[7-9]|[79][1-9]|3[68]4[1347]|3(?:47|60)[1356]|3(?:3[46]|46|5[49])[1246]|3[4579]3[1357]"] (Some (bs "0$1")) None None;
    Build_nfmt (Some (bs "(\d{3})(\d{4})")) (Some (bs "$1 $2")) [bs "138"] (Some (bs "0$1")) None None;
    Build_nfmt (Some (bs "(\d{5})(\d{2,10})")) (Some (bs "$1 $2")) [bs "3"] (Some (bs "0$1")) None None;
    Build_nfmt (Some (bs "(\d{3})(\d{5,11})")) (Some (bs "$1 $2")) [bs "181"] (Some (bs "0$1")) None None;
    Build_nfmt (Some (bs "(\d{3})(\d)(\d{4,10})")) (Some (bs "$1 $2 $3")) [bs "1(?:3|80)|9"] (Some (bs "0$1")) None None;
    Build_nfmt (Some (bs "(\d{3})(\d{7,8})")) (Some (bs "$1 $2")) [bs "1[67]"] (Some (bs "0$1")) None None;
    Build_nfmt (Some (bs "(\d{3})(\d{7,12})")) (Some (bs "$1 $2")) [bs "8"] (Some (bs "0$1")) None None;
    Build_nfmt (Some (bs "(\d{5})(\d{6})")) (Some (bs "$1 $2")) [bs "185"; bs "1850"; bs "18500"] (Some (bs "0$1")) None None;
    Build_nfmt (Some (bs "(\d{3})(\d{4})(\d{4})")) (Some (bs "$1 $2 $3")) [bs "7"] (Some (bs "0$1")) None None;
    Build_nfmt (Some (bs "(\d{4})(\d{7})")) (Some (bs "$1 $2")) [bs "18[68]"] (Some (bs "0$1")) None None;
    Build_nfmt (Some (bs "(\d{4})(\d{7})")) (Some (bs "$1 $2")) [bs "15[1279]"] (Some (bs "0$1")) None None;
    Build_nfmt (Some (bs "(\d{5})(\d{6})")) (Some (bs "$1 $2")) [bs "15[03568]"; bs "15(?:[0568]|3[13])"] (Some (bs "0$1")) None None;
    Build_nfmt (Some (bs "(\d{3})(\d{8})")) (Some (bs "$1 $2")) [bs "18"] (Some (bs "0$1")) None None;
    Build_nfmt (Some (bs "(\d{3})(\d{2})(\d{7,8})")) (Some (bs "$1 $2 $3")) [bs "1(?:6[023]|7)"] (Some (bs "0$1")) None None;
    Build_nfmt (Some (bs "(\d{4})(\d{2})(\d{7})")) (Some (bs "$1 $2 $3")) [bs "15[279]"] (Some (bs "0$1")) None None;
    Build_nfmt (Some (bs "(\d{3})(\d{2})(\d{8})")) (Some (bs "$1 $2 $3")) [bs "15"] (Some (bs "0$1")) None None]
  None None (Some true).

Definition md_DJ : meta := Eval vm_compute in Build_meta
  (Some (Build_desc (Some (bs "(?:2\d|77)\d{6}")) [(8)%Z] [] None))
  (Some (Build_desc (Some (bs "2(?:1[2-5]|7[45])\d{5}")) [] [] (Some (bs "21360003"))))
  (Some (Build_desc (Some (bs "77\d{6}")) [] [] (Some (bs "77831001"))))
  (Some (Build_desc None [(-1)%Z] [] None))
  (Some (Build_desc None [(-1)%Z] [] None))
  (Some (Build_desc None [(-1)%Z] [] None))
  (Some (Build_desc None [(-1)%Z] [] None))
  (Some (Build_desc None [(-1)%Z] [] None))
  (Some (Build_desc None [(-1)%Z] [] None))
  (Some (Build_desc None [(-1)%Z] [] None))
  None
  (Some (Build_desc None [(-1)%Z] [] None))
  None
  None
  None
  None
  (Some (Build_desc None [(-1)%Z] [] None))
  (Some (bs "DJ")) (Some (253)%Z) (Some (bs "00")) None None
  None None None None
  [Build_nfmt (Some (bs "(\d{2})(\d{2})(\d{2})(\d{2})")) (Some (bs "$1 $2 $3 $4")) [bs "[27]"] None None None]
  []
  None None None.

Definition md_DK : meta := Eval vm_compute in Build_meta
  (Some (Build_desc (Some (bs "[2-9]\d{7}")) [(8)%Z] [] None))
  (Some (Build_desc (Some (bs "(?:2(?:[0-59][1-9]|[6-8]\d)|3(?:[0-3][1-9]|4[13]|5[1-58]|6[1347-9]|7\d|8[1-8]|9[1-79])|4(?:[0-25][1-9]|[34][2-9]|6[13-579]|7[13579]|8[1-47]|9[127])|5(?:[0-36][1-9]|4[146-9]|5[3-57-9]|7[568]|8[1-358]|9[1-69])|6(?:[0135][1-9]|2[1-68]|4[2-8]|6[1689]|[78]\d|9[15689])|7(?:[0-69][1-9]|7[3-9]|8[147])|8(?:[16-9][1-9]|2[1-58])|9(?:[1-47-9][1-9]|6\d))\d{5}")) [] [] (Some (bs "32123456"))))
  (Some (Build_desc (Some (bs "(?:2[6-8]|37|6[78]|96)\d{6}|(?:2[0-59]|3[0-689]|[457]\d|6[0-69]|8[126-9]|9[1-47-9])[1-9]\d{5}")) [] [] (Some (bs "34412345"))))
  (Some (Build_desc (Some (bs "80\d{6}")) [] [] (Some (bs "80123456"))))
  (Some (Build_desc (Some (bs "90\d{6}")) [] [] (Some (bs "90123456"))))
  (Some (Build_desc None [(-1)%Z] [] None))
  (Some (Build_desc None [(-1)%Z] [] None))
  (Some (Build_desc None [(-1)%Z] [] None))
  (Some (Build_desc None [(-1)%Z] [] None))
  (Some (Build_desc None [(-1)%Z] [] None))
  None
  (Some (Build_desc None [(-1)%Z] [] None))
  None
  None
  None
  None
  (Some (Build_desc None [(-1)%Z] [] None))
  (Some (bs "DK")) (Some (45)%Z) (Some (bs "00")) None None
  None None None None
  [Build_nfmt (Some (bs "(\d{2})(\d{2})(\d{2})(\d{2})")) (Some (bs "$1 $2 $3 $4")) [bs "[2-9]"] None None None]
  []
  None None (Some true).

Definition md_DM : meta := Eval vm_compute in Build_meta
  (Some (Build_desc (Some (bs "(?:[58]\d\d|767|900)\d{7}")) [(10)%Z] [(7)%Z] None))
  (Some (Build_desc (Some (bs "767(?:2(?:55|66)|4(?:2[01]|4[0-25-9])|50[0-4])\d{4}")) [] [(7)%Z] (Some (bs "7674201234"))))
  (Some (Build_desc (Some (bs "767(?:2(?:[2-4689]5|7[5-7])|31[5-7]|61[1-8]|70[1-6])\d{4}")) [] [(7)%Z] (Some (bs "7672251234"))))
  (Some (Build_desc (Some (bs "8(?:00|33|44|55|66|77|88)[2-9]\d{6}")) [] [] (Some (bs "8002123456"))))
  (Some (Build_desc (Some (bs "900[2-9]\d{6}")) [] [] (Some (bs "9002123456"))))
  (Some (Build_desc None [(-1)%Z] [] None))
  (Some (Build_desc (Some (bs "52(?:3(?:[2-46-9][02-9]\d|5(?:[02-46-9]\d|5[0-46-9]))|4(?:[2-478][02-9]\d|5(?:[034]\d|2[024-9]|5[0-46-9])|6(?:0[1-9]|[2-9]\d)|9(?:[05-9]\d|2[0-5]|49)))\d{4}|52[34][2-9]1[02-9]\d{4}|5(?:00|2[125-9]|3[23]|44|66|77|88)[2-9]\d{6}")) [] [] (Some (bs "5002345678"))))
  (Some (Build_desc None [(-1)%Z] [] None))
  (Some (Build_desc None [(-1)%Z] [] None))
  (Some (Build_desc None [(-1)%Z] [] None))
  None
  (Some (Build_desc None [(-1)%Z] [] None))
  None
  None
  None
  None
  (Some (Build_desc None [(-1)%Z] [] None))
  (Some (bs "DM")) (Some (1)%Z) (Some (bs "011")) None (Some (bs "1"))
  None (Some (bs "([2-7]\d{6})$|1")) (Some (bs "767$1")) None
  []
  []
  None (Some (bs "767")) (Some true).

Definition md_DO : meta := Eval vm_compute in Build_meta
  (Some (Build_desc (Some (bs "(?:[58]\d\d|900)\d{7}")) [(10)%Z] [(7)%Z] None))
  (Some (Build_desc (Some (bs "8(?:[04]9[2-9]\d\d|29(?:2(?:[0-59]\d|6[04-9]|7[0-27]|8[0237-9])|3(?:[0-35-9]\d|4[7-9])|[45]\d\d|6(?:[0-27-9]\d|[3-5][1-9]|6[0135-8])|7(?:0[013-9]|[1-37]\d|4[1-35689]|5[1-4689]|6[1-57-9]|8[1-79]|9[1-8])|8(?:0[146-9]|1[0-48]|[248]\d|3[1-79]|5[01589]|6[013-68]|7[124-8]|9[0-8])|9(?:[0-24]\d|3[02-46-9]|5[0-79]|60|7[0169]|8[57-9]|9[02-9])))\d{4}")) [] [(7)%Z] (Some (bs "8092345678"))))
  (Some (Build_desc (Some (bs "8[024]9[2-9]\d{6}")) [] [(7)%Z] (Some (bs "8092345678"))))
  (Some (Build_desc (Some (bs "800(?:14|[2-9]\d)\d{5}|8[024]9[01]\d{6}|8(?:33|44|55|66|77|88)[2-9]\d{6}")) [] [] (Some (bs "8002123456"))))
  (Some (Build_desc (Some (bs "900[2-9]\d{6}")) [] [] (Some (bs "9002123456"))))
  (Some (Build_desc None [(-1)%Z] [] None))
  (Some (Build_desc (Some (bs "52(?:3(?:[2-46-9][02-9]\d|5(?:[02-46-9]\d|5[0-46-9]))|4(?:[2-478][02-9]\d|5(?:[034]\d|2[024-9]|5[0-46-9])|6(?:0[1-9]|[2-9]\d)|9(?:[05-9]\d|2[0-5]|49)))\d{4}|52[34][2-9]1[02-9]\d{4}|5(?:00|2[125-9]|3[23]|44|66|77|88)[2-9]\d{6}")) [] [] (Some (bs "5002345678"))))
  (Some (Build_desc None [(-1)%Z] [] None))
  (Some (Build_desc None [(-1)%Z] [] None))
  (Some (Build_desc None [(-1)%Z] [] None))
  None
  (Some (Build_desc None [(-1)%Z] [] None))
  None
  None
  None
  None
  (Some (Build_desc None [(-1)%Z] [] None))
  (Some (bs "DO")) (Some (1)%Z) (Some (bs "011")) None (Some (bs "1"))
  None (Some (bs "1")) None None
  []
  []
  None (Some (bs "8001|8[024]9")) (Some true).

Definition md_DZ : meta := Eval vm_compute in Build_meta
  (Some (Build_desc (Some (bs "(?:[1-4]|[5-79]\d|80)\d{7}")) [(8)%Z; (9)%Z] [] None))
  (Some (Build_desc (Some (bs "9619\d{5}|(?:[1-3]\d|4[013-689])\d{6}")) [] [] (Some (bs "12345678"))))
  (Some (Build_desc (Some (bs "5(?:4[0-29]|6[0-4])\d{6}|(?:55|6\d|7[7-9])\d{7}")) [(9)%Z] [] (Some (bs "551234567"))))
  (Some (Build_desc (Some (bs "800\d{6}")) [(9)%Z] [] (Some (bs "800123456"))))
  (Some (Build_desc (Some (bs "80[3-689]1\d{5}")) [(9)%Z] [] (Some (bs "808123456"))))
  (Some (Build_desc (Some (bs "80[12]1\d{5}")) [(9)%Z] [] (Some (bs "801123456"))))
  (Some (Build_desc None [(-1)%Z] [] None))
  (Some (Build_desc (Some (bs "98[23]\d{6}")) [(9)%Z] [] (Some (bs "983123456"))))
  (Some (Build_desc None [(-1)%Z] [] None))
  (Some (Build_desc None [(-1)%Z] [] None))
  None
  (Some (Build_desc None [(-1)%Z] [] None))
  None
  None
  None
  None
  (Some (Build_desc None [(-1)%Z] [] None))
  (Some (bs "DZ")) (Some (213)%Z) (Some (bs "00")) None (Some (bs "0"))
  None (Some (bs "0")) None None
  [Build_nfmt (Some (bs "(\d{2})(\d{2})(\d{2})(\d{2})")) (Some (bs "$1 $2 $3 $4")) [bs "[1-4]"] (Some (bs "0$1")) None None;
    Build_nfmt (Some (bs "(\d{2})(\d{3})(\d{2})(\d{2})")) (Some (bs "$1 $2 $3 $4")) [bs "9"] (Some (bs "0$1")) None None;
    Build_nfmt (Some (bs "(\d{3})(\d{2})(\d{2})(\d{2})")) (Some (bs "$1 $2 $3 $4")) [bs "[5-8]"] (Some (bs "0$1")) None None]
  []
  None None None.

Definition md_EC : meta := Eval vm_compute in Build_meta
  (Some (Build_desc (Some (bs "1\d{9,10}|(?:[2-7]|9\d)\d{7}")) [(8)%Z; (9)%Z; (10)%Z; (11)%Z] [(7)%Z] None))
  (Some (Build_desc (Some (bs "[2-7][2-7]\d{6}")) [(8)%Z] [(7)%Z] (Some (bs "22123456"))))
  (Some (Build_desc (Some (bs "964[0-2]\d{5}|9(?:39|[57][89]|6[0-36-9]|[89]\d)\d{6}")) [(9)%Z] [] (Some (bs "991234567"))))
  (Some (Build_desc (Some (bs "1800\d{7}|1[78]00\d{6}")) [(10)%Z; (11)%Z] [] (Some (bs "18001234567"))))
  (Some (Build_desc None [(-1)%Z] [] None))
  (Some (Build_desc None [(-1)%Z] [] None))
  (Some (Build_desc None [(-1)%Z] [] None))
  (Some (Build_desc (Some (bs "[2-7]890\d{4}")) [(8)%Z] [] (Some (bs "28901234"))))
  (Some (Build_desc None [(-1)%Z] [] None))
  (Some (Build_desc None [(-1)%Z] [] None))
  None
  (Some (Build_desc None [(-1)%Z] [] None))
  None
  None
  None
  None
  (Some (Build_desc None [(-1)%Z] [] None))
  (Some (bs "EC")) (Some (593)%Z) (Some (bs "00")) None (Some (bs "0"))
  None (Some (bs "0")) None None
  [Build_nfmt (Some (bs "(\d{3})(\d{4})")) (Some (bs "$1-$2")) [bs "[2-7]"] None None None;
    Build_nfmt (Some (bs "(\d)(\d{3})(\d{4})")) (Some (bs "$1 $2-$3")) [bs "[2-7]"] (Some (bs "(0$1)")) None None;
    Build_nfmt (Some (bs "(\d{2})(\d{3})(\d{4})")) (Some (bs "$1 $2 $3")) [bs "9"] (Some (bs "0$1")) None None;
    Build_nfmt (Some (bs "(\d{4})(\d{3})(\d{3,4})")) (Some (bs "$1 $2 $3")) [bs "1"] None None None]
  [Build_nfmt (Some (bs "(\d)(\d{3})(\d{4})")) (Some (bs "$1-$2-$3")) [bs "[2-7]"] None None None;
    Build_nfmt (Some (bs "(\d{2})(\d{3})(\d{4})")) (Some (bs "$1 $2 $3")) [bs "9"] (Some (bs "0$1")) None None;
    Build_nfmt (Some (bs "(\d{4})(\d{3})(\d{3,4})")) (Some (bs "$1 $2 $3")) [bs "1"] None None None]
  None None (Some true).

Definition md_EE : meta := Eval vm_compute in Build_meta
  (Some (Build_desc (Some (bs "8\d{9}|[4578]\d{7}|(?:[3-8]\d|90)\d{5}")) [(7)%Z; (8)%Z; (10)%Z] [] None))
  (Some (Build_desc (Some (bs "(?:3[23589]|4[3-8]|6\d|7[1-9]|88)\d{5}")) [(7)%Z] [] (Some (bs "3212345"))))
  (Some (Build_desc (Some (bs "(?:5\d{5}|8(?:1(?:0(?:0(?:00|[178]\d)|[3-9]\d\d)|(?:1(?:0[2-6]|1\d)|[2-79]\d\d)\d)|2(?:0(?:0(?:00|4\d)|(?:19|[2-7]\d)\d)|(?:(?:[124-69]\d|3[5-9])\d|7(?:[0-79]\d|8[013-9])|8(?:[2-6]\d|7[01]))\d)|[349]\d{4}))\d\d|5(?:(?:[02]\d|5[0-478])\d|1(?:[0-8]\d|95)|6(?:4[0-4]|5[1-589]))\d{3}")) [(7)%Z; (8)%Z] [] (Some (bs "51234567"))))
  (Some (Build_desc (Some (bs "800(?:(?:0\d\d|1)\d|[2-9])\d{3}")) [] [] (Some (bs "80012345"))))
  (Some (Build_desc (Some (bs "(?:40\d\d|900)\d{4}")) [(7)%Z; (8)%Z] [] (Some (bs "9001234"))))
  (Some (Build_desc None [(-1)%Z] [] None))
  (Some (Build_desc (Some (bs "70[0-2]\d{5}")) [(8)%Z] [] (Some (bs "70012345"))))
  (Some (Build_desc None [(-1)%Z] [] None))
  (Some (Build_desc None [(-1)%Z] [] None))
  (Some (Build_desc None [(-1)%Z] [] None))
  None
  (Some (Build_desc None [(-1)%Z] [] None))
  None
  None
  None
  None
  (Some (Build_desc (Some (bs "800[2-9]\d{3}")) [(7)%Z] [] None))
  (Some (bs "EE")) (Some (372)%Z) (Some (bs "00")) None None
  None None None None
  [Build_nfmt (Some (bs "(\d{3})(\d{4})")) (Some (bs "$1 $2")) [bs "[369]|4[3-8]|5(?:[0-2]|5[0-478]|6[45])|7[1-9]|88"; bs "[369]|4[3-8]|5(?:[02]|1(?:[0-8]|95)|5[0-478]|6(?:4[0-4]|5[1-589]))|7[1-9]|88"] None None None;
    Build_nfmt (Some (bs "(\d{4})(\d{3,4})")) (Some (bs "$1 $2")) [bs "[45]|8(?:00|[1-49])"; bs "[45]|8(?:00[1-9]|[1-49])"] None None None;
    Build_nfmt (Some (bs "(\d{2})(\d{2})(\d{4})")) (Some (bs "$1 $2 $3")) [bs "7"] None None None;
    Build_nfmt (Some (bs "(\d{4})(\d{3})(\d{3})")) (Some (bs "$1 $2 $3")) [bs "8"] None None None]
  []
  None None (Some true).

Definition md_EG : meta := Eval vm_compute in Build_meta
  (Some (Build_desc (Some (bs "[189]\d{8,9}|[24-6]\d{8}|[135]\d{7}")) [(8)%Z; (9)%Z; (10)%Z] [(6)%Z; (7)%Z] None))
  (Some (Build_desc (Some (bs "13[23]\d{6}|(?:15|57)\d{6,7}|(?:2\d|3|4[05-8]|5[05]|6[24-689]|8[2468]|9[235-7])\d{7}")) [(8)%Z; (9)%Z] [(6)%Z; (7)%Z] (Some (bs "234567890"))))
  (Some (Build_desc (Some (bs "1[0-25]\d{8}")) [(10)%Z] [] (Some (bs "1001234567"))))
  (Some (Build_desc (Some (bs "800\d{7}")) [(10)%Z] [] (Some (bs "8001234567"))))
  (Some (Build_desc (Some (bs "900\d{7}")) [(10)%Z] [] (Some (bs "9001234567"))))
  (Some (Build_desc None [(-1)%Z] [] None))
  (Some (Build_desc None [(-1)%Z] [] None))
  (Some (Build_desc None [(-1)%Z] [] None))
  (Some (Build_desc None [(-1)%Z] [] None))
  (Some (Build_desc None [(-1)%Z] [] None))
  None
  (Some (Build_desc None [(-1)%Z] [] None))
  None
  None
  None
  None
  (Some (Build_desc None [(-1)%Z] [] None))
  (Some (bs "EG")) (Some (20)%Z) (Some (bs "00")) None (Some (bs "0"))
  None (Some (bs "0")) None None
  [Build_nfmt (Some (bs "(\d)(\d{7,8})")) (Some (bs "$1 $2")) [bs "[23]"] (Some (bs "0$1")) None None;
    Build_nfmt (Some (bs "(\d{2})(\d{6,7})")) (Some (bs "$1 $2")) [bs "1[35]|[4-6]|8[2468]|9[235-7]"] (Some (bs "0$1")) None None;
    Build_nfmt (Some (bs "(\d{3})(\d{3})(\d{4})")) (Some (bs "$1 $2 $3")) [bs "[89]"] (Some (bs "0$1")) None None;
    Build_nfmt (Some (bs "(\d{2})(\d{8})")) (Some (bs "$1 $2")) [bs "1"] (Some (bs "0$1")) None None]
  []
  None None (Some true).

Definition md_EH : meta := Eval vm_compute in Build_meta
  (Some (Build_desc (Some (bs "[5-8]\d{8}")) [(9)%Z] [] None))
  (Some (Build_desc (Some (bs "528[89]\d{5}")) [] [] (Some (bs "528812345"))))
  (Some (Build_desc (Some (bs "(?:6(?:[0-79]\d|8[0-247-9])|7(?:[016-8]\d|2[0-8]|3[01]|5[0-5]))\d{6}")) [] [] (Some (bs "650123456"))))
  (Some (Build_desc (Some (bs "80[0-7]\d{6}")) [] [] (Some (bs "801234567"))))
  (Some (Build_desc (Some (bs "89\d{7}")) [] [] (Some (bs "891234567"))))
  (Some (Build_desc None [(-1)%Z] [] None))
  (Some (Build_desc None [(-1)%Z] [] None))
  (Some (Build_desc (Some (bs "(?:592(?:4[0-2]|93)|80[89]\d\d)\d{4}")) [] [] (Some (bs "592401234"))))
  (Some (Build_desc None [(-1)%Z] [] None))
  (Some (Build_desc None [(-1)%Z] [] None))
  None
  (Some (Build_desc None [(-1)%Z] [] None))
  None
  None
  None
  None
  (Some (Build_desc None [(-1)%Z] [] None))
  (Some (bs "EH")) (Some (212)%Z) (Some (bs "00")) None (Some (bs "0"))
  None (Some (bs "0")) None None
  []
  []
  None None None.

Definition md_ER : meta := Eval vm_compute in Build_meta
  (Some (Build_desc (Some (bs "[178]\d{6}")) [(7)%Z] [(6)%Z] None))
  (Some (Build_desc (Some (bs "(?:1(?:1[12568]|[24]0|55|6[146])|8\d\d)\d{4}")) [] [(6)%Z] (Some (bs "8370362"))))
  (Some (Build_desc (Some (bs "(?:17[1-3]|7\d\d)\d{4}")) [] [] (Some (bs "7123456"))))
  (Some (Build_desc None [(-1)%Z] [] None))
  (Some (Build_desc None [(-1)%Z] [] None))
  (Some (Build_desc None [(-1)%Z] [] None))
  (Some (Build_desc None [(-1)%Z] [] None))
  (Some (Build_desc None [(-1)%Z] [] None))
  (Some (Build_desc None [(-1)%Z] [] None))
  (Some (Build_desc None [(-1)%Z] [] None))
  None
  (Some (Build_desc None [(-1)%Z] [] None))
  None
  None
  None
  None
  (Some (Build_desc None [(-1)%Z] [] None))
  (Some (bs "ER")) (Some (291)%Z) (Some (bs "00")) None (Some (bs "0"))
  None (Some (bs "0")) None None
  [Build_nfmt (Some (bs "(\d)(\d{3})(\d{3})")) (Some (bs "$1 $2 $3")) [bs "[178]"] (Some (bs "0$1")) None None]
  []
  None None None.

Definition md_ES : meta := Eval vm_compute in Build_meta
  (Some (Build_desc (Some (bs "(?:400|[5-9]\d\d)\d{6}")) [(9)%Z] [] None))
  (Some (Build_desc (Some (bs "96906(?:0[0-8]|1[1-9]|[2-9]\d)\d\d|9(?:69(?:0[0-57-9]|[1-9]\d)|73(?:[0-8]\d|9[1-9]))\d{4}|(?:400|8(?:[1356]\d|[28][0-8]|[47][1-9])|9(?:[135]\d|[268][0-8]|4[1-9]|7[124-9]))\d{6}")) [] [] (Some (bs "810123456"))))
  (Some (Build_desc (Some (bs "96906(?:09|10)\d\d|(?:590(?:10[0-2]|600)|97390\d)\d{3}|(?:6\d|7[1-48])\d{7}")) [] [] (Some (bs "612345678"))))
  (Some (Build_desc (Some (bs "[89]00\d{6}")) [] [] (Some (bs "800123456"))))
  (Some (Build_desc (Some (bs "80[367]\d{6}")) [] [] (Some (bs "803123456"))))
  (Some (Build_desc (Some (bs "90[12]\d{6}")) [] [] (Some (bs "901123456"))))
  (Some (Build_desc (Some (bs "70\d{7}")) [] [] (Some (bs "701234567"))))
  (Some (Build_desc None [(-1)%Z] [] None))
  (Some (Build_desc None [(-1)%Z] [] None))
  (Some (Build_desc (Some (bs "51\d{7}")) [] [] (Some (bs "511234567"))))
  None
  (Some (Build_desc None [(-1)%Z] [] None))
  None
  None
  None
  None
  (Some (Build_desc None [(-1)%Z] [] None))
  (Some (bs "ES")) (Some (34)%Z) (Some (bs "00")) None None
  None None None None
  [Build_nfmt (Some (bs "(\d{4})")) (Some (bs "$1")) [bs "905"; bs "905[124578]"] None None None;
    Build_nfmt (Some (bs "(\d{6})")) (Some (bs "$1")) [bs "[79]9"] None None None;
    Build_nfmt (Some (bs "(\d{3})(\d{3})(\d{3})")) (Some (bs "$1 $2 $3")) [bs "[89]00"] None None None;
    Build_nfmt (Some (bs "(\d{3})(\d{2})(\d{2})(\d{2})")) (Some (bs "$1 $2 $3 $4")) [bs "[4-9]"] None None None]
  [Build_nfmt (Some (bs "(\d{3})(\d{3})(\d{3})")) (Some (bs "$1 $2 $3")) [bs "[89]00"] None None None;
    Build_nfmt (Some (bs "(\d{3})(\d{2})(\d{2})(\d{2})")) (Some (bs "$1 $2 $3 $4")) [bs "[4-9]"] None None None]
  None None (Some true).

Definition md_ET : meta := Eval vm_compute in Build_meta
  (Some (Build_desc (Some (bs "(?:11|[2-57-9]\d)\d{7}")) [(9)%Z] [(7)%Z] None))
  (Some (Build_desc (Some (bs "(?:11(?:[124]\d\d|3(?:[0-79]\d|8[0-7])|5(?:[02-9]\d|1[0-57-9])|6(?:[02-79]\d|1[0-57-9]|8[0-8]))|2(?:2(?:11[1-9]|22[0-7]|33\d|44[1467]|66[1-68])|5(?:11[124-6]|33[2-8]|44[1467]|55[14]|66[1-3679]|77[124-79]|880))|3(?:3(?:11[0-46-8]|(?:22|55)[0-6]|33[0134689]|44[04]|66[01467])|4(?:44[0-8]|55[0-69]|66[0-3]|77[1-5]))|4(?:6(?:119|22[0-24-7]|33[1-5]|44[13-69]|55[14-689]|660|88[1-4])|7(?:(?:11|22)[1-9]|33[13-7]|44[13-6]|55[1-689]))|5(?:7(?:227|55[05]|(?:66|77)[14-8])|8(?:11[149]|22[013-79]|33[0-68]|44[013-8]|550|66[1-5]|77\d)))\d{4}")) [] [(7)%Z] (Some (bs "111112345"))))
  (Some (Build_desc (Some (bs "700[1-9]\d{5}|(?:7(?:0[1-9]|1[0-8]|2[1-35-79]|3\d|77|86|99)|(?:8[01]|9\d)\d)\d{6}")) [] [] (Some (bs "911234567"))))
  (Some (Build_desc None [(-1)%Z] [] None))
  (Some (Build_desc None [(-1)%Z] [] None))
  (Some (Build_desc None [(-1)%Z] [] None))
  (Some (Build_desc None [(-1)%Z] [] None))
  (Some (Build_desc None [(-1)%Z] [] None))
  (Some (Build_desc None [(-1)%Z] [] None))
  (Some (Build_desc None [(-1)%Z] [] None))
  None
  (Some (Build_desc None [(-1)%Z] [] None))
  None
  None
  None
  None
  (Some (Build_desc None [(-1)%Z] [] None))
  (Some (bs "ET")) (Some (251)%Z) (Some (bs "00")) None (Some (bs "0"))
  None (Some (bs "0")) None None
  [Build_nfmt (Some (bs "(\d{2})(\d{3})(\d{4})")) (Some (bs "$1 $2 $3")) [bs "[1-57-9]"] (Some (bs "0$1")) None None]
  []
  None None None.

Definition md_FI : meta := Eval vm_compute in Build_meta
  (Some (Build_desc (Some (bs "[1-35689]\d{4}|7\d{10,11}|(?:[124-7]\d|3[0-46-9])\d{8}|[1-9]\d{5,8}")) [(5)%Z; (6)%Z; (7)%Z; (8)%Z; (9)%Z; (10)%Z; (11)%Z; (12)%Z] [] None))
  (Some (Build_desc (Some (bs "1[3-7][1-8]\d{3,6}|(?:19[1-8]|[23568][1-8]\d|9(?:00|[1-8]\d))\d{2,6}")) [(5)%Z; (6)%Z; (7)%Z; (8)%Z; (9)%Z] [] (Some (bs "131234567"))))
  (Some (Build_desc (Some (bs "4946\d{2,6}|(?:4[0-8]|50)\d{4,8}")) [(6)%Z; (7)%Z; (8)%Z; (9)%Z; (10)%Z] [] (Some (bs "412345678"))))
  (Some (Build_desc (Some (bs "800\d{4,6}")) [(7)%Z; (8)%Z; (9)%Z] [] (Some (bs "800123456"))))
  (Some (Build_desc (Some (bs "[67]00\d{5,6}")) [(8)%Z; (9)%Z] [] (Some (bs "600123456"))))
  (Some (Build_desc None [(-1)%Z] [] None))
  (Some (Build_desc None [(-1)%Z] [] None))
  (Some (Build_desc None [(-1)%Z] [] None))
  (Some (Build_desc None [(-1)%Z] [] None))
  (Some (Build_desc (Some (bs "20\d{4,8}|60[12]\d{5,6}|7(?:099\d{4,5}|5[03-9]\d{3,7})|20[2-59]\d\d|(?:606|7(?:0[78]|1|3\d))\d{7}|(?:10|29|3[09]|70[1-5]\d)\d{4,8}")) [] [] (Some (bs "10112345"))))
  None
  (Some (Build_desc None [(-1)%Z] [] None))
  None
  None
  None
  None
  (Some (Build_desc (Some (bs "20(?:2[023]|9[89])\d{1,6}|(?:60[12]\d|7099)\d{4,5}|(?:606|7(?:0[78]|1|3\d))\d{7}|(?:[1-3]00|7(?:0[1-5]\d\d|5[03-9]))\d{3,7}")) [] [] None))
  (Some (bs "FI")) (Some (358)%Z) (Some (bs "00|99(?:[01469]|5(?:[14]1|3[23]|5[59]|77|88|9[09]))")) (Some (bs "00")) (Some (bs "0"))
  None (Some (bs "0")) None None
  [Build_nfmt (Some (bs "(\d{5})")) (Some (bs "$1")) [bs "75[12]"] (Some (bs "0$1")) None None;
    Build_nfmt (Some (bs "(\d{5})")) (Some (bs "$1")) [bs "20[2-59]"] (Some (bs "0$1")) None None;
    Build_nfmt (Some (bs "(\d{6})")) (Some (bs "$1")) [bs "11"] None None None;
    Build_nfmt (Some (bs "(\d{3})(\d{3,7})")) (Some (bs "$1 $2")) [bs "(?:[1-3]0|[68])0|70[07-9]"] (Some (bs "0$1")) None None;
    Build_nfmt (Some (bs "(\d{2})(\d{4,8})")) (Some (bs "$1 $2")) [bs "[14]|2[09]|50|7[135]"] (Some (bs "0$1")) None None;
    Build_nfmt (Some (bs "(\d{2})(\d{6,10})")) (Some (bs "$1 $2")) [bs "7"] (Some (bs "0$1")) None None;
    Build_nfmt (Some (bs "(\d)(\d{4,9})")) (Some (bs "$1 $2")) [bs "(?:19|[2568])[1-8]|3(?:0[1-9]|[1-9])|9"] (Some (bs "0$1")) None None]
  [Build_nfmt (Some (bs "(\d{5})")) (Some (bs "$1")) [bs "20[2-59]"] (Some (bs "0$1")) None None;
    Build_nfmt (Some (bs "(\d{3})(\d{3,7})")) (Some (bs "$1 $2")) [bs "(?:[1-3]0|[68])0|70[07-9]"] (Some (bs "0$1")) None None;
    Build_nfmt (Some (bs "(\d{2})(\d{4,8})")) (Some (bs "$1 $2")) [bs "[14]|2[09]|50|7[135]"] (Some (bs "0$1")) None None;
    Build_nfmt (Some (bs "(\d{2})(\d{6,10})")) (Some (bs "$1 $2")) [bs "7"] (Some (bs "0$1")) None None;
    Build_nfmt (Some (bs "(\d)(\d{4,9})")) (Some (bs "$1 $2")) [bs "(?:19|[2568])[1-8]|3(?:0[1-9]|[1-9])|9"] (Some (bs "0$1")) None None]
  (Some true) (Some (bs "1[03-79]|[2-9]")) (Some true).

Definition md_FJ : meta := Eval vm_compute in Build_meta
  (Some (Build_desc (Some (bs "45\d{5}|(?:0800\d|[235-9])\d{6}")) [(7)%Z; (11)%Z] [] None))
  (Some (Build_desc (Some (bs "603\d{4}|(?:3[0-6]|6[25-7]|8[58])\d{5}")) [(7)%Z] [] (Some (bs "3212345"))))
  (Some (Build_desc (Some (bs "(?:[279]\d|45|5[01568]|8[034679])\d{5}")) [(7)%Z] [] (Some (bs "7012345"))))
  (Some (Build_desc (Some (bs "0800\d{7}")) [(11)%Z] [] (Some (bs "08001234567"))))
  (Some (Build_desc None [(-1)%Z] [] None))
  (Some (Build_desc None [(-1)%Z] [] None))
  (Some (Build_desc None [(-1)%Z] [] None))
  (Some (Build_desc None [(-1)%Z] [] None))
  (Some (Build_desc None [(-1)%Z] [] None))
  (Some (Build_desc None [(-1)%Z] [] None))
  None
  (Some (Build_desc None [(-1)%Z] [] None))
  None
  None
  None
  None
  (Some (Build_desc None [(-1)%Z] [] None))
  (Some (bs "FJ")) (Some (679)%Z) (Some (bs "0(?:0|52)")) (Some (bs "00")) None
  None None None None
  [Build_nfmt (Some (bs "(\d{3})(\d{4})")) (Some (bs "$1 $2")) [bs "[235-9]|45"] None None None;
    Build_nfmt (Some (bs "(\d{4})(\d{3})(\d{4})")) (Some (bs "$1 $2 $3")) [bs "0"] None None None]
  []
  None None None.

Definition md_FK : meta := Eval vm_compute in Build_meta
  (Some (Build_desc (Some (bs "[2-7]\d{4}")) [(5)%Z] [] None))
  (Some (Build_desc (Some (bs "[2-47]\d{4}")) [] [] (Some (bs "31234"))))
  (Some (Build_desc (Some (bs "[56]\d{4}")) [] [] (Some (bs "51234"))))
  (Some (Build_desc None [(-1)%Z] [] None))
  (Some (Build_desc None [(-1)%Z] [] None))
  (Some (Build_desc None [(-1)%Z] [] None))
  (Some (Build_desc None [(-1)%Z] [] None))
  (Some (Build_desc None [(-1)%Z] [] None))
  (Some (Build_desc None [(-1)%Z] [] None))
  (Some (Build_desc None [(-1)%Z] [] None))
  None
  (Some (Build_desc None [(-1)%Z] [] None))
  None
  None
  None
  None
  (Some (Build_desc None [(-1)%Z] [] None))
  (Some (bs "FK")) (Some (500)%Z) (Some (bs "00")) None None
  None None None None
  []
  []
  None None None.

Definition md_FM : meta := Eval vm_compute in Build_meta
  (Some (Build_desc (Some (bs "(?:[39]\d\d|820)\d{4}")) [(7)%Z] [] None))
  (Some (Build_desc (Some (bs "31(?:00[67]|208|309)\d\d|(?:3(?:[2357]0[1-9]|602|804|905)|(?:820|9[2-6]\d)\d)\d{3}")) [] [] (Some (bs "3201234"))))
  (Some (Build_desc (Some (bs "31(?:00[67]|208|309)\d\d|(?:3(?:[2357]0[1-9]|602|804|905)|(?:820|9[2-7]\d)\d)\d{3}")) [] [] (Some (bs "3501234"))))
  (Some (Build_desc None [(-1)%Z] [] None))
  (Some (Build_desc None [(-1)%Z] [] None))
  (Some (Build_desc None [(-1)%Z] [] None))
  (Some (Build_desc None [(-1)%Z] [] None))
  (Some (Build_desc None [(-1)%Z] [] None))
  (Some (Build_desc None [(-1)%Z] [] None))
  (Some (Build_desc None [(-1)%Z] [] None))
  None
  (Some (Build_desc None [(-1)%Z] [] None))
  None
  None
  None
  None
  (Some (Build_desc None [(-1)%Z] [] None))
  (Some (bs "FM")) (Some (691)%Z) (Some (bs "00")) None None
  None None None None
  [Build_nfmt (Some (bs "(\d{3})(\d{4})")) (Some (bs "$1 $2")) [bs "[389]"] None None None]
  []
  None None None.

Definition md_FO : meta := Eval vm_compute in Build_meta
  (Some (Build_desc (Some (bs "[2-9]\d{5}")) [(6)%Z] [] None))
  (Some (Build_desc (Some (bs "(?:20|[34]\d|8[19])\d{4}")) [] [] (Some (bs "201234"))))
  (Some (Build_desc (Some (bs "(?:[27][1-9]|5\d|9[16])\d{4}")) [] [] (Some (bs "211234"))))
  (Some (Build_desc (Some (bs "80[257-9]\d{3}")) [] [] (Some (bs "802123"))))
  (Some (Build_desc (Some (bs "90(?:[13-5][15-7]|2[125-7]|9\d)\d\d")) [] [] (Some (bs "901123"))))
  (Some (Build_desc None [(-1)%Z] [] None))
  (Some (Build_desc None [(-1)%Z] [] None))
  (Some (Build_desc (Some (bs "6[0-36]\d{4}")) [] [] (Some (bs "601234"))))
  (Some (Build_desc None [(-1)%Z] [] None))
  (Some (Build_desc None [(-1)%Z] [] None))
  None
  (Some (Build_desc None [(-1)%Z] [] None))
  None
  None
  None
  None
  (Some (Build_desc None [(-1)%Z] [] None))
  (Some (bs "FO")) (Some (298)%Z) (Some (bs "00")) None None
  None (Some (bs "(10(?:01|[12]0|88))")) None None
  [Build_nfmt (Some (bs "(\d{2})(\d{2})(\d{2})")) (Some (bs "$1 $2 $3")) [bs "[2-9]"] None None (Some (bs "$CC $1"))]
  []
  None None None.

Definition md_FR : meta := Eval vm_compute in Build_meta
  (Some (Build_desc (Some (bs "[1-9]\d{8}")) [(9)%Z] [] None))
  (Some (Build_desc (Some (bs "(?:26[013-9]|59[1-35-9])\d{6}|(?:[13]\d|2[0-57-9]|4[1-9]|5[0-8])\d{7}")) [] [] (Some (bs "123456789"))))
  (Some (Build_desc (Some (bs "(?:6(?:[0-24-8]\d|3[0-8]|9[589])|7[3-9]\d)\d{6}")) [] [] (Some (bs "612345678"))))
  (Some (Build_desc (Some (bs "80[0-5]\d{6}")) [] [] (Some (bs "801234567"))))
  (Some (Build_desc (Some (bs "836(?:0[0-36-9]|[1-9]\d)\d{4}|8(?:1[2-9]|2[2-47-9]|3[0-57-9]|[569]\d|8[0-35-9])\d{6}")) [] [] (Some (bs "891123456"))))
  (Some (Build_desc (Some (bs "8(?:1[01]|2[0156]|4[024]|84)\d{6}")) [] [] (Some (bs "884012345"))))
  (Some (Build_desc None [(-1)%Z] [] None))
  (Some (Build_desc (Some (bs "9\d{8}")) [] [] (Some (bs "912345678"))))
  (Some (Build_desc None [(-1)%Z] [] None))
  (Some (Build_desc (Some (bs "80[6-9]\d{6}")) [] [] (Some (bs "806123456"))))
  None
  (Some (Build_desc None [(-1)%Z] [] None))
  None
  None
  None
  None
  (Some (Build_desc None [(-1)%Z] [] None))
  (Some (bs "FR")) (Some (33)%Z) (Some (bs "00")) None (Some (bs "0"))
  None (Some (bs "0")) None None
  [Build_nfmt (Some (bs "(\d{4})")) (Some (bs "$1")) [bs "10"] None None None;
    Build_nfmt (Some (bs "(\d{3})(\d{3})")) (Some (bs "$1 $2")) [bs "1"] None None None;
    Build_nfmt (Some (bs "(\d{3})(\d{2})(\d{2})(\d{2})")) (Some (bs "$1 $2 $3 $4")) [bs "8"] (Some (bs "0 $1")) None None;
    Build_nfmt (Some (bs "(\d)(\d{2})(\d{2})(\d{2})(\d{2})")) (Some (bs "$1 $2 $3 $4 $5")) [bs "[1-79]"] (Some (bs "0$1")) None None]
  [Build_nfmt (Some (bs "(\d{3})(\d{2})(\d{2})(\d{2})")) (Some (bs "$1 $2 $3 $4")) [bs "8"] (Some (bs "0 $1")) None None;
    Build_nfmt (Some (bs "(\d)(\d{2})(\d{2})(\d{2})(\d{2})")) (Some (bs "$1 $2 $3 $4 $5")) [bs "[1-79]"] (Some (bs "0$1")) None None]
  None None (Some true).

Definition md_GA : meta := Eval vm_compute in Build_meta
  (Some (Build_desc (Some (bs "(?:[067]\d|11)\d{6}|[2-7]\d{6}")) [(7)%Z; (8)%Z] [] None))
  (Some (Build_desc (Some (bs "[01]1\d{6}")) [(8)%Z] [] (Some (bs "01441234"))))
  (Some (Build_desc (Some (bs "(?:(?:0[2-7]|7[467])\d|6(?:0[0-4]|10|[256]\d))\d{5}|[2-7]\d{6}")) [] [] (Some (bs "06031234"))))
  (Some (Build_desc None [(-1)%Z] [] None))
  (Some (Build_desc None [(-1)%Z] [] None))
  (Some (Build_desc None [(-1)%Z] [] None))
  (Some (Build_desc None [(-1)%Z] [] None))
  (Some (Build_desc None [(-1)%Z] [] None))
  (Some (Build_desc None [(-1)%Z] [] None))
  (Some (Build_desc None [(-1)%Z] [] None))
  None
  (Some (Build_desc None [(-1)%Z] [] None))
  None
  None
  None
  None
  (Some (Build_desc None [(-1)%Z] [] None))
  (Some (bs "GA")) (Some (241)%Z) (Some (bs "00")) None None
  None (Some (bs "0(11\d{6}|60\d{6}|61\d{6}|6[256]\d{6}|7[467]\d{6})")) (Some (bs "$1")) None
  [Build_nfmt (Some (bs "(\d)(\d{2})(\d{2})(\d{2})")) (Some (bs "$1 $2 $3 $4")) [bs "[2-7]"] (Some (bs "0$1")) None None;
    Build_nfmt (Some (bs "(\d{2})(\d{2})(\d{2})(\d{2})")) (Some (bs "$1 $2 $3 $4")) [bs "0"] None None None;
    Build_nfmt (Some (bs "(\d{2})(\d{2})(\d{2})(\d{2})")) (Some (bs "$1 $2 $3 $4")) [bs "11|[67]"] (Some (bs "0$1")) None None]
  []
  None None None.

Definition md_GB : meta := Eval vm_compute in Build_meta
  (Some (Build_desc (Some (bs "[1-357-9]\d{9}|[18]\d{8}|8\d{6}")) [(7)%Z; (9)%Z; (10)%Z] [(4)%Z; (5)%Z; (6)%Z; (8)%Z] None))
  (Some (Build_desc (Some (bs "(?:1(?:1(?:3(?:[0-58]\d\d|73[0-5])|4(?:(?:[0-5]\d|70)\d|69[7-9])|(?:(?:5[0-26-9]|[78][0-49])\d|6(?:[0-4]\d|5[01]))\d)|(?:2(?:(?:0[024-9]|2[3-9]|3[3-79]|4[1-689]|[58][02-9]|6[0-47-9]|7[013-9]|9\d)\d|1(?:[0-7]\d|8[0-3]))|(?:3(?:0\d|1[0-8]|[25][02-9]|3[02-579]|[468][0-46-9]|7[1-35-79]|9[2-578])|4(?:0[03-9]|[137]\d|[28][02-57-9]|4[02-69]|5[0-8]|[69][0-79])|5(?:0[1-35-9]|[16]\d|2[024-9]|3[015689]|4[02-9]|5[03-9]|7[0-35-9]|8[0-468]|9[0-57-9])|6(?:0[034689]|1\d|2[0-35689]|[38][013-9]|4[1-467]|5[0-69]|6[13-9]|7[0-8]|9[0-24578])|7(?:0[0246-9]|2\d|3[0236-8]|4[03-9]|5[0-46-9]|6[013-9]|7[0-35-9]|8[024-9]|9[02-9])|8(?:0[35-9]|2[1-57-9]|3[02-578]|4[0-578]|5[124-9]|6[2-69]|7\d|8[02-9]|9[02569])|9(?:0[02-589]|[18]\d|2[02-689]|3[1-57-9]|4[2-9]|5[0-579]|6[2-47-9]|7[0-24578]|9[2-57]))\d)\d)|2(?:0[013478]|3[0189]|4[017]|8[0-46-9]|9[0-2])\d{3})\d{4}|1(?:2(?:0(?:46[1-4]|87[2-9])|545[1-79]|76(?:2\d|3[1-8]|6[1-6])|9(?:7(?:2[0-4]|3[2-5])|8(?:2[2-8]|7[0-47-9]|8[3-5])))|3(?:6(?:38[2-5]|47[23])|8(?:47[04-9]|64[0157-9]))|4(?:044[1-7]|20(?:2[23]|8\d)|6(?:0(?:30|5[2-57]|6[1-8]|7[2-8])|140)|8(?:052|87[1-3]))|5(?:2(?:4(?:3[2-79]|6\d)|76\d)|6(?:26[06-9]|686))|6(?:06(?:4\d|7[4-79])|295[5-7]|35[34]\d|47(?:24|61)|59(?:5[08]|6[67]|74)|9(?:55[0-4]|77[23]))|7(?:26(?:6[13-9]|7[0-7])|(?:442|688)\d|50(?:2[0-3]|[3-68]2|76))|8(?:27[56]\d|37(?:5[2-5]|8[239])|843[2-58])|9(?:0(?:0(?:6[1-8]|85)|52\d)|3583|4(?:66[1-8]|9(?:2[01]|81))|63(?:23|3[1-4])|9561))\d{3}")) [(9)%Z; (10)%Z] [(4)%Z; (5)%Z; (6)%Z; (7)%Z; (8)%Z] (Some (bs "1212345678"))))
  (Some (Build_desc (Some (bs "7(?:457[0-57-9]|700[01]|911[028])\d{5}|7(?:[1-3]\d\d|4(?:[0-46-9]\d|5[0-689])|5(?:0[0-8]|[13-9]\d|2[0-35-9])|7(?:0[1-9]|[1-7]\d|8[02-9]|9[0-689])|8(?:[014-9]\d|[23][0-8])|9(?:[024-9]\d|1[02-9]|3[0-689]))\d{6}")) [(10)%Z] [] (Some (bs "7400123456"))))
  (Some (Build_desc (Some (bs "80[08]\d{7}|800\d{6}|8001111")) [] [] (Some (bs "8001234567"))))
  (Some (Build_desc (Some (bs "(?:8(?:4[2-5]|7[0-3])|9(?:[01]\d|8[2-49]))\d{7}|845464\d")) [(7)%Z; (10)%Z] [] (Some (bs "9012345678"))))
  (Some (Build_desc None [(-1)%Z] [] None))
  (Some (Build_desc (Some (bs "70\d{8}")) [(10)%Z] [] (Some (bs "7012345678"))))
  (Some (Build_desc (Some (bs "56\d{8}")) [(10)%Z] [] (Some (bs "5612345678"))))
  (Some (Build_desc (Some (bs "76(?:464|652)\d{5}|76(?:0[0-28]|2[356]|34|4[01347]|5[49]|6[0-369]|77|8[14]|9[139])\d{6}")) [(10)%Z] [] (Some (bs "7640123456"))))
  (Some (Build_desc (Some (bs "(?:3[0347]|55)\d{8}")) [(10)%Z] [] (Some (bs "5512345678"))))
  None
  (Some (Build_desc None [(-1)%Z] [] None))
  None
  None
  None
  None
  (Some (Build_desc None [(-1)%Z] [] None))
  (Some (bs "GB")) (Some (44)%Z) (Some (bs "00")) None (Some (bs "0"))
  (Some (bs " x")) (Some (bs "0|180020")) None None
  [Build_nfmt (Some (bs "(\d{3})(\d{4})")) (Some (bs "$1 $2")) [bs "800"; bs "8001"; bs "80011"; bs "800111"; bs "8001111"] (Some (bs "0$1")) None None;
    Build_nfmt (Some (bs "(\d{3})(\d{2})(\d{2})")) (Some (bs "$1 $2 $3")) [bs "845"; bs "8454"; bs "84546"; bs "845464"] (Some (bs "0$1")) None None;
    Build_nfmt (Some (bs "(\d{3})(\d{6})")) (Some (bs "$1 $2")) [bs "800"] (Some (bs "0$1")) None None;
    Build_nfmt (Some (bs "(\d{5})(\d{4,5})")) (Some (bs "$1 $2")) [bs "1(?:38|5[23]|69|76|94)"; bs "1(?:(?:38|69)7|5(?:24|39)|768|946)"; bs "1(?:3873|5(?:242|39[4-6])|(?:697|768)[347]|9467)"] (Some (bs "0$1")) None None;
    Build_nfmt (Some (bs "(\d{4})(\d{5,6})")) (Some (bs "$1 $2")) [bs "1(?:[2-69][02-9]|[78])"] (Some (bs "0$1")) None None;
    Build_nfmt (Some (bs "(\d{2})(\d{4})(\d{4})")) (Some (bs "$1 $2 $3")) [bs "[25]|7(?:0|6[02-9])"; bs "[25]|7(?:0|6(?:[03-9]|2[356]))"] (Some (bs "0$1")) None None;
    Build_nfmt (Some (bs "(\d{4})(\d{6})")) (Some (bs "$1 $2")) [bs "7"] (Some (bs "0$1")) None None;
    Build_nfmt (Some (bs "(\d{3})(\d{3})(\d{4})")) (Some (bs "$1 $2 $3")) [bs "[1389]"] (Some (bs "0$1")) None None]
  []
  (Some true) None (Some true).

Definition md_GD : meta := Eval vm_compute in Build_meta
  (Some (Build_desc (Some (bs "(?:473|[58]\d\d|900)\d{7}")) [(10)%Z] [(7)%Z] None))
  (Some (Build_desc (Some (bs "473(?:2(?:3[0-2]|69)|3(?:2[89]|86)|4(?:[06]8|3[5-9]|4[0-4]|5[59]|73|90)|63[68]|7(?:58|84)|800|938)\d{4}")) [] [(7)%Z] (Some (bs "4732691234"))))
  (Some (Build_desc (Some (bs "473(?:4(?:0[2-79]|1[04-9]|2[0-5]|49|5[6-8])|5(?:2[01]|3[3-8])|901)\d{4}")) [] [(7)%Z] (Some (bs "4734031234"))))
  (Some (Build_desc (Some (bs "8(?:00|33|44|55|66|77|88)[2-9]\d{6}")) [] [] (Some (bs "8002123456"))))
  (Some (Build_desc (Some (bs "900[2-9]\d{6}")) [] [] (Some (bs "9002123456"))))
  (Some (Build_desc None [(-1)%Z] [] None))
  (Some (Build_desc (Some (bs "52(?:3(?:[2-46-9][02-9]\d|5(?:[02-46-9]\d|5[0-46-9]))|4(?:[2-478][02-9]\d|5(?:[034]\d|2[024-9]|5[0-46-9])|6(?:0[1-9]|[2-9]\d)|9(?:[05-9]\d|2[0-5]|49)))\d{4}|52[34][2-9]1[02-9]\d{4}|5(?:00|2[125-9]|3[23]|44|66|77|88)[2-9]\d{6}")) [] [] (Some (bs "5002345678"))))
  (Some (Build_desc None [(-1)%Z] [] None))
  (Some (Build_desc None [(-1)%Z] [] None))
  (Some (Build_desc None [(-1)%Z] [] None))
  None
  (Some (Build_desc None [(-1)%Z] [] None))
  None
  None
  None
  None
  (Some (Build_desc None [(-1)%Z] [] None))
  (Some (bs "GD")) (Some (1)%Z) (Some (bs "011")) None (Some (bs "1"))
  None (Some (bs "([2-9]\d{6})$|1")) (Some (bs "473$1")) None
  []
  []
  None (Some (bs "473")) (Some true).

Definition md_GE : meta := Eval vm_compute in Build_meta
  (Some (Build_desc (Some (bs "(?:[3-57]\d\d|800)\d{6}")) [(9)%Z] [(6)%Z; (7)%Z] None))
  (Some (Build_desc (Some (bs "(?:3(?:[256]\d|4[124-9]|7[0-4])|4(?:1\d|2[2-7]|3[1-79]|4[2-8]|7[239]|9[1-7]))\d{6}")) [] [(6)%Z; (7)%Z] (Some (bs "322123456"))))
  (Some (Build_desc (Some (bs "5(?:(?:(?:0555|1(?:[17]77|555))[5-9]|757(?:7[7-9]|8[01]))\d|22252[0-4])\d\d|5(?:0(?:0(?:1[09]|70)|505)|1(?:0[01]0|1(?:07|33|51))|2(?:0[02]0|2[25]2)|3(?:0[03]0|3[35]3)|4(?:0[04]0|411)|5222|9000)[0-4]\d{3}|(?:5(?:0(?:0(?:0\d|1[12]|2[02]|3[0-6]|4[04]|5[05]|77|88|9[09])|(?:[14]\d|77)\d|22[02])|1(?:1(?:[03][01]|[124]\d|5[02-6]|7[0-6])|4\d\d)|2(?:228|555)|3555|4(?:4(?:[02-9]\d|14)|555)|5(?:[0157-9]\d\d|200|333|4(?:44|55))|6[89]\d\d|7(?:(?:[0147-9]\d|22)\d|5(?:00|[57]5))|8(?:0(?:[018]\d|2[0-4])|5(?:55|8[89])|8(?:55|88))|9(?:090|[1-35-9]\d\d))|790\d\d)\d{4}")) [] [] (Some (bs "555123456"))))
  (Some (Build_desc (Some (bs "800\d{6}")) [] [] (Some (bs "800123456"))))
  (Some (Build_desc None [(-1)%Z] [] None))
  (Some (Build_desc None [(-1)%Z] [] None))
  (Some (Build_desc None [(-1)%Z] [] None))
  (Some (Build_desc (Some (bs "70[67]\d{6}")) [] [] (Some (bs "706123456"))))
  (Some (Build_desc None [(-1)%Z] [] None))
  (Some (Build_desc None [(-1)%Z] [] None))
  None
  (Some (Build_desc None [(-1)%Z] [] None))
  None
  None
  None
  None
  (Some (Build_desc (Some (bs "70[67]\d{6}")) [] [] None))
  (Some (bs "GE")) (Some (995)%Z) (Some (bs "00")) None (Some (bs "0"))
  None (Some (bs "0")) None None
  [Build_nfmt (Some (bs "(\d{3})(\d{3})(\d{3})")) (Some (bs "$1 $2 $3")) [bs "70"] (Some (bs "0$1")) None None;
    Build_nfmt (Some (bs "(\d{2})(\d{3})(\d{2})(\d{2})")) (Some (bs "$1 $2 $3 $4")) [bs "32"] (Some (bs "0$1")) None None;
    Build_nfmt (Some (bs "(\d{3})(\d{2})(\d{2})(\d{2})")) (Some (bs "$1 $2 $3 $4")) [bs "[57]"] None None None;
    Build_nfmt (Some (bs "(\d{3})(\d{2})(\d{2})(\d{2})")) (Some (bs "$1 $2 $3 $4")) [bs "[348]"] (Some (bs "0$1")) None None]
  []
  None None (Some true).

Definition md_GF : meta := Eval vm_compute in Build_meta
  (Some (Build_desc (Some (bs "(?:694\d|7093)\d{5}|(?:59|[89]\d)\d{7}")) [(9)%Z] [] None))
  (Some (Build_desc (Some (bs "(?:59(?:4(?:[02-49]\d|1[0-5]|5[6-9]|6[0-3]|80)|88\d)|80[6-9]\d\d)\d{4}")) [] [] (Some (bs "594101234"))))
  (Some (Build_desc (Some (bs "(?:694(?:[0-249]\d|3[0-8])|7093[0-3])\d{4}")) [] [] (Some (bs "694201234"))))
  (Some (Build_desc (Some (bs "80[0-5]\d{6}")) [] [] (Some (bs "800012345"))))
  (Some (Build_desc (Some (bs "8[129]\d{7}")) [] [] (Some (bs "890123456"))))
  (Some (Build_desc None [(-1)%Z] [] None))
  (Some (Build_desc None [(-1)%Z] [] None))
  (Some (Build_desc (Some (bs "9(?:(?:396|76\d)\d|476[0-6])\d{4}")) [] [] (Some (bs "976012345"))))
  (Some (Build_desc None [(-1)%Z] [] None))
  (Some (Build_desc None [(-1)%Z] [] None))
  None
  (Some (Build_desc None [(-1)%Z] [] None))
  None
  None
  None
  None
  (Some (Build_desc None [(-1)%Z] [] None))
  (Some (bs "GF")) (Some (594)%Z) (Some (bs "00")) None (Some (bs "0"))
  None (Some (bs "0")) None None
  [Build_nfmt (Some (bs "(\d{3})(\d{2})(\d{2})(\d{2})")) (Some (bs "$1 $2 $3 $4")) [bs "[5-7]|80[6-9]|9[47]"] (Some (bs "0$1")) None None;
    Build_nfmt (Some (bs "(\d{3})(\d{2})(\d{2})(\d{2})")) (Some (bs "$1 $2 $3 $4")) [bs "[89]"] (Some (bs "0$1")) None None]
  []
  None None (Some true).

Definition md_GG : meta := Eval vm_compute in Build_meta
  (Some (Build_desc (Some (bs "(?:1481|[357-9]\d{3})\d{6}|8\d{6}(?:\d{2})?")) [(7)%Z; (9)%Z; (10)%Z] [(6)%Z] None))
  (Some (Build_desc (Some (bs "1481[25-9]\d{5}")) [(10)%Z] [(6)%Z] (Some (bs "1481256789"))))
  (Some (Build_desc (Some (bs "7(?:(?:781|839)\d|911[17])\d{5}")) [(10)%Z] [] (Some (bs "7781123456"))))
  (Some (Build_desc (Some (bs "80[08]\d{7}|800\d{6}|8001111")) [] [] (Some (bs "8001234567"))))
  (Some (Build_desc (Some (bs "(?:8(?:4[2-5]|7[0-3])|9(?:[01]\d|8[0-3]))\d{7}|845464\d")) [(7)%Z; (10)%Z] [] (Some (bs "9012345678"))))
  (Some (Build_desc None [(-1)%Z] [] None))
  (Some (Build_desc (Some (bs "70\d{8}")) [(10)%Z] [] (Some (bs "7012345678"))))
  (Some (Build_desc (Some (bs "56\d{8}")) [(10)%Z] [] (Some (bs "5612345678"))))
  (Some (Build_desc (Some (bs "76(?:464|652)\d{5}|76(?:0[0-28]|2[356]|34|4[01347]|5[49]|6[0-369]|77|8[14]|9[139])\d{6}")) [(10)%Z] [] (Some (bs "7640123456"))))
  (Some (Build_desc (Some (bs "(?:3[0347]|55)\d{8}")) [(10)%Z] [] (Some (bs "5512345678"))))
  None
  (Some (Build_desc None [(-1)%Z] [] None))
  None
  None
  None
  None
  (Some (Build_desc None [(-1)%Z] [] None))
  (Some (bs "GG")) (Some (44)%Z) (Some (bs "00")) None (Some (bs "0"))
  None (Some (bs "([25-9]\d{5})$|0|180020")) (Some (bs "1481$1")) None
  []
  []
  None None None.

Definition md_GH : meta := Eval vm_compute in Build_meta
  (Some (Build_desc (Some (bs "[235]\d{8}|800\d{5,6}")) [(8)%Z; (9)%Z] [(7)%Z] None))
  (Some (Build_desc (Some (bs "3082[0-5]\d{4}|3(?:0(?:[237]\d|8[01])|[167](?:2[0-6]|7\d|80)|2(?:2[0-5]|7\d|80)|3(?:2[0-3]|7\d|80)|4(?:2[013-9]|3[01]|7\d|80)|5(?:2[0-7]|7\d|80)|8(?:2[0-2]|7\d|80)|9(?:[28]0|7\d))\d{5}")) [(9)%Z] [(7)%Z] (Some (bs "302345678"))))
  (Some (Build_desc (Some (bs "(?:2(?:[0346-9]\d|5[67])|5(?:[03-7]\d|9[1-9]))\d{6}")) [(9)%Z] [] (Some (bs "231234567"))))
  (Some (Build_desc (Some (bs "800\d{5,6}")) [] [] (Some (bs "80012345"))))
  (Some (Build_desc None [(-1)%Z] [] None))
  (Some (Build_desc None [(-1)%Z] [] None))
  (Some (Build_desc None [(-1)%Z] [] None))
  (Some (Build_desc None [(-1)%Z] [] None))
  (Some (Build_desc None [(-1)%Z] [] None))
  (Some (Build_desc None [(-1)%Z] [] None))
  None
  (Some (Build_desc None [(-1)%Z] [] None))
  None
  None
  None
  None
  (Some (Build_desc (Some (bs "800\d{5,6}")) [] [] None))
  (Some (bs "GH")) (Some (233)%Z) (Some (bs "00")) None (Some (bs "0"))
  None (Some (bs "0")) None None
  [Build_nfmt (Some (bs "(\d{3})(\d{4})")) (Some (bs "$1 $2")) [bs "[237]|8[0-2]"] None None None;
    Build_nfmt (Some (bs "(\d{3})(\d{5})")) (Some (bs "$1 $2")) [bs "8"] (Some (bs "0$1")) None None;
    Build_nfmt (Some (bs "(\d{2})(\d{3})(\d{4})")) (Some (bs "$1 $2 $3")) [bs "[2358]"] (Some (bs "0$1")) None None]
  [Build_nfmt (Some (bs "(\d{3})(\d{5})")) (Some (bs "$1 $2")) [bs "8"] (Some (bs "0$1")) None None;
    Build_nfmt (Some (bs "(\d{2})(\d{3})(\d{4})")) (Some (bs "$1 $2 $3")) [bs "[2358]"] (Some (bs "0$1")) None None]
  None None (Some true).

Definition md_GI : meta := Eval vm_compute in Build_meta
  (Some (Build_desc (Some (bs "(?:[25]\d|60)\d{6}")) [(8)%Z] [] None))
  (Some (Build_desc (Some (bs "2190[0-2]\d{3}|2(?:0(?:[02]\d|3[01])|16[24-9]|2[2-5]\d)\d{4}")) [] [] (Some (bs "20012345"))))
  (Some (Build_desc (Some (bs "5251[0-4]\d{3}|(?:5(?:[146-8]\d\d|250)|60(?:1[01]|6\d))\d{4}")) [] [] (Some (bs "57123456"))))
  (Some (Build_desc None [(-1)%Z] [] None))
  (Some (Build_desc None [(-1)%Z] [] None))
  (Some (Build_desc None [(-1)%Z] [] None))
  (Some (Build_desc None [(-1)%Z] [] None))
  (Some (Build_desc None [(-1)%Z] [] None))
  (Some (Build_desc None [(-1)%Z] [] None))
  (Some (Build_desc None [(-1)%Z] [] None))
  None
  (Some (Build_desc None [(-1)%Z] [] None))
  None
  None
  None
  None
  (Some (Build_desc None [(-1)%Z] [] None))
  (Some (bs "GI")) (Some (350)%Z) (Some (bs "00")) None None
  None None None None
  [Build_nfmt (Some (bs "(\d{3})(\d{5})")) (Some (bs "$1 $2")) [bs "2"] None None None]
  []
  None None (Some true).

Definition md_GL : meta := Eval vm_compute in Build_meta
  (Some (Build_desc (Some (bs "(?:19|[2-689]\d|70)\d{4}")) [(6)%Z] [] None))
  (Some (Build_desc (Some (bs "(?:19|3[1-7]|[68][1-9]|70|9\d)\d{4}")) [] [] (Some (bs "321000"))))
  (Some (Build_desc (Some (bs "[245]\d{5}")) [] [] (Some (bs "221234"))))
  (Some (Build_desc (Some (bs "80\d{4}")) [] [] (Some (bs "801234"))))
  (Some (Build_desc None [(-1)%Z] [] None))
  (Some (Build_desc None [(-1)%Z] [] None))
  (Some (Build_desc None [(-1)%Z] [] None))
  (Some (Build_desc (Some (bs "3[89]\d{4}")) [] [] (Some (bs "381234"))))
  (Some (Build_desc None [(-1)%Z] [] None))
  (Some (Build_desc None [(-1)%Z] [] None))
  None
  (Some (Build_desc None [(-1)%Z] [] None))
  None
  None
  None
  None
  (Some (Build_desc None [(-1)%Z] [] None))
  (Some (bs "GL")) (Some (299)%Z) (Some (bs "00")) None None
  None None None None
  [Build_nfmt (Some (bs "(\d{2})(\d{2})(\d{2})")) (Some (bs "$1 $2 $3")) [bs "19|[2-9]"] None None None]
  []
  None None None.

Definition md_GM : meta := Eval vm_compute in Build_meta
  (Some (Build_desc (Some (bs "[48]\d{8}|[2-9]\d{6}")) [(7)%Z; (9)%Z] [] None))
  (Some (Build_desc (Some (bs "44(?:44[6-9]|8[0-389]\d)\d{4}|44[6-9]\d{4}|(?:4(?:[23]|44[23])|8[0-389])\d{5}|44(?:1|441)[024679]\d{3}|(?:445|5)(?:5(?:3\d|4[0-7])|6[67]\d|7(?:1[04]|2[035]|3[58]|48))\d{3}")) [] [] (Some (bs "5661234"))))
  (Some (Build_desc (Some (bs "(?:(?:[23679]\d|4[015]|8(?:(?:3[35]|6[68]|99)\d|7(?:[27]\d|4[015])))\d|5(?:[0-489]\d|56))\d{4}|8[4-7]\d{5}")) [] [] (Some (bs "3012345"))))
  (Some (Build_desc None [(-1)%Z] [] None))
  (Some (Build_desc None [(-1)%Z] [] None))
  (Some (Build_desc None [(-1)%Z] [] None))
  (Some (Build_desc None [(-1)%Z] [] None))
  (Some (Build_desc None [(-1)%Z] [] None))
  (Some (Build_desc None [(-1)%Z] [] None))
  (Some (Build_desc None [(-1)%Z] [] None))
  None
  (Some (Build_desc None [(-1)%Z] [] None))
  None
  None
  None
  None
  (Some (Build_desc None [(-1)%Z] [] None))
  (Some (bs "GM")) (Some (220)%Z) (Some (bs "00")) None None
  None None None None
  [Build_nfmt (Some (bs "(\d{3})(\d{4})")) (Some (bs "$1 $2")) [bs "[235-9]|4(?:[0-35]|4[16-9])"] None None None;
    Build_nfmt (Some (bs "(\d{2})(\d{3})(\d{4})")) (Some (bs "$1 $2 $3")) [bs "[48]"] None None None]
  []
  None None None.

Definition md_GN : meta := Eval vm_compute in Build_meta
  (Some (Build_desc (Some (bs "722\d{6}|(?:3|6\d)\d{7}")) [(8)%Z; (9)%Z] [] None))
  (Some (Build_desc (Some (bs "3(?:0(?:24|3[12]|4[1-35-7]|5[13]|6[189]|[78]1|9[1478])|1\d\d)\d{4}")) [(8)%Z] [] (Some (bs "30241234"))))
  (Some (Build_desc (Some (bs "6[0-356]\d{7}")) [(9)%Z] [] (Some (bs "601123456"))))
  (Some (Build_desc None [(-1)%Z] [] None))
  (Some (Build_desc None [(-1)%Z] [] None))
  (Some (Build_desc None [(-1)%Z] [] None))
  (Some (Build_desc None [(-1)%Z] [] None))
  (Some (Build_desc (Some (bs "722\d{6}")) [(9)%Z] [] (Some (bs "722123456"))))
  (Some (Build_desc None [(-1)%Z] [] None))
  (Some (Build_desc None [(-1)%Z] [] None))
  None
  (Some (Build_desc None [(-1)%Z] [] None))
  None
  None
  None
  None
  (Some (Build_desc None [(-1)%Z] [] None))
  (Some (bs "GN")) (Some (224)%Z) (Some (bs "00")) None None
  None None None None
  [Build_nfmt (Some (bs "(\d{2})(\d{2})(\d{2})(\d{2})")) (Some (bs "$1 $2 $3 $4")) [bs "3"] None None None;
    Build_nfmt (Some (bs "(\d{3})(\d{2})(\d{2})(\d{2})")) (Some (bs "$1 $2 $3 $4")) [bs "[67]"] None None None]
  []
  None None None.

Definition md_GP : meta := Eval vm_compute in Build_meta
  (Some (Build_desc (Some (bs "7090\d{5}|(?:[56]9|[89]\d)\d{7}")) [(9)%Z] [] None))
  (Some (Build_desc (Some (bs "(?:59(?:0(?:0[1-68]|[14][0-24-9]|2[0-68]|3[1-9]|5[3-579]|[68][0-689]|7[08]|9\d)|87\d)|80[6-9]\d\d)\d{4}")) [] [] (Some (bs "590201234"))))
  (Some (Build_desc (Some (bs "(?:69(?:0\d\d|1(?:2[2-9]|3[0-5]))|7090[0-4])\d{4}")) [] [] (Some (bs "690001234"))))
  (Some (Build_desc (Some (bs "80[0-5]\d{6}")) [] [] (Some (bs "800012345"))))
  (Some (Build_desc (Some (bs "8[129]\d{7}")) [] [] (Some (bs "810123456"))))
  (Some (Build_desc None [(-1)%Z] [] None))
  (Some (Build_desc None [(-1)%Z] [] None))
  (Some (Build_desc (Some (bs "9(?:(?:39[5-7]|76[018])\d|475[0-6])\d{4}")) [] [] (Some (bs "976012345"))))
  (Some (Build_desc None [(-1)%Z] [] None))
  (Some (Build_desc None [(-1)%Z] [] None))
  None
  (Some (Build_desc None [(-1)%Z] [] None))
  None
  None
  None
  None
  (Some (Build_desc None [(-1)%Z] [] None))
  (Some (bs "GP")) (Some (590)%Z) (Some (bs "00")) None (Some (bs "0"))
  None (Some (bs "0")) None None
  [Build_nfmt (Some (bs "(\d{3})(\d{2})(\d{2})(\d{2})")) (Some (bs "$1 $2 $3 $4")) [bs "[5-79]|80[6-9]"] (Some (bs "0$1")) None None;
    Build_nfmt (Some (bs "(\d{3})(\d{2})(\d{2})(\d{2})")) (Some (bs "$1 $2 $3 $4")) [bs "8"] (Some (bs "0$1")) None None]
  []
  (Some true) None (Some true).

Definition md_GQ : meta := Eval vm_compute in Build_meta
  (Some (Build_desc (Some (bs "222\d{6}|(?:3\d|55|[89]0)\d{7}")) [(9)%Z] [] None))
  (Some (Build_desc (Some (bs "33[0-24-9]\d[46]\d{4}|3(?:33|5\d)\d[7-9]\d{4}")) [] [] (Some (bs "333091234"))))
  (Some (Build_desc (Some (bs "(?:222|55\d)\d{6}")) [] [] (Some (bs "222123456"))))
  (Some (Build_desc (Some (bs "80\d[1-9]\d{5}")) [] [] (Some (bs "800123456"))))
  (Some (Build_desc (Some (bs "90\d[1-9]\d{5}")) [] [] (Some (bs "900123456"))))
  (Some (Build_desc None [(-1)%Z] [] None))
  (Some (Build_desc None [(-1)%Z] [] None))
  (Some (Build_desc None [(-1)%Z] [] None))
  (Some (Build_desc None [(-1)%Z] [] None))
  (Some (Build_desc None [(-1)%Z] [] None))
  None
  (Some (Build_desc None [(-1)%Z] [] None))
  None
  None
  None
  None
  (Some (Build_desc None [(-1)%Z] [] None))
  (Some (bs "GQ")) (Some (240)%Z) (Some (bs "00")) None None
  None None None None
  [Build_nfmt (Some (bs "(\d{3})(\d{3})(\d{3})")) (Some (bs "$1 $2 $3")) [bs "[235]"] None None None;
    Build_nfmt (Some (bs "(\d{3})(\d{6})")) (Some (bs "$1 $2")) [bs "[89]"] None None None]
  []
  None None None.

Definition md_GR : meta := Eval vm_compute in Build_meta
  (Some (Build_desc (Some (bs "5005000\d{3}|8\d{9,11}|(?:[269]\d|70)\d{8}")) [(10)%Z; (11)%Z; (12)%Z] [] None))
  (Some (Build_desc (Some (bs "2(?:1\d\d|2(?:2[1-46-9]|[36][1-8]|4[1-7]|5[1-4]|7[1-5]|[89][1-9])|3(?:1\d|2[1-57]|[35][1-3]|4[13]|7[1-7]|8[124-6]|9[1-79])|4(?:1\d|2[1-8]|3[1-4]|4[13-5]|6[1-578]|9[1-5])|5(?:1\d|[29][1-4]|3[1-5]|4[124]|5[1-6])|6(?:1\d|[269][1-6]|3[1245]|4[1-7]|5[13-9]|7[14]|8[1-5])|7(?:1\d|2[1-5]|3[1-6]|4[1-7]|5[1-57]|6[135]|9[125-7])|8(?:1\d|2[1-5]|[34][1-4]|9[1-57]))\d{6}")) [(10)%Z] [] (Some (bs "2123456789"))))
  (Some (Build_desc (Some (bs "68[57-9]\d{7}|(?:69|94)\d{8}")) [(10)%Z] [] (Some (bs "6912345678"))))
  (Some (Build_desc (Some (bs "800\d{7,9}")) [] [] (Some (bs "8001234567"))))
  (Some (Build_desc (Some (bs "90[19]\d{7}")) [(10)%Z] [] (Some (bs "9091234567"))))
  (Some (Build_desc (Some (bs "8(?:0[16]|12|[27]5|50)\d{7}")) [(10)%Z] [] (Some (bs "8011234567"))))
  (Some (Build_desc (Some (bs "70\d{8}")) [(10)%Z] [] (Some (bs "7012345678"))))
  (Some (Build_desc None [(-1)%Z] [] None))
  (Some (Build_desc None [(-1)%Z] [] None))
  (Some (Build_desc (Some (bs "5005000\d{3}")) [(10)%Z] [] (Some (bs "5005000123"))))
  None
  (Some (Build_desc None [(-1)%Z] [] None))
  None
  None
  None
  None
  (Some (Build_desc None [(-1)%Z] [] None))
  (Some (bs "GR")) (Some (30)%Z) (Some (bs "00")) None None
  None None None None
  [Build_nfmt (Some (bs "(\d{2})(\d{4})(\d{4})")) (Some (bs "$1 $2 $3")) [bs "21|7"] None None None;
    Build_nfmt (Some (bs "(\d{4})(\d{6})")) (Some (bs "$1 $2")) [bs "2(?:2|3[2-57-9]|4[2-469]|5[2-59]|6[2-9]|7[2-69]|8[2-49])|5"] None None None;
    Build_nfmt (Some (bs "(\d{3})(\d{3})(\d{4})")) (Some (bs "$1 $2 $3")) [bs "[2689]"] None None None;
    Build_nfmt (Some (bs "(\d{3})(\d{3,4})(\d{5})")) (Some (bs "$1 $2 $3")) [bs "8"] None None None]
  []
  None None (Some true).

Definition md_GT : meta := Eval vm_compute in Build_meta
  (Some (Build_desc (Some (bs "80\d{6}|(?:1\d{3}|[2-7])\d{7}")) [(8)%Z; (11)%Z] [] None))
  (Some (Build_desc (Some (bs "[267][2-9]\d{6}")) [(8)%Z] [] (Some (bs "22456789"))))
  (Some (Build_desc (Some (bs "(?:[3-5]\d\d|80[0-4])\d{5}")) [(8)%Z] [] (Some (bs "51234567"))))
  (Some (Build_desc (Some (bs "18[01]\d{8}")) [(11)%Z] [] (Some (bs "18001112222"))))
  (Some (Build_desc (Some (bs "19\d{9}")) [(11)%Z] [] (Some (bs "19001112222"))))
  (Some (Build_desc None [(-1)%Z] [] None))
  (Some (Build_desc None [(-1)%Z] [] None))
  (Some (Build_desc None [(-1)%Z] [] None))
  (Some (Build_desc None [(-1)%Z] [] None))
  (Some (Build_desc None [(-1)%Z] [] None))
  None
  (Some (Build_desc None [(-1)%Z] [] None))
  None
  None
  None
  None
  (Some (Build_desc None [(-1)%Z] [] None))
  (Some (bs "GT")) (Some (502)%Z) (Some (bs "00")) None None
  None None None None
  [Build_nfmt (Some (bs "(\d{4})(\d{4})")) (Some (bs "$1 $2")) [bs "[2-8]"] None None None;
    Build_nfmt (Some (bs "(\d{4})(\d{3})(\d{4})")) (Some (bs "$1 $2 $3")) [bs "1"] None None None]
  []
  None None None.

Definition md_GU : meta := Eval vm_compute in Build_meta
  (Some (Build_desc (Some (bs "(?:[58]\d\d|671|900)\d{7}")) [(10)%Z] [(7)%Z] None))
  (Some (Build_desc (Some (bs "671(?:2\d\d|3(?:00|3[39]|4[349]|55|6[26])|4(?:00|56|7[1-9]|8[02-9])|5(?:55|6[2-5]|88)|6(?:3[2-578]|4[24-9]|5[34]|78|8[235-9])|7(?:[0479]7|2[0167]|3[45]|8[7-9])|8(?:[2-57-9]8|6[478])|9(?:2[29]|6[79]|7[1279]|8[7-9]|9[16-9]))\d{4}")) [] [(7)%Z] (Some (bs "6713001234"))))
  (Some (Build_desc (Some (bs "671(?:2\d\d|3(?:00|3[39]|4[349]|55|6[26])|4(?:00|56|7[1-9]|8[02-9])|5(?:55|6[2-5]|88)|6(?:3[2-578]|4[24-9]|5[34]|78|8[235-9])|7(?:[0479]7|2[0167]|3[45]|8[7-9])|8(?:[2-57-9]8|6[478])|9(?:2[29]|6[79]|7[1279]|8[7-9]|9[16-9]))\d{4}")) [] [(7)%Z] (Some (bs "6713001234"))))
  (Some (Build_desc (Some (bs "8(?:00|33|44|55|66|77|88)[2-9]\d{6}")) [] [] (Some (bs "8002123456"))))
  (Some (Build_desc (Some (bs "900[2-9]\d{6}")) [] [] (Some (bs "9002123456"))))
  (Some (Build_desc None [(-1)%Z] [] None))
  (Some (Build_desc (Some (bs "52(?:3(?:[2-46-9][02-9]\d|5(?:[02-46-9]\d|5[0-46-9]))|4(?:[2-478][02-9]\d|5(?:[034]\d|2[024-9]|5[0-46-9])|6(?:0[1-9]|[2-9]\d)|9(?:[05-9]\d|2[0-5]|49)))\d{4}|52[34][2-9]1[02-9]\d{4}|5(?:00|2[125-9]|3[23]|44|66|77|88)[2-9]\d{6}")) [] [] (Some (bs "5002345678"))))
  (Some (Build_desc None [(-1)%Z] [] None))
  (Some (Build_desc None [(-1)%Z] [] None))
  (Some (Build_desc None [(-1)%Z] [] None))
  None
  (Some (Build_desc None [(-1)%Z] [] None))
  None
  None
  None
  None
  (Some (Build_desc None [(-1)%Z] [] None))
  (Some (bs "GU")) (Some (1)%Z) (Some (bs "011")) None (Some (bs "1"))
  None (Some (bs "([2-9]\d{6})$|1")) (Some (bs "671$1")) (Some true)
  []
  []
  None (Some (bs "671")) None.

Definition md_GW : meta := Eval vm_compute in Build_meta
  (Some (Build_desc (Some (bs "[49]\d{8}|4\d{6}")) [(7)%Z; (9)%Z] [] None))
  (Some (Build_desc (Some (bs "443\d{6}")) [(9)%Z] [] (Some (bs "443201234"))))
  (Some (Build_desc (Some (bs "9(?:5\d|6[569]|77)\d{6}")) [(9)%Z] [] (Some (bs "955012345"))))
  (Some (Build_desc None [(-1)%Z] [] None))
  (Some (Build_desc None [(-1)%Z] [] None))
  (Some (Build_desc None [(-1)%Z] [] None))
  (Some (Build_desc None [(-1)%Z] [] None))
  (Some (Build_desc (Some (bs "40\d{5}")) [(7)%Z] [] (Some (bs "4012345"))))
  (Some (Build_desc None [(-1)%Z] [] None))
  (Some (Build_desc None [(-1)%Z] [] None))
  None
  (Some (Build_desc None [(-1)%Z] [] None))
  None
  None
  None
  None
  (Some (Build_desc None [(-1)%Z] [] None))
  (Some (bs "GW")) (Some (245)%Z) (Some (bs "00")) None None
  None None None None
  [Build_nfmt (Some (bs "(\d{3})(\d{4})")) (Some (bs "$1 $2")) [bs "40"] None None None;
    Build_nfmt (Some (bs "(\d{3})(\d{3})(\d{3})")) (Some (bs "$1 $2 $3")) [bs "[49]"] None None None]
  []
  None None None.

Definition md_GY : meta := Eval vm_compute in Build_meta
  (Some (Build_desc (Some (bs "(?:[2-8]\d{3}|9008)\d{3}")) [(7)%Z] [] None))
  (Some (Build_desc (Some (bs "(?:2(?:1[6-9]|2[0-35-9]|3[1-4]|5[3-9]|6\d|7[0-79])|3(?:2[25-9]|3\d)|4(?:4[0-24]|5[56])|50[0-6]|77[1-57])\d{4}")) [] [] (Some (bs "2201234"))))
  (Some (Build_desc (Some (bs "(?:51[01]|6\d\d|7(?:[0-5]\d|6[0-79]|70|8[067]))\d{4}")) [] [] (Some (bs "6091234"))))
  (Some (Build_desc (Some (bs "(?:289|8(?:00|6[28]|88|99))\d{4}")) [] [] (Some (bs "2891234"))))
  (Some (Build_desc (Some (bs "9008\d{3}")) [] [] (Some (bs "9008123"))))
  (Some (Build_desc None [(-1)%Z] [] None))
  (Some (Build_desc None [(-1)%Z] [] None))
  (Some (Build_desc (Some (bs "515\d{4}")) [] [] (Some (bs "5151234"))))
  (Some (Build_desc None [(-1)%Z] [] None))
  (Some (Build_desc None [(-1)%Z] [] None))
  None
  (Some (Build_desc None [(-1)%Z] [] None))
  None
  None
  None
  None
  (Some (Build_desc None [(-1)%Z] [] None))
  (Some (bs "GY")) (Some (592)%Z) (Some (bs "001")) None None
  None None None None
  [Build_nfmt (Some (bs "(\d{3})(\d{4})")) (Some (bs "$1 $2")) [bs "[2-9]"] None None None]
  []
  None None None.

Definition md_HK : meta := Eval vm_compute in Build_meta
  (Some (Build_desc (Some (bs "8[0-46-9]\d{6,7}|9\d{4,7}|(?:[2-7]|9\d{3})\d{7}")) [(5)%Z; (6)%Z; (7)%Z; (8)%Z; (9)%Z; (11)%Z] [] None))
  (Some (Build_desc (Some (bs "(?:2(?:[13-9]\d|2[013-9])\d|3(?:(?:[1569][0-24-9]|4[0-246-9]|7[0-24-69])\d|8(?:4[0-8]|[579]\d|6[0-5]))|58(?:0[1-9]|1[2-9]))\d{4}")) [(8)%Z] [] (Some (bs "21234567"))))
  (Some (Build_desc (Some (bs "(?:4(?:(?:09|24)[3-6]|44[0-35-9]|6(?:4[0-57-9]|6[0-6])|7(?:4[0-48]|6[0-5]))|5(?:25[3-7]|35[4-8]|73[0-6]|95[0-8])|6(?:26[013-8]|(?:66|78)[0-5])|70(?:7[1-8]|8[0-8])|84(?:4[0-2]|8[0-35-9])|9(?:29[013-9]|39[014-9]|59[0-467]|899))\d{4}|(?:4(?:4[0-35-9]|6[0-357-9]|7[0-35])|5(?:[1-59][0-46-9]|6[0-4689]|7[0-246-9])|6(?:0[1-9]|[13-59]\d|[268][0-57-9]|7[0-79])|70[1-59]|84[0-39]|9(?:0[1-9]|1[02-9]|[2358][0-8]|[467]\d))\d{5}")) [(8)%Z] [] (Some (bs "51234567"))))
  (Some (Build_desc (Some (bs "800\d{6}")) [(9)%Z] [] (Some (bs "800123456"))))
  (Some (Build_desc (Some (bs "900(?:[0-24-9]\d{7}|3\d{1,4})")) [(5)%Z; (6)%Z; (7)%Z; (8)%Z; (11)%Z] [] (Some (bs "90012345678"))))
  (Some (Build_desc None [(-1)%Z] [] None))
  (Some (Build_desc (Some (bs "8(?:1[0-4679]\d|2(?:[0-36]\d|7[0-4])|3(?:[034]\d|2[09]|70))\d{4}")) [(8)%Z] [] (Some (bs "81123456"))))
  (Some (Build_desc None [(-1)%Z] [] None))
  (Some (Build_desc (Some (bs "7(?:1(?:0[0-38]|1[0-3679]|3[013]|69|9[0136])|2(?:[02389]\d|1[18]|7[27-9])|3(?:[0-38]\d|7[0-369]|9[2357-9])|47\d|5(?:[178]\d|5[0-5])|6(?:0[0-7]|2[236-9]|[35]\d)|7(?:[27]\d|8[7-9])|8(?:[23689]\d|7[1-9])|9(?:[025]\d|6[0-246-8]|7[0-36-9]|8[238]))\d{4}")) [(8)%Z] [] (Some (bs "71123456"))))
  (Some (Build_desc (Some (bs "30(?:0[1-9]|[15-7]\d|2[047]|89)\d{4}")) [(8)%Z] [] (Some (bs "30161234"))))
  None
  (Some (Build_desc None [(-1)%Z] [] None))
  None
  None
  None
  None
  (Some (Build_desc None [(-1)%Z] [] None))
  (Some (bs "HK")) (Some (852)%Z) (Some (bs "00(?:30|5[09]|[126-9]?)")) (Some (bs "00")) None
  None None None None
  [Build_nfmt (Some (bs "(\d{3})(\d{2,5})")) (Some (bs "$1 $2")) [bs "900"; bs "9003"] None None None;
    Build_nfmt (Some (bs "(\d{4})(\d{4})")) (Some (bs "$1 $2")) [bs "[2-7]|8[1-4]|9(?:0[1-9]|[1-8])"] None None None;
    Build_nfmt (Some (bs "(\d{3})(\d{3})(\d{3})")) (Some (bs "$1 $2 $3")) [bs "8"] None None None;
    Build_nfmt (Some (bs "(\d{3})(\d{2})(\d{3})(\d{3})")) (Some (bs "$1 $2 $3 $4")) [bs "9"] None None None]
  []
  None None (Some true).

Definition md_HN : meta := Eval vm_compute in Build_meta
  (Some (Build_desc (Some (bs "8\d{10}|[237-9]\d{7}")) [(8)%Z; (11)%Z] [] None))
  (Some (Build_desc (Some (bs "2(?:2(?:0[0-59]|1[1-9]|[23]\d|4[02-8]|5[57]|6[2458]|7[0135689]|8[01346-9]|9[0-2])|4(?:0[578]|2[3-59]|3[13-9]|4[0-68]|5[1-3589]|80)|5(?:0[2357-9]|1[1-6]|4[03-58]|5\d|6[014-69]|7[04]|80)|6(?:[056]\d|17|2[067]|3[047]|4[0-378]|[78][0-8]|9[01])|7(?:0[5-79]|2[01]|6[46-9]|7[02-9]|8[034]|91)|8(?:79|8[0-357-9]|9[1-57-9]))\d{4}")) [(8)%Z] [] (Some (bs "22123456"))))
  (Some (Build_desc (Some (bs "[37-9]\d{7}")) [(8)%Z] [] (Some (bs "91234567"))))
  (Some (Build_desc (Some (bs "8002\d{7}")) [(11)%Z] [] (Some (bs "80021234567"))))
  (Some (Build_desc None [(-1)%Z] [] None))
  (Some (Build_desc None [(-1)%Z] [] None))
  (Some (Build_desc None [(-1)%Z] [] None))
  (Some (Build_desc None [(-1)%Z] [] None))
  (Some (Build_desc None [(-1)%Z] [] None))
  (Some (Build_desc None [(-1)%Z] [] None))
  None
  (Some (Build_desc None [(-1)%Z] [] None))
  None
  None
  None
  None
  (Some (Build_desc (Some (bs "8002\d{7}")) [(11)%Z] [] None))
  (Some (bs "HN")) (Some (504)%Z) (Some (bs "00")) None None
  None None None None
  [Build_nfmt (Some (bs "(\d{4})(\d{4})")) (Some (bs "$1-$2")) [bs "[237-9]"] None None None;
    Build_nfmt (Some (bs "(\d{3})(\d{4})(\d{4})")) (Some (bs "$1 $2 $3")) [bs "8"] None None None]
  [Build_nfmt (Some (bs "(\d{4})(\d{4})")) (Some (bs "$1-$2")) [bs "[237-9]"] None None None]
  None None None.

Definition md_HR : meta := Eval vm_compute in Build_meta
  (Some (Build_desc (Some (bs "[2-69]\d{8}|80\d{5,7}|[1-79]\d{7}|6\d{6}")) [(7)%Z; (8)%Z; (9)%Z] [(6)%Z] None))
  (Some (Build_desc (Some (bs "1\d{7}|(?:2[0-3]|3[1-5]|4[02-47-9]|5[1-3])\d{6,7}")) [(8)%Z; (9)%Z] [(6)%Z; (7)%Z] (Some (bs "12345678"))))
  (Some (Build_desc (Some (bs "9(?:(?:0[1-9]|[12589]\d)\d\d|7(?:[0679]\d\d|5(?:[01]\d|44|55|77|9[5-79])))\d{4}|98\d{6}")) [(8)%Z; (9)%Z] [] (Some (bs "921234567"))))
  (Some (Build_desc (Some (bs "80\d{5,7}")) [] [] (Some (bs "800123456"))))
  (Some (Build_desc (Some (bs "6[01459]\d{6}|6[01]\d{5}")) [(7)%Z; (8)%Z] [] (Some (bs "6001234"))))
  (Some (Build_desc None [(-1)%Z] [] None))
  (Some (Build_desc (Some (bs "7[45]\d{6}")) [(8)%Z] [] (Some (bs "74123456"))))
  (Some (Build_desc None [(-1)%Z] [] None))
  (Some (Build_desc None [(-1)%Z] [] None))
  (Some (Build_desc (Some (bs "62\d{6,7}|72\d{6}")) [(8)%Z; (9)%Z] [] (Some (bs "62123456"))))
  None
  (Some (Build_desc None [(-1)%Z] [] None))
  None
  None
  None
  None
  (Some (Build_desc None [(-1)%Z] [] None))
  (Some (bs "HR")) (Some (385)%Z) (Some (bs "00")) None (Some (bs "0"))
  None (Some (bs "0")) None None
  [Build_nfmt (Some (bs "(\d{2})(\d{2})(\d{3})")) (Some (bs "$1 $2 $3")) [bs "6[01]"] (Some (bs "0$1")) None None;
    Build_nfmt (Some (bs "(\d{3})(\d{2})(\d{2,3})")) (Some (bs "$1 $2 $3")) [bs "8"] (Some (bs "0$1")) None None;
    Build_nfmt (Some (bs "(\d)(\d{4})(\d{3})")) (Some (bs "$1 $2 $3")) [bs "1"] (Some (bs "0$1")) None None;
    Build_nfmt (Some (bs "(\d{2})(\d{3})(\d{3,4})")) (Some (bs "$1 $2 $3")) [bs "6|7[245]"] (Some (bs "0$1")) None None;
    Build_nfmt (Some (bs "(\d{2})(\d{3})(\d{3,4})")) (Some (bs "$1 $2 $3")) [bs "9"] (Some (bs "0$1")) None None;
    Build_nfmt (Some (bs "(\d{2})(\d{3})(\d{3,4})")) (Some (bs "$1 $2 $3")) [bs "[2-57]"] (Some (bs "0$1")) None None;
    Build_nfmt (Some (bs "(\d{3})(\d{3})(\d{3})")) (Some (bs "$1 $2 $3")) [bs "8"] (Some (bs "0$1")) None None]
  []
  None None (Some true).

Definition md_HT : meta := Eval vm_compute in Build_meta
  (Some (Build_desc (Some (bs "[2-589]\d{7}")) [(8)%Z] [] None))
  (Some (Build_desc (Some (bs "2(?:2\d|5[1-5]|81|9[149])\d{5}")) [] [] (Some (bs "22453300"))))
  (Some (Build_desc (Some (bs "(?:[34]\d|5[568])\d{6}")) [] [] (Some (bs "34101234"))))
  (Some (Build_desc (Some (bs "8\d{7}")) [] [] (Some (bs "80012345"))))
  (Some (Build_desc None [(-1)%Z] [] None))
  (Some (Build_desc None [(-1)%Z] [] None))
  (Some (Build_desc None [(-1)%Z] [] None))
  (Some (Build_desc (Some (bs "9(?:[67][0-4]|8[0-3589]|9\d)\d{5}")) [] [] (Some (bs "98901234"))))
  (Some (Build_desc None [(-1)%Z] [] None))
  (Some (Build_desc None [(-1)%Z] [] None))
  None
  (Some (Build_desc None [(-1)%Z] [] None))
  None
  None
  None
  None
  (Some (Build_desc None [(-1)%Z] [] None))
  (Some (bs "HT")) (Some (509)%Z) (Some (bs "00")) None None
  None None None None
  [Build_nfmt (Some (bs "(\d{2})(\d{2})(\d{4})")) (Some (bs "$1 $2 $3")) [bs "[2-589]"] None None None]
  []
  None None None.

Definition md_HU : meta := Eval vm_compute in Build_meta
  (Some (Build_desc (Some (bs "[235-7]\d{8}|[1-9]\d{7}")) [(8)%Z; (9)%Z] [(6)%Z; (7)%Z] None))
  (Some (Build_desc (Some (bs "(?:1\d|[27][2-9]|3[2-7]|4[24-9]|5[2-79]|6[23689]|8[2-57-9]|9[2-69])\d{6}")) [(8)%Z] [(6)%Z; (7)%Z] (Some (bs "12345678"))))
  (Some (Build_desc (Some (bs "(?:[257]0|3[01])\d{7}")) [(9)%Z] [] (Some (bs "201234567"))))
  (Some (Build_desc (Some (bs "(?:[48]0\d|680[29])\d{5}")) [] [] (Some (bs "80123456"))))
  (Some (Build_desc (Some (bs "9[01]\d{6}")) [(8)%Z] [] (Some (bs "90123456"))))
  (Some (Build_desc None [(-1)%Z] [] None))
  (Some (Build_desc None [(-1)%Z] [] None))
  (Some (Build_desc (Some (bs "21\d{7}")) [(9)%Z] [] (Some (bs "211234567"))))
  (Some (Build_desc None [(-1)%Z] [] None))
  (Some (Build_desc (Some (bs "38\d{7}")) [(9)%Z] [] (Some (bs "381234567"))))
  None
  (Some (Build_desc None [(-1)%Z] [] None))
  None
  None
  None
  None
  (Some (Build_desc (Some (bs "(?:[48]0\d|680[29])\d{5}")) [] [] None))
  (Some (bs "HU")) (Some (36)%Z) (Some (bs "00")) None (Some (bs "06"))
  None (Some (bs "06")) None None
  [Build_nfmt (Some (bs "(\d)(\d{3})(\d{4})")) (Some (bs "$1 $2 $3")) [bs "1"] (Some (bs "(06 $1)")) None None;
    Build_nfmt (Some (bs "(\d{2})(\d{3})(\d{3})")) (Some (bs "$1 $2 $3")) [bs "[27][2-9]|3[2-7]|4[24-9]|5[2-79]|6|8[2-57-9]|9[2-69]"] (Some (bs "(06 $1)")) None None;
    Build_nfmt (Some (bs "(\d{2})(\d{3})(\d{3,4})")) (Some (bs "$1 $2 $3")) [bs "[2-9]"] (Some (bs "06 $1")) None None]
  []
  None None (Some true).

Definition md_ID : meta := Eval vm_compute in Build_meta
  (Some (Build_desc (Some (bs "00[1-9]\d{9,14}|(?:[1-36]|8\d{5})\d{6}|00\d{9}|[1-9]\d{8,10}|[2-9]\d{7}")) [(7)%Z; (8)%Z; (9)%Z; (10)%Z; (11)%Z; (12)%Z; (13)%Z; (14)%Z; (15)%Z; (16)%Z; (17)%Z] [(5)%Z; (6)%Z] None))
  (Some (Build_desc (Some (bs "2[124]\d{7,8}|619\d{8}|2(?:1(?:14|500)|2\d{3})\d{3}|61\d{5,8}|(?:2(?:[35][1-4]|6[0-8]|7[1-6]|8\d|9[1-8])|3(?:1|[25][1-8]|3[1-68]|4[1-3]|6[1-3568]|7[0-469]|8\d)|4(?:0[1-589]|1[01347-9]|2[0-36-8]|3[0-24-68]|43|5[1-378]|6[1-5]|7[134]|8[1245])|5(?:1[1-35-9]|2[25-8]|3[124-9]|4[1-3589]|5[1-46]|6[1-8])|6(?:[25]\d|3[1-69]|4[1-6])|7(?:02|[125][1-9]|[36]\d|4[1-8]|7[0-36-9])|9(?:0[12]|1[013-8]|2[0-479]|5[125-8]|6[23679]|7[159]|8[01346]))\d{5,8}")) [(7)%Z; (8)%Z; (9)%Z; (10)%Z; (11)%Z] [(5)%Z; (6)%Z] (Some (bs "218350123"))))
  (Some (Build_desc (Some (bs "8[1-35-9]\d{7,10}")) [(9)%Z; (10)%Z; (11)%Z; (12)%Z] [] (Some (bs "812345678"))))
  (Some (Build_desc (Some (bs "00(?:1803\d{5,11}|7803\d{7})|(?:177\d|800)\d{5,7}")) [(8)%Z; (9)%Z; (10)%Z; (11)%Z; (12)%Z; (13)%Z; (14)%Z; (15)%Z; (16)%Z; (17)%Z] [] (Some (bs "8001234567"))))
  (Some (Build_desc (Some (bs "809\d{7}")) [(10)%Z] [] (Some (bs "8091234567"))))
  (Some (Build_desc (Some (bs "804\d{7}")) [(10)%Z] [] (Some (bs "8041234567"))))
  (Some (Build_desc None [(-1)%Z] [] None))
  (Some (Build_desc None [(-1)%Z] [] None))
  (Some (Build_desc None [(-1)%Z] [] None))
  (Some (Build_desc (Some (bs "(?:1500|8071\d{3})\d{3}")) [(7)%Z; (10)%Z] [] (Some (bs "8071123456"))))
  None
  (Some (Build_desc None [(-1)%Z] [] None))
  None
  None
  None
  None
  (Some (Build_desc (Some (bs "001803\d{5,11}|(?:007803\d|8071)\d{6}")) [(10)%Z; (11)%Z; (12)%Z; (13)%Z; (14)%Z; (15)%Z; (16)%Z; (17)%Z] [] None))
  (Some (bs "ID")) (Some (62)%Z) (Some (bs "00[89]")) None (Some (bs "0"))
  None (Some (bs "0")) None None
  [Build_nfmt (Some (bs "(\d)(\d{3})(\d{3})")) (Some (bs "$1 $2 $3")) [bs "15"] None None None;
    Build_nfmt (Some (bs "(\d{2})(\d{5,9})")) (Some (bs "$1 $2")) [bs "2[124]|[36]1"] (Some (bs "(0$1)")) None None;
    Build_nfmt (Some (bs "(\d{3})(\d{5,7})")) (Some (bs "$1 $2")) [bs "800"] (Some (bs "0$1")) None None;
    Build_nfmt (Some (bs "(\d{3})(\d{5,8})")) (Some (bs "$1 $2")) [bs "[2-79]"] (Some (bs "(0$1)")) None None;
    Build_nfmt (Some (bs "(\d{3})(\d{3,4})(\d{3})")) (Some (bs "$1-$2-$3")) [bs "8[1-35-9]"] (Some (bs "0$1")) None None;
    Build_nfmt (Some (bs "(\d{3})(\d{6,8})")) (Some (bs "$1 $2")) [bs "1"] (Some (bs "0$1")) None None;
    Build_nfmt (Some (bs "(\d{3})(\d{3})(\d{4})")) (Some (bs "$1 $2 $3")) [bs "804"] (Some (bs "0$1")) None None;
    Build_nfmt (Some (bs "(\d{3})(\d)(\d{3})(\d{3})")) (Some (bs "$1 $2 $3 $4")) [bs "80"] (Some (bs "0$1")) None None;
    Build_nfmt (Some (bs "(\d{3})(\d{4})(\d{4,5})")) (Some (bs "$1-$2-$3")) [bs "8"] (Some (bs "0$1")) None None;
    Build_nfmt (Some (bs "(\d{3})(\d{3})(\d{3})(\d{2,8})")) (Some (bs "$1 $2 $3 $4")) [bs "001"] None None None;
    Build_nfmt (Some (bs "(\d{2})(\d{4})(\d{3})(\d{4})")) (Some (bs "$1 $2 $3 $4")) [bs "0"] None None None]
  [Build_nfmt (Some (bs "(\d)(\d{3})(\d{3})")) (Some (bs "$1 $2 $3")) [bs "15"] None None None;
    Build_nfmt (Some (bs "(\d{2})(\d{5,9})")) (Some (bs "$1 $2")) [bs "2[124]|[36]1"] (Some (bs "(0$1)")) None None;
    Build_nfmt (Some (bs "(\d{3})(\d{5,7})")) (Some (bs "$1 $2")) [bs "800"] (Some (bs "0$1")) None None;
    Build_nfmt (Some (bs "(\d{3})(\d{5,8})")) (Some (bs "$1 $2")) [bs "[2-79]"] (Some (bs "(0$1)")) None None;
    Build_nfmt (Some (bs "(\d{3})(\d{3,4})(\d{3})")) (Some (bs "$1-$2-$3")) [bs "8[1-35-9]"] (Some (bs "0$1")) None None;
    Build_nfmt (Some (bs "(\d{3})(\d{6,8})")) (Some (bs "$1 $2")) [bs "1"] (Some (bs "0$1")) None None;
    Build_nfmt (Some (bs "(\d{3})(\d{3})(\d{4})")) (Some (bs "$1 $2 $3")) [bs "804"] (Some (bs "0$1")) None None;
    Build_nfmt (Some (bs "(\d{3})(\d)(\d{3})(\d{3})")) (Some (bs "$1 $2 $3 $4")) [bs "80"] (Some (bs "0$1")) None None;
    Build_nfmt (Some (bs "(\d{3})(\d{4})(\d{4,5})")) (Some (bs "$1-$2-$3")) [bs "8"] (Some (bs "0$1")) None None]
  None None None.

Definition md_IE : meta := Eval vm_compute in Build_meta
  (Some (Build_desc (Some (bs "(?:1\d|[2569])\d{6,8}|4\d{6,9}|7\d{8}|8\d{8,9}")) [(7)%Z; (8)%Z; (9)%Z; (10)%Z] [(5)%Z; (6)%Z] None))
  (Some (Build_desc (Some (bs "(?:1\d|21)\d{6,7}|(?:2[24-9]|4(?:0[24]|5\d|7)|5(?:0[45]|1\d|8)|6(?:1\d|[237-9])|9(?:1\d|[35-9]))\d{5}|(?:23|4(?:[1-469]|8\d)|5[23679]|6[4-6]|7[14]|9[04])\d{7}")) [] [(5)%Z; (6)%Z] (Some (bs "2212345"))))
  (Some (Build_desc (Some (bs "8(?:22|[35-9]\d)\d{6}")) [(9)%Z] [] (Some (bs "850123456"))))
  (Some (Build_desc (Some (bs "1800\d{6}")) [(10)%Z] [] (Some (bs "1800123456"))))
  (Some (Build_desc (Some (bs "15(?:1[2-8]|[2-8]0|9[089])\d{6}")) [(10)%Z] [] (Some (bs "1520123456"))))
  (Some (Build_desc (Some (bs "18[59]0\d{6}")) [(10)%Z] [] (Some (bs "1850123456"))))
  (Some (Build_desc (Some (bs "700\d{6}")) [(9)%Z] [] (Some (bs "700123456"))))
  (Some (Build_desc (Some (bs "76\d{7}")) [(9)%Z] [] (Some (bs "761234567"))))
  (Some (Build_desc None [(-1)%Z] [] None))
  (Some (Build_desc (Some (bs "818\d{6}")) [(9)%Z] [] (Some (bs "818123456"))))
  None
  (Some (Build_desc (Some (bs "88210[1-9]\d{4}|8(?:[35-79]5\d\d|8(?:[013-9]\d\d|2(?:[01][1-9]|[2-9]\d)))\d{5}")) [(10)%Z] [] (Some (bs "8551234567"))))
  None
  None
  None
  None
  (Some (Build_desc (Some (bs "18[59]0\d{6}")) [(10)%Z] [] None))
  (Some (bs "IE")) (Some (353)%Z) (Some (bs "00")) None (Some (bs "0"))
  None (Some (bs "0")) None None
  [Build_nfmt (Some (bs "(\d{2})(\d{5})")) (Some (bs "$1 $2")) [bs "2[24-9]|47|58|6[237-9]|9[35-9]"] (Some (bs "(0$1)")) None None;
    Build_nfmt (Some (bs "(\d{3})(\d{5})")) (Some (bs "$1 $2")) [bs "[45]0"] (Some (bs "(0$1)")) None None;
    Build_nfmt (Some (bs "(\d)(\d{3,4})(\d{4})")) (Some (bs "$1 $2 $3")) [bs "1"] (Some (bs "(0$1)")) None None;
    Build_nfmt (Some (bs "(\d{2})(\d{3})(\d{3,4})")) (Some (bs "$1 $2 $3")) [bs "[2569]|4[1-69]|7[14]"] (Some (bs "(0$1)")) None None;
    Build_nfmt (Some (bs "(\d{3})(\d{3})(\d{3})")) (Some (bs "$1 $2 $3")) [bs "70"] (Some (bs "0$1")) None None;
    Build_nfmt (Some (bs "(\d{3})(\d{3})(\d{3})")) (Some (bs "$1 $2 $3")) [bs "81"] (Some (bs "(0$1)")) None None;
    Build_nfmt (Some (bs "(\d{2})(\d{3})(\d{4})")) (Some (bs "$1 $2 $3")) [bs "[78]"] (Some (bs "0$1")) None None;
    Build_nfmt (Some (bs "(\d{4})(\d{3})(\d{3})")) (Some (bs "$1 $2 $3")) [bs "1"] None None None;
    Build_nfmt (Some (bs "(\d{2})(\d{4})(\d{4})")) (Some (bs "$1 $2 $3")) [bs "4"] (Some (bs "(0$1)")) None None;
    Build_nfmt (Some (bs "(\d{2})(\d)(\d{3})(\d{4})")) (Some (bs "$1 $2 $3 $4")) [bs "8"] (Some (bs "0$1")) None None]
  []
  None None (Some true).

Definition md_IL : meta := Eval vm_compute in Build_meta
  (Some (Build_desc (Some (bs "1\d{6}(?:\d{3,5})?|[57]\d{8}|[1-489]\d{7}")) [(7)%Z; (8)%Z; (9)%Z; (10)%Z; (11)%Z; (12)%Z] [] None))
  (Some (Build_desc (Some (bs "153\d{8,9}|29[1-9]\d{5}|(?:2[0-8]|[3489]\d)\d{6}")) [(8)%Z; (11)%Z; (12)%Z] [(7)%Z] (Some (bs "21234567"))))
  (Some (Build_desc (Some (bs "55(?:4(?:0[0-3]|10|6[015-9])|57[0-289]|8[06][0-2])\d{4}|5(?:(?:[0-2][02-9]|[36]\d|[49][2-9]|8[3-7])\d|5(?:01|2\d|3[0-3]|4[3-5]|5[0-25689]|6[6-8]|7[0-267]|8[7-9]|9[1-9]))\d{5}")) [(9)%Z] [] (Some (bs "502345678"))))
  (Some (Build_desc (Some (bs "1(?:255|80[019]\d{3})\d{3}")) [(7)%Z; (10)%Z] [] (Some (bs "1800123456"))))
  (Some (Build_desc (Some (bs "1212\d{4}|1(?:200|9(?:0[0-2]|19|9\d))\d{6}")) [(8)%Z; (10)%Z] [] (Some (bs "1919123456"))))
  (Some (Build_desc (Some (bs "1700\d{6}")) [(10)%Z] [] (Some (bs "1700123456"))))
  (Some (Build_desc None [(-1)%Z] [] None))
  (Some (Build_desc (Some (bs "7(?:280[01]|38(?:[05]\d|8[01358])|8(?:33|55|77|81)\d)\d{4}|7(?:18|2[23]|3[237]|47|6[258]|7\d|82|9[2-9])\d{6}")) [(9)%Z] [] (Some (bs "771234567"))))
  (Some (Build_desc None [(-1)%Z] [] None))
  (Some (Build_desc (Some (bs "1599\d{6}")) [(10)%Z] [] (Some (bs "1599123456"))))
  None
  (Some (Build_desc (Some (bs "151\d{8,9}")) [(11)%Z; (12)%Z] [] (Some (bs "15112340000"))))
  None
  None
  None
  None
  (Some (Build_desc (Some (bs "1700\d{6}")) [(10)%Z] [] None))
  (Some (bs "IL")) (Some (972)%Z) (Some (bs "0(?:0|1(?:05|[2-9]))")) None (Some (bs "0"))
  None (Some (bs "0")) None None
  [Build_nfmt (Some (bs "(\d{4})(\d{3})")) (Some (bs "$1-$2")) [bs "125"] None None None;
    Build_nfmt (Some (bs "(\d{4})(\d{2})(\d{2})")) (Some (bs "$1-$2-$3")) [bs "121"] None None None;
    Build_nfmt (Some (bs "(\d)(\d{3})(\d{4})")) (Some (bs "$1-$2-$3")) [bs "[2-489]"] (Some (bs "0$1")) None None;
    Build_nfmt (Some (bs "(\d{2})(\d{3})(\d{4})")) (Some (bs "$1-$2-$3")) [bs "[57]"] (Some (bs "0$1")) None None;
    Build_nfmt (Some (bs "(\d{4})(\d{3})(\d{3})")) (Some (bs "$1-$2-$3")) [bs "12"] None None None;
    Build_nfmt (Some (bs "(\d{4})(\d{6})")) (Some (bs "$1-$2")) [bs "159"] None None None;
    Build_nfmt (Some (bs "(\d)(\d{3})(\d{3})(\d{3})")) (Some (bs "$1-$2-$3-$4")) [bs "1[7-9]"] None None None;
    Build_nfmt (Some (bs "(\d{3})(\d{1,2})(\d{3})(\d{4})")) (Some (bs "$1-$2 $3-$4")) [bs "15"] None None None]
  []
  None None (Some true).

Definition md_IM : meta := Eval vm_compute in Build_meta
  (Some (Build_desc (Some (bs "1624\d{6}|(?:[3578]\d|90)\d{8}")) [(10)%Z] [(6)%Z] None))
  (Some (Build_desc (Some (bs "1624(?:230|[5-8]\d\d)\d{3}")) [] [(6)%Z] (Some (bs "1624756789"))))
  (Some (Build_desc (Some (bs "76245[06]\d{4}|7(?:4576|[59]24\d|624[0-4689])\d{5}")) [] [] (Some (bs "7924123456"))))
  (Some (Build_desc (Some (bs "808162\d{4}")) [] [] (Some (bs "8081624567"))))
  (Some (Build_desc (Some (bs "8(?:440[49]06|72299\d)\d{3}|(?:8(?:45|70)|90[0167])624\d{4}")) [] [] (Some (bs "9016247890"))))
  (Some (Build_desc None [(-1)%Z] [] None))
  (Some (Build_desc (Some (bs "70\d{8}")) [] [] (Some (bs "7012345678"))))
  (Some (Build_desc (Some (bs "56\d{8}")) [] [] (Some (bs "5612345678"))))
  (Some (Build_desc None [(-1)%Z] [] None))
  (Some (Build_desc (Some (bs "3440[49]06\d{3}|(?:3(?:08162|3\d{4}|45624|7(?:0624|2299))|55\d{4})\d{4}")) [] [] (Some (bs "5512345678"))))
  None
  (Some (Build_desc None [(-1)%Z] [] None))
  None
  None
  None
  None
  (Some (Build_desc None [(-1)%Z] [] None))
  (Some (bs "IM")) (Some (44)%Z) (Some (bs "00")) None (Some (bs "0"))
  None (Some (bs "([25-8]\d{5})$|0|180020")) (Some (bs "1624$1")) None
  []
  []
  None (Some (bs "74576|(?:16|7[56])24")) None.

Definition md_IN : meta := Eval vm_compute in Build_meta
  (Some (Build_desc (Some (bs "(?:000800|[2-9]\d\d)\d{7}|1\d{7,12}")) [(8)%Z; (9)%Z; (10)%Z; (11)%Z; (12)%Z; (13)%Z] [(6)%Z; (7)%Z] None))
  (Some (Build_desc (Some (bs "(?:2717(?:[2-7]\d|95)|6828[235-7]\d)\d{4}|(?:170[24]|280[13468]|4(?:20[24]|72[2-8])|552[1-7])\d{6}|(?:271[0-689]|682[0-79]|782[0-6])[2-7]\d{5}|(?:2(?:[02][2-79]|90)|3(?:23|80)|683|79[1-7])\d{7}|(?:11|33|4[04]|80)[2-7]\d{7}|(?:342|674|788)(?:[0189][2-7]|[2-7]\d)\d{5}|(?:1(?:2[0-249]|3[0-25]|4[145]|[59][14]|6[014]|7[1257]|8[01346])|2(?:1[257]|3[013]|4[01]|5[0137]|6[0158]|78|8[1568]|9[14])|3(?:26|4[13]|5[34]|6[01489]|7[02-46]|8[159])|4(?:1[36]|2[1-47]|3[15]|5[12]|6[0-26-9]|7[014-9]|8[013-57]|9[014-7])|5(?:1[025]|22|[36][25]|4[28]|[578]1|9[15])|6(?:12|[2-47]1|5[17]|6[13]|80)|7(?:12|2[14]|3[134]|4[47]|5[15]|[67]1)|8(?:16|2[014]|3[126]|6[136]|7[078]|8[34]|91))[2-7]\d{6}|(?:1(?:2[35-8]|3[346-9]|4[236-9]|[59][0235-9]|6[235-9]|7[34689]|8[257-9])|2(?:1[134689]|3[24-8]|4[2-8]|5[25689]|6[2-4679]|7[3-79]|8[2-479]|9[235-9])|3(?:01|1[79]|2[1245]|4[5-8]|5[125689]|6[235-7]|7[157-9]|8[2-46-8])|4(?:1[14578]|2[5689]|3[2-467]|5[4-7]|6[35]|73|8[2689]|9[2389])|5(?:[16][146-9]|2[14-8]|3[1346]|4[14-69]|5[46]|7[2-4]|8[2-8]|9[246])|6(?:1[1358]|2[2457]|3[2-4]|4[235-7]|5[2-689]|6[24578]|7[235689]|8[14-6])|7(?:1[013-9]|2[0235-9]|3[2679]|4[1-35689]|5[2-46-9]|[67][02-9]|8[013-7]|9[089])|8(?:1[1357-9]|2[235-8]|3[03-57-9]|4[0-24-9]|5\d|6[2457-9]|7[1-6]|8[1256]|9[2-4]))\d[2-7]\d{5}")) [(10)%Z] [(6)%Z; (7)%Z; (8)%Z] (Some (bs "7410410123"))))
  (Some (Build_desc (Some (bs "(?:6(?:1279|828[01489])|7(?:887[02-9]|9(?:313|79[07-9]))|8(?:079[04-9]|(?:84|91)7[02-8]))\d{5}|(?:160[01]|6(?:(?:12|[2-4]1|5[17]|6[13]|80)[0189]|7(?:1[0189]|86))|7(?:1(?:2[0189]|9[0-5])|3(?:2[5-8]|[34][017-9]|9[016-9])|5(?:[15][017-9]|2[04-9]|9[7-9])|6(?:0[0-47]|1[0-257-9]|2[0-4]|3[19]|5[4589])|70[0289]|88[089]|97[02-8])|8(?:0(?:6[67]|7[02-8])|70[017-9]|84[01489]|91[0-289]))\d{6}|(?:731|8(?:16|2[014]|3[126]|6[136]|7[78]|83))(?:[0189]\d|7[02-8])\d{5}|(?:6(?:(?:1[1358]|2[2457]|3[2-4]|4[235-7]|5[2-689]|6[24578])\d|7(?:[23569]\d|4[0189]|8[0-57-9])|8(?:[14-6]\d|2[0-79]))|7(?:1(?:[013-8]\d|9[6-9])|3(?:2[0-49]|9[2-5])|5(?:2[1-3]|9[0-6])|6(?:0[5689]|2[5-9]|3[02-8]|4\d|5[0-367])|70[13-7]|881))[0189]\d{5}|(?:6(?:[09]\d|1[04679]|2[03689]|3[05-9]|4[0489]|50|6[069]|7[07]|8[7-9])|7(?:[024]\d|3[05-8]|5[0346-8]|6[6-9]|7[1-9]|8[0-79]|9[089])|8(?:0[01589]|1[0-57-9]|2[235-9]|3[03-57-9]|[45]\d|6[02457-9]|7[1-69]|8[0-25-9]|9[02-9])|9\d\d)\d{7}")) [(10)%Z] [] (Some (bs "8123456789"))))
  (Some (Build_desc (Some (bs "000800\d{7}|180(?:0\d{4,9}|3\d{9})")) [] [] (Some (bs "1800123456"))))
  (Some (Build_desc (Some (bs "186[12]\d{9}")) [(13)%Z] [] (Some (bs "1861123456789"))))
  (Some (Build_desc (Some (bs "1860\d{7}")) [(11)%Z] [] (Some (bs "18603451234"))))
  (Some (Build_desc None [(-1)%Z] [] None))
  (Some (Build_desc None [(-1)%Z] [] None))
  (Some (Build_desc None [(-1)%Z] [] None))
  (Some (Build_desc (Some (bs "140\d{7}")) [(10)%Z] [] (Some (bs "1409305260"))))
  None
  (Some (Build_desc None [(-1)%Z] [] None))
  None
  None
  None
  None
  (Some (Build_desc (Some (bs "1800\d{4,9}|(?:000800|18(?:03\d\d|6(?:0|[12]\d\d)))\d{7}")) [] [] None))
  (Some (bs "IN")) (Some (91)%Z) (Some (bs "00")) None (Some (bs "0"))
  None (Some (bs "0")) None None
  [Build_nfmt (Some (bs "(\d{7})")) (Some (bs "$1")) [bs "575"] None None None;
    Build_nfmt (Some (bs "(\d{8})")) (Some (bs "$1")) [bs "5(?:0|2[23]|3[03]|[67]1|88)"; bs "5(?:0|2(?:21|3)|3(?:0|3[23])|616|717|888)"; bs "5(?:0|2(?:21|3)|3(?:0|3[23])|616|717|8888)"] None (Some true) None;
    Build_nfmt (Some (bs "(\d{4})(\d{4,5})")) (Some (bs "$1 $2")) [bs "180"; bs "1800"] None (Some true) None;
    Build_nfmt (Some (bs "(\d{3})(\d{3})(\d{4})")) (Some (bs "$1 $2 $3")) [bs "140"] None (Some true) None;
    Build_nfmt (Some (bs "(\d{2})(\d{4})(\d{4})")) (Some (bs "$1 $2 $3")) [bs "11|2[02]|33|4[04]|79[1-7]|80[2-46]"; bs "11|2[02]|33|4[04]|79(?:[1-6]|7[19])|80(?:[2-4]|6[0-589])"; bs "11|2[02]|33|4[04]|79(?:[124-6]|3(?:[02-9]|1[0-24-9])|7(?:1|9[1-6]))|80(?:[2-4]|6[0-589])"] (Some (bs "0$1")) (Some true) None;
    Build_nfmt (Some (bs "(\d{3})(\d{3})(\d{4})")) (Some (bs "$1 $2 $3")) [bs "1(?:2[0-249]|3[0-25]|4[145]|[68]|7[1257])|2(?:1[257]|3[013]|4[01]|5[0137]|6[0158]|78|8[1568])|3(?:26|4[1-3]|5[34]|6[01489]|7[02-46]|8[159])|4(?:1[36]|2[1-47]|5[12]|6[0-26-9]|7[0-24-9]|8[013-57]|9[014-7])|5(?:1[025]|22|[36][25]|4[28]|5[12]|[78]1)|6(?:12|[2-4]1|5[17]|6[13]|80)|7(?:12|3[134]|61|88)|8(?:16|2[014]|3[126]|6[136]|7[078]|8[34]|91)|(?:43|59|75)[15]|(?:1[59]|29|67)[14]"; bs "1(?:2[0-24]|3[0-25]|4[145]|[59][14]|6[1-9]|7[1257]|8[1-57-9])|2(?:1[257]|3[013]|4[01]|5[0137]|6[058]|78|8[1568]|9[14])|3(?:26|4[1-3]|5[34]|6[01489]|7[02-46]|8[159])|4(?:1[36]|2[1-47]|3[15]|5[12]|6[0-26-9]|7[0-24-9]|8[013-57]|9[014-7])|5(?:1[025]|22|[36][25]|4[28]|[578]1|9[15])|674|7(?:(?:3[34]|5[15])[2-6]|61[346]|88[0-8])|8(?:70[2-6]|84[235-7]|91[3-7])|(?:1(?:29|60|8[06])|261|552|6(?:12|[2-47]1|5[17]|6[13]|80)|7(?:12|31)|8(?:16|2[014]|3[126]|6[136]|7[78]|83))[2-7]"; bs "1(?:2[0-24]|3[0-25]|4[145]|[59][14]|6[1-9]|7[1257]|8[1-57-9])|2(?:1[257]|3[013]|4[01]|5[0137]|6[058]|78|8[1568]|9[14])|3(?:26|4[1-3]|5[34]|6[01489]|7[02-46]|8[159])|4(?:1[36]|2[1-47]|3[15]|5[12]|6[0-26-9]|7[0-24-9]|8[013-57]|9[014-7])|5(?:1[025]|22|[36][25]|4[28]|[578]1|9[15])|6(?:12(?:[2-6]|7[0-8])|74[2-7])|7(?:3171|5[15][2-6]|61[346]|88(?:[2-7]|82))|8(?:70[2-6]|84(?:[2356]|7[19])|91(?:[3-6]|7[19]))|73[134][2-6]|8(?:16|2[014]|3[126]|6[136]|7[78]|83)(?:[2-6]|7[19])|(?:1(?:29|60|8[06])|261|552|6(?:[2-4]1|5[17]|6[13]|7(?:1|4[0189])|80)|7(?:12|88[01]))[2-7]"] (Some (bs "0$1")) (Some true) None;
    Build_nfmt (Some (bs "(\d{4})(\d{3})(\d{3})")) (Some (bs "$1 $2 $3")) [bs "1(?:[2-479]|5[0235-9])|[2-5]|6(?:1[1358]|2[2457-9]|3[2-5]|4[235-7]|5[2-689]|6[24578]|7[235689]|8[1-6])|7(?:1[013-9]|3[129]|5[29]|6[02-5]|70)|807"; bs "1(?:[2-479]|5[0235-9])|[2-5]|6(?:1[1358]|2(?:[2457]|84|95)|3(?:[2-4]|55)|4[235-7]|5[2-689]|6[24578]|7(?:[23569]|8[0-57-9])|8[1-6])|7(?:1(?:[013-8]|9[6-9])|3(?:17|2[0-49]|9[2-57])|5(?:2[1-3]|9[0-6])|6(?:0[5689]|2[5-9]|3[02-8]|4|5[0-367])|70[13-7])|807[19]"; bs "1(?:[2-479]|5(?:[0236-9]|5[013-9]))|[2-5]|6(?:2(?:84|95)|355|8(?:28[235-7]|3))|73179|807(?:1|9[1-3])|(?:1552|6(?:(?:1[1358]|2[2457]|3[2-4]|4[235-7]|5[2-689]|6[24578])\d|7(?:[23569]\d|8[0-57-9])|8(?:[14-6]\d|2[0-79]))|7(?:1(?:[013-8]\d|9[6-9])|3(?:2[0-49]|9[2-57])|5(?:2[1-3]|9[0-6])|6(?:0[5689]|2[5-9]|3[02-8]|4\d|5[0-367])|70[13-7]))[2-7]"] (Some (bs "0$1")) (Some true) None;
    Build_nfmt (Some (bs "(\d{5})(\d{5})")) (Some (bs "$1 $2")) [bs "16|[6-9]"] (Some (bs "0$1")) (Some true) None;
    Build_nfmt (Some (bs "(\d{4})(\d{2,4})(\d{4})")) (Some (bs "$1 $2 $3")) [bs "18[06]"; bs "18[06]0"] None (Some true) None;
    Build_nfmt (Some (bs "(\d{3})(\d{3})(\d{3})(\d{4})")) (Some (bs "$1 $2 $3 $4")) [bs "0"] None None None;
    Build_nfmt (Some (bs "(\d{4})(\d{3})(\d{3})(\d{3})")) (Some (bs "$1 $2 $3 $4")) [bs "18"] None (Some true) None]
  [Build_nfmt (Some (bs "(\d{8})")) (Some (bs "$1")) [bs "5(?:0|2[23]|3[03]|[67]1|88)"; bs "5(?:0|2(?:21|3)|3(?:0|3[23])|616|717|888)"; bs "5(?:0|2(?:21|3)|3(?:0|3[23])|616|717|8888)"] None (Some true) None;
    Build_nfmt (Some (bs "(\d{4})(\d{4,5})")) (Some (bs "$1 $2")) [bs "180"; bs "1800"] None (Some true) None;
    Build_nfmt (Some (bs "(\d{3})(\d{3})(\d{4})")) (Some (bs "$1 $2 $3")) [bs "140"] None (Some true) None;
    Build_nfmt (Some (bs "(\d{2})(\d{4})(\d{4})")) (Some (bs "$1 $2 $3")) [bs "11|2[02]|33|4[04]|79[1-7]|80[2-46]"; bs "11|2[02]|33|4[04]|79(?:[1-6]|7[19])|80(?:[2-4]|6[0-589])"; bs "11|2[02]|33|4[04]|79(?:[124-6]|3(?:[02-9]|1[0-24-9])|7(?:1|9[1-6]))|80(?:[2-4]|6[0-589])"] (Some (bs "0$1")) (Some true) None;
    Build_nfmt (Some (bs "(\d{3})(\d{3})(\d{4})")) (Some (bs "$1 $2 $3")) [bs "1(?:2[0-249]|3[0-25]|4[145]|[68]|7[1257])|2(?:1[257]|3[013]|4[01]|5[0137]|6[0158]|78|8[1568])|3(?:26|4[1-3]|5[34]|6[01489]|7[02-46]|8[159])|4(?:1[36]|2[1-47]|5[12]|6[0-26-9]|7[0-24-9]|8[013-57]|9[014-7])|5(?:1[025]|22|[36][25]|4[28]|5[12]|[78]1)|6(?:12|[2-4]1|5[17]|6[13]|80)|7(?:12|3[134]|61|88)|8(?:16|2[014]|3[126]|6[136]|7[078]|8[34]|91)|(?:43|59|75)[15]|(?:1[59]|29|67)[14]"; bs "1(?:2[0-24]|3[0-25]|4[145]|[59][14]|6[1-9]|7[1257]|8[1-57-9])|2(?:1[257]|3[013]|4[01]|5[0137]|6[058]|78|8[1568]|9[14])|3(?:26|4[1-3]|5[34]|6[01489]|7[02-46]|8[159])|4(?:1[36]|2[1-47]|3[15]|5[12]|6[0-26-9]|7[0-24-9]|8[013-57]|9[014-7])|5(?:1[025]|22|[36][25]|4[28]|[578]1|9[15])|674|7(?:(?:3[34]|5[15])[2-6]|61[346]|88[0-8])|8(?:70[2-6]|84[235-7]|91[3-7])|(?:1(?:29|60|8[06])|261|552|6(?:12|[2-47]1|5[17]|6[13]|80)|7(?:12|31)|8(?:16|2[014]|3[126]|6[136]|7[78]|83))[2-7]"; bs "1(?:2[0-24]|3[0-25]|4[145]|[59][14]|6[1-9]|7[1257]|8[1-57-9])|2(?:1[257]|3[013]|4[01]|5[0137]|6[058]|78|8[1568]|9[14])|3(?:26|4[1-3]|5[34]|6[01489]|7[02-46]|8[159])|4(?:1[36]|2[1-47]|3[15]|5[12]|6[0-26-9]|7[0-24-9]|8[013-57]|9[014-7])|5(?:1[025]|22|[36][25]|4[28]|[578]1|9[15])|6(?:12(?:[2-6]|7[0-8])|74[2-7])|7(?:3171|5[15][2-6]|61[346]|88(?:[2-7]|82))|8(?:70[2-6]|84(?:[2356]|7[19])|91(?:[3-6]|7[19]))|73[134][2-6]|8(?:16|2[014]|3[126]|6[136]|7[78]|83)(?:[2-6]|7[19])|(?:1(?:29|60|8[06])|261|552|6(?:[2-4]1|5[17]|6[13]|7(?:1|4[0189])|80)|7(?:12|88[01]))[2-7]"] (Some (bs "0$1")) (Some true) None;
    Build_nfmt (Some (bs "(\d{4})(\d{3})(\d{3})")) (Some (bs "$1 $2 $3")) [bs "1(?:[2-479]|5[0235-9])|[2-5]|6(?:1[1358]|2[2457-9]|3[2-5]|4[235-7]|5[2-689]|6[24578]|7[235689]|8[1-6])|7(?:1[013-9]|3[129]|5[29]|6[02-5]|70)|807"; bs "1(?:[2-479]|5[0235-9])|[2-5]|6(?:1[1358]|2(?:[2457]|84|95)|3(?:[2-4]|55)|4[235-7]|5[2-689]|6[24578]|7(?:[23569]|8[0-57-9])|8[1-6])|7(?:1(?:[013-8]|9[6-9])|3(?:17|2[0-49]|9[2-57])|5(?:2[1-3]|9[0-6])|6(?:0[5689]|2[5-9]|3[02-8]|4|5[0-367])|70[13-7])|807[19]"; bs "1(?:[2-479]|5(?:[0236-9]|5[013-9]))|[2-5]|6(?:2(?:84|95)|355|8(?:28[235-7]|3))|73179|807(?:1|9[1-3])|(?:1552|6(?:(?:1[1358]|2[2457]|3[2-4]|4[235-7]|5[2-689]|6[24578])\d|7(?:[23569]\d|8[0-57-9])|8(?:[14-6]\d|2[0-79]))|7(?:1(?:[013-8]\d|9[6-9])|3(?:2[0-49]|9[2-57])|5(?:2[1-3]|9[0-6])|6(?:0[5689]|2[5-9]|3[02-8]|4\d|5[0-367])|70[13-7]))[2-7]"] (Some (bs "0$1")) (Some true) None;
    Build_nfmt (Some (bs "(\d{5})(\d{5})")) (Some (bs "$1 $2")) [bs "16|[6-9]"] (Some (bs "0$1")) (Some true) None;
    Build_nfmt (Some (bs "(\d{4})(\d{2,4})(\d{4})")) (Some (bs "$1 $2 $3")) [bs "18[06]"; bs "18[06]0"] None (Some true) None;
    Build_nfmt (Some (bs "(\d{4})(\d{3})(\d{3})(\d{3})")) (Some (bs "$1 $2 $3 $4")) [bs "18"] None (Some true) None]
  None None (Some true).

Definition md_IO : meta := Eval vm_compute in Build_meta
  (Some (Build_desc (Some (bs "3\d{6}")) [(7)%Z] [] None))
  (Some (Build_desc (Some (bs "37\d{5}")) [] [] (Some (bs "3709100"))))
  (Some (Build_desc (Some (bs "38\d{5}")) [] [] (Some (bs "3801234"))))
  (Some (Build_desc None [(-1)%Z] [] None))
  (Some (Build_desc None [(-1)%Z] [] None))
  (Some (Build_desc None [(-1)%Z] [] None))
  (Some (Build_desc None [(-1)%Z] [] None))
  (Some (Build_desc None [(-1)%Z] [] None))
  (Some (Build_desc None [(-1)%Z] [] None))
  (Some (Build_desc None [(-1)%Z] [] None))
  None
  (Some (Build_desc None [(-1)%Z] [] None))
  None
  None
  None
  None
  (Some (Build_desc None [(-1)%Z] [] None))
  (Some (bs "IO")) (Some (246)%Z) (Some (bs "00")) None None
  None None None None
  [Build_nfmt (Some (bs "(\d{3})(\d{4})")) (Some (bs "$1 $2")) [bs "3"] None None None]
  []
  None None None.

Definition md_IQ : meta := Eval vm_compute in Build_meta
  (Some (Build_desc (Some (bs "(?:1|7\d\d)\d{7}|[2-6]\d{7,8}")) [(8)%Z; (9)%Z; (10)%Z] [(6)%Z; (7)%Z] None))
  (Some (Build_desc (Some (bs "1\d{7}|(?:2[13-5]|3[02367]|4[023]|5[03]|6[026])\d{6,7}")) [(8)%Z; (9)%Z] [(6)%Z; (7)%Z] (Some (bs "12345678"))))
  (Some (Build_desc (Some (bs "7[3-9]\d{8}")) [(10)%Z] [] (Some (bs "7912345678"))))
  (Some (Build_desc None [(-1)%Z] [] None))
  (Some (Build_desc None [(-1)%Z] [] None))
  (Some (Build_desc None [(-1)%Z] [] None))
  (Some (Build_desc None [(-1)%Z] [] None))
  (Some (Build_desc None [(-1)%Z] [] None))
  (Some (Build_desc None [(-1)%Z] [] None))
  (Some (Build_desc None [(-1)%Z] [] None))
  None
  (Some (Build_desc None [(-1)%Z] [] None))
  None
  None
  None
  None
  (Some (Build_desc None [(-1)%Z] [] None))
  (Some (bs "IQ")) (Some (964)%Z) (Some (bs "00")) None (Some (bs "0"))
  None (Some (bs "0")) None None
  [Build_nfmt (Some (bs "(\d)(\d{3})(\d{4})")) (Some (bs "$1 $2 $3")) [bs "1"] (Some (bs "0$1")) None None;
    Build_nfmt (Some (bs "(\d{2})(\d{3})(\d{3,4})")) (Some (bs "$1 $2 $3")) [bs "[2-6]"] (Some (bs "0$1")) None None;
    Build_nfmt (Some (bs "(\d{3})(\d{3})(\d{4})")) (Some (bs "$1 $2 $3")) [bs "7"] (Some (bs "0$1")) None None]
  []
  None None None.

Definition md_IR : meta := Eval vm_compute in Build_meta
  (Some (Build_desc (Some (bs "[1-9]\d{9}|(?:[1-8]\d\d|9)\d{3,4}")) [(4)%Z; (5)%Z; (6)%Z; (7)%Z; (10)%Z] [(8)%Z] None))
  (Some (Build_desc (Some (bs "(?:1[137]|2[13-68]|3[1458]|4[145]|5[1468]|6[16]|7[1467]|8[13467])(?:[03-57]\d{7}|[16]\d{3}(?:\d{4})?|[289]\d{3}(?:\d(?:\d{3})?)?)|94(?:000[09]|(?:12\d|30[0-2])\d|2(?:[02689]0\d|121)|4(?:111|40\d))\d{4}")) [(6)%Z; (7)%Z; (10)%Z] [(4)%Z; (5)%Z; (8)%Z] (Some (bs "2123456789"))))
  (Some (Build_desc (Some (bs "9(?:(?:0[0-5]|[13]\d|2[0-3])\d\d|9(?:[0-46]\d\d|5(?:10|5\d)|8(?:[12]\d|3[0-2]|88)|9(?:[01359]\d|21|69|77|8[7-9])))\d{5}")) [(10)%Z] [] (Some (bs "9123456789"))))
  (Some (Build_desc None [(-1)%Z] [] None))
  (Some (Build_desc None [(-1)%Z] [] None))
  (Some (Build_desc None [(-1)%Z] [] None))
  (Some (Build_desc None [(-1)%Z] [] None))
  (Some (Build_desc None [(-1)%Z] [] None))
  (Some (Build_desc None [(-1)%Z] [] None))
  (Some (Build_desc (Some (bs "96(?:0[12]|2[16-8]|3(?:08|[14]5|[23]|66)|4(?:0|80)|5[01]|6[89]|86|9[19])")) [(4)%Z; (5)%Z] [] (Some (bs "9601"))))
  None
  (Some (Build_desc None [(-1)%Z] [] None))
  None
  None
  None
  None
  (Some (Build_desc (Some (bs "9(?:4440\d{5}|6(?:0[12]|2[16-8]|3(?:08|[14]5|[23]|66)|4(?:0|80)|5[01]|6[89]|86|9[19]))")) [(4)%Z; (5)%Z; (10)%Z] [] None))
  (Some (bs "IR")) (Some (98)%Z) (Some (bs "00")) None (Some (bs "0"))
  None (Some (bs "0")) None None
  [Build_nfmt (Some (bs "(\d{4,5})")) (Some (bs "$1")) [bs "96"] (Some (bs "0$1")) None None;
    Build_nfmt (Some (bs "(\d{2})(\d{4,5})")) (Some (bs "$1 $2")) [bs "(?:1[137]|2[13-68]|3[1458]|4[145]|5[1468]|6[16]|7[1467]|8[13467])[12689]"] (Some (bs "0$1")) None None;
    Build_nfmt (Some (bs "(\d{3})(\d{3})(\d{3,4})")) (Some (bs "$1 $2 $3")) [bs "9"] (Some (bs "0$1")) None None;
    Build_nfmt (Some (bs "(\d{2})(\d{4})(\d{4})")) (Some (bs "$1 $2 $3")) [bs "[1-8]"] (Some (bs "0$1")) None None]
  []
  None None (Some true).

Definition md_IS : meta := Eval vm_compute in Build_meta
  (Some (Build_desc (Some (bs "(?:38\d|[4-9])\d{6}")) [(7)%Z; (9)%Z] [] None))
  (Some (Build_desc (Some (bs "(?:4(?:1[0-24-69]|2[0-7]|[37][0-8]|4[0-24589]|5[0-68]|6\d|8[0-36-8])|5(?:05|[156]\d|2[02578]|3[0-579]|4[03-7]|7[0-2578]|8[0-35-9]|9[013-689])|872)\d{4}")) [(7)%Z] [] (Some (bs "4101234"))))
  (Some (Build_desc (Some (bs "(?:38[589]\d\d|6(?:1[1-8]|2[0-6]|3[026-9]|4[014679]|5[0159]|6[0-69]|70|8[06-8]|9\d)|7(?:5[057]|[6-9]\d)|8(?:2[0-59]|[3-69]\d|8[238]))\d{4}")) [] [] (Some (bs "6111234"))))
  (Some (Build_desc (Some (bs "80[0-8]\d{4}")) [(7)%Z] [] (Some (bs "8001234"))))
  (Some (Build_desc (Some (bs "90(?:0\d|1[5-79]|2[015-79]|3[135-79]|4[125-7]|5[25-79]|7[1-37]|8[0-35-7])\d{3}")) [(7)%Z] [] (Some (bs "9001234"))))
  (Some (Build_desc None [(-1)%Z] [] None))
  (Some (Build_desc None [(-1)%Z] [] None))
  (Some (Build_desc (Some (bs "49[0-24-79]\d{4}")) [(7)%Z] [] (Some (bs "4921234"))))
  (Some (Build_desc None [(-1)%Z] [] None))
  (Some (Build_desc (Some (bs "809\d{4}")) [(7)%Z] [] (Some (bs "8091234"))))
  None
  (Some (Build_desc (Some (bs "(?:689|8(?:7[18]|80)|95[48])\d{4}")) [(7)%Z] [] (Some (bs "6891234"))))
  None
  None
  None
  None
  (Some (Build_desc None [(-1)%Z] [] None))
  (Some (bs "IS")) (Some (354)%Z) (Some (bs "00|1(?:0(?:01|[12]0)|100)")) (Some (bs "00")) None
  None None None None
  [Build_nfmt (Some (bs "(\d{3})(\d{4})")) (Some (bs "$1 $2")) [bs "[4-9]"] None None None;
    Build_nfmt (Some (bs "(\d{3})(\d{3})(\d{3})")) (Some (bs "$1 $2 $3")) [bs "3"] None None None]
  []
  None None (Some true).

Definition md_IT : meta := Eval vm_compute in Build_meta
  (Some (Build_desc (Some (bs "0\d{5,11}|1\d{8,10}|3(?:[0-8]\d{7,10}|9\d{7,8})|(?:43|55|70)\d{8}|8\d{5}(?:\d{2,4})?")) [(6)%Z; (7)%Z; (8)%Z; (9)%Z; (10)%Z; (11)%Z; (12)%Z] [] None))
  (Some (Build_desc (Some (bs "0(?:669[0-79]\d{1,6}|831\d{2,8})|0(?:1(?:[0159]\d|[27][1-5]|31|4[1-4]|6[1356]|8[2-57])|2\d\d|3(?:[0159]\d|2[1-4]|3[12]|[48][1-6]|6[2-59]|7[1-7])|4(?:[0159]\d|[23][1-9]|4[245]|6[1-5]|7[1-4]|81)|5(?:[0159]\d|2[1-5]|3[2-6]|4[1-79]|6[4-6]|7[1-578]|8[3-8])|6(?:[0-57-9]\d|6[0-8])|7(?:[0159]\d|2[12]|3[1-7]|4[2-46]|6[13569]|7[13-6]|8[1-59])|8(?:[0159]\d|2[3-578]|3[2356]|[6-8][1-5])|9(?:[0159]\d|[238][1-5]|4[12]|6[1-8]|7[1-6]))\d{2,7}")) [] [] (Some (bs "0212345678"))))
  (Some (Build_desc (Some (bs "3[2-9]\d{7,8}|(?:31|43)\d{8}")) [(9)%Z; (10)%Z] [] (Some (bs "3123456789"))))
  (Some (Build_desc (Some (bs "80(?:0\d{3}|3)\d{3}")) [(6)%Z; (9)%Z] [] (Some (bs "800123456"))))
  (Some (Build_desc (Some (bs "(?:0878\d{3}|89(?:2\d|3[04]|4(?:[0-4]|[5-9]\d\d)|5[0-4]))\d\d|(?:1(?:44|6[346])|89(?:38|5[5-9]|9))\d{6}")) [(6)%Z; (8)%Z; (9)%Z; (10)%Z] [] (Some (bs "899123456"))))
  (Some (Build_desc (Some (bs "84(?:[08]\d{3}|[17])\d{3}")) [(6)%Z; (9)%Z] [] (Some (bs "848123456"))))
  (Some (Build_desc (Some (bs "1(?:78\d|99)\d{6}")) [(9)%Z; (10)%Z] [] (Some (bs "1781234567"))))
  (Some (Build_desc (Some (bs "55\d{8}")) [(10)%Z] [] (Some (bs "5512345678"))))
  (Some (Build_desc None [(-1)%Z] [] None))
  (Some (Build_desc None [(-1)%Z] [] None))
  None
  (Some (Build_desc (Some (bs "3[2-8]\d{9,10}")) [(11)%Z; (12)%Z] [] (Some (bs "33101234501"))))
  None
  None
  None
  None
  (Some (Build_desc (Some (bs "848\d{6}")) [(9)%Z] [] None))
  (Some (bs "IT")) (Some (39)%Z) (Some (bs "00")) None None
  None None None None
  [Build_nfmt (Some (bs "(\d{4,5})")) (Some (bs "$1")) [bs "1(?:0|9[246])"; bs "1(?:0|9(?:2[2-9]|[46]))"] None None None;
    Build_nfmt (Some (bs "(\d{6})")) (Some (bs "$1")) [bs "1(?:1|92)"] None None None;
    Build_nfmt (Some (bs "(\d{2})(\d{4,6})")) (Some (bs "$1 $2")) [bs "0[26]"] None None None;
    Build_nfmt (Some (bs "(\d{3})(\d{3,6})")) (Some (bs "$1 $2")) [bs "0[13-57-9][0159]|8(?:03|4[17]|9[2-5])"; bs "0[13-57-9][0159]|8(?:03|4[17]|9(?:2|3[04]|[45][0-4]))"] None None None;
    Build_nfmt (Some (bs "(\d{4})(\d{2,6})")) (Some (bs "$1 $2")) [bs "0(?:[13-579][2-46-8]|8[236-8])"] None None None;
    Build_nfmt (Some (bs "(\d{4})(\d{4})")) (Some (bs "$1 $2")) [bs "894"] None None None;
    Build_nfmt (Some (bs "(\d{2})(\d{3,4})(\d{4})")) (Some (bs "$1 $2 $3")) [bs "0[26]|5"] None None None;
    Build_nfmt (Some (bs "(\d{3})(\d{3})(\d{3,4})")) (Some (bs "$1 $2 $3")) [bs "1(?:44|[679])|[378]|43"] None None None;
    Build_nfmt (Some (bs "(\d{3})(\d{3,4})(\d{4})")) (Some (bs "$1 $2 $3")) [bs "0[13-57-9][0159]|14"] None None None;
    Build_nfmt (Some (bs "(\d{2})(\d{4})(\d{5})")) (Some (bs "$1 $2 $3")) [bs "0[26]"] None None None;
    Build_nfmt (Some (bs "(\d{4})(\d{3})(\d{4})")) (Some (bs "$1 $2 $3")) [bs "0"] None None None;
    Build_nfmt (Some (bs "(\d{3})(\d{4})(\d{4,5})")) (Some (bs "$1 $2 $3")) [bs "[03]"] None None None]
  [Build_nfmt (Some (bs "(\d{2})(\d{4,6})")) (Some (bs "$1 $2")) [bs "0[26]"] None None None;
    Build_nfmt (Some (bs "(\d{3})(\d{3,6})")) (Some (bs "$1 $2")) [bs "0[13-57-9][0159]|8(?:03|4[17]|9[2-5])"; bs "0[13-57-9][0159]|8(?:03|4[17]|9(?:2|3[04]|[45][0-4]))"] None None None;
    Build_nfmt (Some (bs "(\d{4})(\d{2,6})")) (Some (bs "$1 $2")) [bs "0(?:[13-579][2-46-8]|8[236-8])"] None None None;
    Build_nfmt (Some (bs "(\d{4})(\d{4})")) (Some (bs "$1 $2")) [bs "894"] None None None;
    Build_nfmt (Some (bs "(\d{2})(\d{3,4})(\d{4})")) (Some (bs "$1 $2 $3")) [bs "0[26]|5"] None None None;
    Build_nfmt (Some (bs "(\d{3})(\d{3})(\d{3,4})")) (Some (bs "$1 $2 $3")) [bs "1(?:44|[679])|[378]|43"] None None None;
    Build_nfmt (Some (bs "(\d{3})(\d{3,4})(\d{4})")) (Some (bs "$1 $2 $3")) [bs "0[13-57-9][0159]|14"] None None None;
    Build_nfmt (Some (bs "(\d{2})(\d{4})(\d{5})")) (Some (bs "$1 $2 $3")) [bs "0[26]"] None None None;
    Build_nfmt (Some (bs "(\d{4})(\d{3})(\d{4})")) (Some (bs "$1 $2 $3")) [bs "0"] None None None;
    Build_nfmt (Some (bs "(\d{3})(\d{4})(\d{4,5})")) (Some (bs "$1 $2 $3")) [bs "[03]"] None None None]
  (Some true) None (Some true).

Definition md_JE : meta := Eval vm_compute in Build_meta
  (Some (Build_desc (Some (bs "1534\d{6}|(?:[3578]\d|90)\d{8}")) [(10)%Z] [(6)%Z] None))
  (Some (Build_desc (Some (bs "1534[0-24-8]\d{5}")) [] [(6)%Z] (Some (bs "1534456789"))))
  (Some (Build_desc (Some (bs "7(?:(?:(?:50|82)9|937)\d|7(?:00[378]|97\d))\d{5}")) [] [] (Some (bs "7797712345"))))
  (Some (Build_desc (Some (bs "80(?:07(?:35|81)|8901)\d{4}")) [] [] (Some (bs "8007354567"))))
  (Some (Build_desc (Some (bs "(?:8(?:4(?:4(?:4(?:05|42|69)|703)|5(?:041|800))|7(?:0002|1206))|90(?:066[59]|1810|71(?:07|55)))\d{4}")) [] [] (Some (bs "9018105678"))))
  (Some (Build_desc None [(-1)%Z] [] None))
  (Some (Build_desc (Some (bs "701511\d{4}")) [] [] (Some (bs "7015115678"))))
  (Some (Build_desc (Some (bs "56\d{8}")) [] [] (Some (bs "5612345678"))))
  (Some (Build_desc (Some (bs "76(?:464|652)\d{5}|76(?:0[0-28]|2[356]|34|4[01347]|5[49]|6[0-369]|77|8[14]|9[139])\d{6}")) [] [] (Some (bs "7640123456"))))
  (Some (Build_desc (Some (bs "(?:3(?:0(?:07(?:35|81)|8901)|3\d{4}|4(?:4(?:4(?:05|42|69)|703)|5(?:041|800))|7(?:0002|1206))|55\d{4})\d{4}")) [] [] (Some (bs "5512345678"))))
  None
  (Some (Build_desc None [(-1)%Z] [] None))
  None
  None
  None
  None
  (Some (Build_desc None [(-1)%Z] [] None))
  (Some (bs "JE")) (Some (44)%Z) (Some (bs "00")) None (Some (bs "0"))
  None (Some (bs "([0-24-8]\d{5})$|0|180020")) (Some (bs "1534$1")) None
  []
  []
  None None None.

Definition md_JM : meta := Eval vm_compute in Build_meta
  (Some (Build_desc (Some (bs "(?:[58]\d\d|658|900)\d{7}")) [(10)%Z] [(7)%Z] None))
  (Some (Build_desc (Some (bs "8766060\d{3}|(?:658(?:2(?:[5-8]\d|9[0-46-9])|[3-9]\d\d)|876(?:52[35]|6(?:0[1-3579]|1[0235-9]|[23]\d|40|5[06]|6[2-589]|7[0-25-9]|8[04]|9[4-9])|7(?:0[2-689]|[1-6]\d|8[056]|9[45])|9(?:0[1-8]|1[02378]|[2-8]\d|9[2-468])))\d{4}")) [] [(7)%Z] (Some (bs "8765230123"))))
  (Some (Build_desc (Some (bs "(?:6582(?:[0-4]\d|95)|876(?:2(?:0[1-9]|[13-9]\d|2[013-9])|[348]\d\d|5(?:0[1-9]|[1-9]\d)|6(?:4[89]|6[67])|7(?:0[07]|7\d|8[1-47-9]|9[0-36-9])|9(?:[01]9|9[0579])))\d{4}")) [] [(7)%Z] (Some (bs "8762101234"))))
  (Some (Build_desc (Some (bs "8(?:00|33|44|55|66|77|88)[2-9]\d{6}")) [] [] (Some (bs "8002123456"))))
  (Some (Build_desc (Some (bs "900[2-9]\d{6}")) [] [] (Some (bs "9002123456"))))
  (Some (Build_desc None [(-1)%Z] [] None))
  (Some (Build_desc (Some (bs "52(?:3(?:[2-46-9][02-9]\d|5(?:[02-46-9]\d|5[0-46-9]))|4(?:[2-478][02-9]\d|5(?:[034]\d|2[024-9]|5[0-46-9])|6(?:0[1-9]|[2-9]\d)|9(?:[05-9]\d|2[0-5]|49)))\d{4}|52[34][2-9]1[02-9]\d{4}|5(?:00|2[125-9]|3[23]|44|66|77|88)[2-9]\d{6}")) [] [] (Some (bs "5002345678"))))
  (Some (Build_desc None [(-1)%Z] [] None))
  (Some (Build_desc None [(-1)%Z] [] None))
  (Some (Build_desc None [(-1)%Z] [] None))
  None
  (Some (Build_desc None [(-1)%Z] [] None))
  None
  None
  None
  None
  (Some (Build_desc None [(-1)%Z] [] None))
  (Some (bs "JM")) (Some (1)%Z) (Some (bs "011")) None (Some (bs "1"))
  None (Some (bs "1")) None None
  []
  []
  None (Some (bs "658|876")) (Some true).

Definition md_JO : meta := Eval vm_compute in Build_meta
  (Some (Build_desc (Some (bs "(?:(?:[2689]|7\d)\d|32|427|53)\d{6}")) [(8)%Z; (9)%Z] [] None))
  (Some (Build_desc (Some (bs "87(?:000|90[01])\d{3}|(?:2(?:6(?:2[0-35-9]|3[0-578]|4[24-7]|5[0-24-8]|[6-8][023]|9[0-3])|7(?:0[1-79]|10|2[014-7]|3[0-689]|4[019]|5[0-3578]))|32(?:0[1-69]|1[1-35-7]|2[024-7]|3\d|4[0-3]|[5-7][023])|53(?:0[0-3]|[13][023]|2[0-59]|49|5[0-35-9]|6[15]|7[45]|8[1-6]|9[0-36-9])|6(?:2(?:[05]0|22)|3(?:00|33)|4(?:0[0-25]|1[2-7]|2[0569]|[38][07-9]|4[025689]|6[0-589]|7\d|9[0-2])|5(?:[01][056]|2[034]|3[0-57-9]|4[178]|5[0-69]|6[0-35-9]|7[1-379]|8[0-68]|9[0239]))|87(?:20|7[078]|99))\d{4}")) [(8)%Z] [] (Some (bs "62001234"))))
  (Some (Build_desc (Some (bs "(?:427|7(?:[78][0-25-9]|9\d))\d{6}")) [(9)%Z] [] (Some (bs "790123456"))))
  (Some (Build_desc (Some (bs "80\d{6}")) [(8)%Z] [] (Some (bs "80012345"))))
  (Some (Build_desc (Some (bs "9\d{7}")) [(8)%Z] [] (Some (bs "90012345"))))
  (Some (Build_desc (Some (bs "85\d{6}")) [(8)%Z] [] (Some (bs "85012345"))))
  (Some (Build_desc (Some (bs "70\d{7}")) [(9)%Z] [] (Some (bs "700123456"))))
  (Some (Build_desc None [(-1)%Z] [] None))
  (Some (Build_desc (Some (bs "74(?:66|77)\d{5}")) [(9)%Z] [] (Some (bs "746612345"))))
  (Some (Build_desc (Some (bs "8(?:10|8\d)\d{5}")) [(8)%Z] [] (Some (bs "88101234"))))
  None
  (Some (Build_desc None [(-1)%Z] [] None))
  None
  None
  None
  None
  (Some (Build_desc None [(-1)%Z] [] None))
  (Some (bs "JO")) (Some (962)%Z) (Some (bs "00")) None (Some (bs "0"))
  None (Some (bs "0")) None None
  [Build_nfmt (Some (bs "(\d)(\d{3})(\d{4})")) (Some (bs "$1 $2 $3")) [bs "[2356]|87"] (Some (bs "(0$1)")) None None;
    Build_nfmt (Some (bs "(\d{3})(\d{5,6})")) (Some (bs "$1 $2")) [bs "[89]"] (Some (bs "0$1")) None None;
    Build_nfmt (Some (bs "(\d{2})(\d{7})")) (Some (bs "$1 $2")) [bs "70"] (Some (bs "0$1")) None None;
    Build_nfmt (Some (bs "(\d)(\d{4})(\d{4})")) (Some (bs "$1 $2 $3")) [bs "[47]"] (Some (bs "0$1")) None None]
  []
  None None (Some true).

Definition md_JP : meta := Eval vm_compute in Build_meta
  (Some (Build_desc (Some (bs "00[1-9]\d{6,14}|[25-9]\d{9}|(?:00|[1-9]\d\d)\d{6}")) [(8)%Z; (9)%Z; (10)%Z; (11)%Z; (12)%Z; (13)%Z; (14)%Z; (15)%Z; (16)%Z; (17)%Z] [] None))
  (Some (Build_desc (Some (bs "(?:1(?:1[235-8]|2[3-6]|3[3-9]|4[2-6]|[58][2-8]|6[2-7]|7[2-9]|9[1-9])|(?:2[2-9]|[36][1-9])\d|4(?:[2-578]\d|6[02-8]|9[2-59])|5(?:[2-589]\d|6[1-9]|7[2-8])|7(?:[25-9]\d|3[4-9]|4[02-9])|8(?:[2679]\d|3[2-9]|4[5-9]|5[1-9]|8[03-9])|9(?:[2-58]\d|[679][1-9]))\d{6}")) [(9)%Z] [] (Some (bs "312345678"))))
  (Some (Build_desc (Some (bs "[6-9]0[1-9]\d{7}")) [(10)%Z] [] (Some (bs "9012345678"))))
  (Some (Build_desc (Some (bs "00777(?:[01]|5\d)\d\d|(?:00(?:7778|882[1245])|(?:120|800\d)\d\d)\d{4}|00(?:37|66|78)\d{6,13}")) [] [] (Some (bs "120123456"))))
  (Some (Build_desc (Some (bs "990\d{6}")) [(9)%Z] [] (Some (bs "990123456"))))
  (Some (Build_desc None [(-1)%Z] [] None))
  (Some (Build_desc (Some (bs "60\d{7}")) [(9)%Z] [] (Some (bs "601234567"))))
  (Some (Build_desc (Some (bs "50[1-9]\d{7}")) [(10)%Z] [] (Some (bs "5012345678"))))
  (Some (Build_desc (Some (bs "20\d{8}")) [(10)%Z] [] (Some (bs "2012345678"))))
  (Some (Build_desc (Some (bs "570\d{6}")) [(9)%Z] [] (Some (bs "570123456"))))
  None
  (Some (Build_desc None [(-1)%Z] [] None))
  None
  None
  None
  None
  (Some (Build_desc (Some (bs "00(?:777(?:[01]|(?:5|8\d)\d)|882[1245]\d\d)\d\d|00(?:37|66|78)\d{6,13}")) [] [] None))
  (Some (bs "JP")) (Some (81)%Z) (Some (bs "010")) None (Some (bs "0"))
  None (Some (bs "(000[2569]\d{4,6})$|(?:(?:003768)0?)|0")) (Some (bs "$1")) None
  [Build_nfmt (Some (bs "(\d{4})(\d{4})")) (Some (bs "$1-$2")) [bs "007"; bs "0077"; bs "00777"; bs "00777[01]"] None None None;
    Build_nfmt (Some (bs "(\d{8,10})")) (Some (bs "$1")) [bs "000"] None None None;
    Build_nfmt (Some (bs "(\d{3})(\d{3})(\d{3})")) (Some (bs "$1-$2-$3")) [bs "(?:12|57|99)0"] (Some (bs "0$1")) None None;
    Build_nfmt (Some (bs "(\d{4})(\d)(\d{4})")) (Some (bs "$1-$2-$3")) [bs "1(?:26|3[79]|4[56]|5[4-68]|6[3-5])|499|5(?:76|97)|746|8(?:3[89]|47|51)|9(?:80|9[16])"; bs "1(?:267|3(?:7[247]|9[278])|466|5(?:47|58|64)|6(?:3[245]|48|5[4-68]))|499[2468]|5(?:76|97)9|7468|8(?:3(?:8[7-9]|96)|477|51[2-9])|9(?:802|9(?:1[23]|69))|1(?:45|58)[67]"; bs "1(?:267|3(?:7[247]|9[278])|466|5(?:47|58|64)|6(?:3[245]|48|5[4-68]))|499[2468]|5(?:769|979[2-69])|7468|8(?:3(?:8[7-9]|96[2457-9])|477|51[2-9])|9(?:802|9(?:1[23]|69))|1(?:45|58)[67]"] (Some (bs "0$1")) None None;
    Build_nfmt (Some (bs "(\d{2})(\d{3})(\d{4})")) (Some (bs "$1-$2-$3")) [bs "60"] (Some (bs "0$1")) None None;
    Build_nfmt (Some (bs "(\d)(\d{4})(\d{4})")) (Some (bs "$1-$2-$3")) [bs "3|4(?:2[09]|7[01])|6[1-9]"; bs "3|4(?:2(?:0|9[02-69])|7(?:0[019]|1))|6[1-9]"] (Some (bs "0$1")) None None;
    Build_nfmt (Some (bs "(\d{2})(\d{3})(\d{4})")) (Some (bs "$1-$2-$3")) [bs "1(?:1|5[45]|77|88|9[69])|2(?:2[1-37]|3[0-269]|4[59]|5|6[24]|7[1-358]|8[1369]|9[0-38])|4(?:[28][1-9]|3[0-57]|[45]|6[248]|7[2-579]|9[29])|5(?:2|3[0459]|4[0-369]|5[29]|8[02389]|9[0-389])|7(?:2[02-46-9]|34|[58]|6[0249]|7[57]|9[2-6])|8(?:2[124589]|3[26-9]|49|51|6|7[0-468]|8[68]|9[019])|9(?:[23][1-9]|4[15]|5[138]|6[1-3]|7[156]|8[189]|9[1-489])"; bs "1(?:1|5(?:4[018]|5[017])|77|88|9[69])|2(?:2(?:[127]|3[014-9])|3[0-269]|4[59]|5(?:[1-3]|5[0-69]|9[19])|62|7(?:[1-35]|8[0189])|8(?:[16]|3[0134]|9[0-5])|9(?:[028]|17))|4(?:2(?:[13-79]|8[014-6])|3[0-57]|[45]|6[248]|7[2-47]|8[1-9]|9[29])|5(?:2|3(?:[045]|9[0-8])|4[0-369]|5[29]|8[02389]|9[0-3])|7(?:2[02-46-9]|34|[58]|6[0249]|7[57]|9(?:[23]|4[0-59]|5[01569]|6[0167]))|8(?:2(?:[1258]|4[0-39]|9[0-2469])|3(?:[29]|60)|49|51|6(?:[0-24]|36|5[0-3589]|7[23]|9[01459])|7[0-468]|8[68])|9(?:[23][1-9]|4[15]|5[138]|6[1-3]|7[156]|8[189]|9(?:[1289]|3[34]|4[0178]))|(?:264|837)[016-9]|2(?:57|93)[015-9]|(?:25[0468]|422|838)[01]|(?:47[59]|59[89]|8(?:6[68]|9))[019]"; bs "1(?:1|5(?:4[018]|5[017])|77|88|9[69])|2(?:2[127]|3[0-269]|4[59]|5(?:[1-3]|5[0-69]|9(?:17|99))|6(?:2|4[016-9])|7(?:[1-35]|8[0189])|8(?:[16]|3[0134]|9[0-5])|9(?:[028]|17))|4(?:2(?:[13-79]|8[014-6])|3[0-57]|[45]|6[248]|7[2-47]|9[29])|5(?:2|3(?:[045]|9(?:[0-58]|6[4-9]|7[0-35689]))|4[0-369]|5[29]|8[02389]|9[0-3])|7(?:2[02-46-9]|34|[58]|6[0249]|7[57]|9(?:[23]|4[0-59]|5[01569]|6[0167]))|8(?:2(?:[1258]|4[0-39]|9[0169])|3(?:[29]|60|7(?:[017-9]|6[6-8]))|49|51|6(?:[0-24]|36[2-57-9]|5(?:[0-389]|5[23])|6(?:[01]|9[178])|7(?:2[2-468]|3[78])|9[0145])|7[0-468]|8[68])|9(?:4[15]|5[138]|7[156]|8[189]|9(?:[1289]|3(?:31|4[357])|4[0178]))|(?:8294|96)[1-3]|2(?:57|93)[015-9]|(?:223|8699)[014-9]|(?:25[0468]|422|838)[01]|(?:48|8292|9[23])[1-9]|(?:47[59]|59[89]|8(?:68|9))[019]"] (Some (bs "0$1")) None None;
    Build_nfmt (Some (bs "(\d{3})(\d{2})(\d{4})")) (Some (bs "$1-$2-$3")) [bs "[14]|[289][2-9]|5[3-9]|7[2-4679]"] (Some (bs "0$1")) None None;
    Build_nfmt (Some (bs "(\d{4})(\d{2})(\d{3,4})")) (Some (bs "$1-$2-$3")) [bs "007"; bs "0077"] None None None;
    Build_nfmt (Some (bs "(\d{4})(\d{2})(\d{4})")) (Some (bs "$1-$2-$3")) [bs "008"] None None None;
    Build_nfmt (Some (bs "(\d{3})(\d{3})(\d{4})")) (Some (bs "$1-$2-$3")) [bs "800"] (Some (bs "0$1")) None None;
    Build_nfmt (Some (bs "(\d{2})(\d{4})(\d{4})")) (Some (bs "$1-$2-$3")) [bs "[25-9]"] (Some (bs "0$1")) None None;
    Build_nfmt (Some (bs "(\d{4})(\d{3})(\d{3,4})")) (Some (bs "$1-$2-$3")) [bs "0"] None None None;
    Build_nfmt (Some (bs "(\d{4})(\d{4})(\d{4,5})")) (Some (bs "$1-$2-$3")) [bs "0"] None None None;
    Build_nfmt (Some (bs "(\d{4})(\d{5})(\d{5,6})")) (Some (bs "$1-$2-$3")) [bs "0"] None None None;
    Build_nfmt (Some (bs "(\d{4})(\d{6})(\d{6,7})")) (Some (bs "$1-$2-$3")) [bs "0"] None None None]
  [Build_nfmt (Some (bs "(\d{3})(\d{3})(\d{3})")) (Some (bs "$1-$2-$3")) [bs "(?:12|57|99)0"] (Some (bs "0$1")) None None;
    Build_nfmt (Some (bs "(\d{4})(\d)(\d{4})")) (Some (bs "$1-$2-$3")) [bs "1(?:26|3[79]|4[56]|5[4-68]|6[3-5])|499|5(?:76|97)|746|8(?:3[89]|47|51)|9(?:80|9[16])"; bs "1(?:267|3(?:7[247]|9[278])|466|5(?:47|58|64)|6(?:3[245]|48|5[4-68]))|499[2468]|5(?:76|97)9|7468|8(?:3(?:8[7-9]|96)|477|51[2-9])|9(?:802|9(?:1[23]|69))|1(?:45|58)[67]"; bs "1(?:267|3(?:7[247]|9[278])|466|5(?:47|58|64)|6(?:3[245]|48|5[4-68]))|499[2468]|5(?:769|979[2-69])|7468|8(?:3(?:8[7-9]|96[2457-9])|477|51[2-9])|9(?:802|9(?:1[23]|69))|1(?:45|58)[67]"] (Some (bs "0$1")) None None;
    Build_nfmt (Some (bs "(\d{2})(\d{3})(\d{4})")) (Some (bs "$1-$2-$3")) [bs "60"] (Some (bs "0$1")) None None;
    Build_nfmt (Some (bs "(\d)(\d{4})(\d{4})")) (Some (bs "$1-$2-$3")) [bs "3|4(?:2[09]|7[01])|6[1-9]"; bs "3|4(?:2(?:0|9[02-69])|7(?:0[019]|1))|6[1-9]"] (Some (bs "0$1")) None None;
    Build_nfmt (Some (bs "(\d{2})(\d{3})(\d{4})")) (Some (bs "$1-$2-$3")) [bs "1(?:1|5[45]|77|88|9[69])|2(?:2[1-37]|3[0-269]|4[59]|5|6[24]|7[1-358]|8[1369]|9[0-38])|4(?:[28][1-9]|3[0-57]|[45]|6[248]|7[2-579]|9[29])|5(?:2|3[0459]|4[0-369]|5[29]|8[02389]|9[0-389])|7(?:2[02-46-9]|34|[58]|6[0249]|7[57]|9[2-6])|8(?:2[124589]|3[26-9]|49|51|6|7[0-468]|8[68]|9[019])|9(?:[23][1-9]|4[15]|5[138]|6[1-3]|7[156]|8[189]|9[1-489])"; bs "1(?:1|5(?:4[018]|5[017])|77|88|9[69])|2(?:2(?:[127]|3[014-9])|3[0-269]|4[59]|5(?:[1-3]|5[0-69]|9[19])|62|7(?:[1-35]|8[0189])|8(?:[16]|3[0134]|9[0-5])|9(?:[028]|17))|4(?:2(?:[13-79]|8[014-6])|3[0-57]|[45]|6[248]|7[2-47]|8[1-9]|9[29])|5(?:2|3(?:[045]|9[0-8])|4[0-369]|5[29]|8[02389]|9[0-3])|7(?:2[02-46-9]|34|[58]|6[0249]|7[57]|9(?:[23]|4[0-59]|5[01569]|6[0167]))|8(?:2(?:[1258]|4[0-39]|9[0-2469])|3(?:[29]|60)|49|51|6(?:[0-24]|36|5[0-3589]|7[23]|9[01459])|7[0-468]|8[68])|9(?:[23][1-9]|4[15]|5[138]|6[1-3]|7[156]|8[189]|9(?:[1289]|3[34]|4[0178]))|(?:264|837)[016-9]|2(?:57|93)[015-9]|(?:25[0468]|422|838)[01]|(?:47[59]|59[89]|8(?:6[68]|9))[019]"; bs "1(?:1|5(?:4[018]|5[017])|77|88|9[69])|2(?:2[127]|3[0-269]|4[59]|5(?:[1-3]|5[0-69]|9(?:17|99))|6(?:2|4[016-9])|7(?:[1-35]|8[0189])|8(?:[16]|3[0134]|9[0-5])|9(?:[028]|17))|4(?:2(?:[13-79]|8[014-6])|3[0-57]|[45]|6[248]|7[2-47]|9[29])|5(?:2|3(?:[045]|9(?:[0-58]|6[4-9]|7[0-35689]))|4[0-369]|5[29]|8[02389]|9[0-3])|7(?:2[02-46-9]|34|[58]|6[0249]|7[57]|9(?:[23]|4[0-59]|5[01569]|6[0167]))|8(?:2(?:[1258]|4[0-39]|9[0169])|3(?:[29]|60|7(?:[017-9]|6[6-8]))|49|51|6(?:[0-24]|36[2-57-9]|5(?:[0-389]|5[23])|6(?:[01]|9[178])|7(?:2[2-468]|3[78])|9[0145])|7[0-468]|8[68])|9(?:4[15]|5[138]|7[156]|8[189]|9(?:[1289]|3(?:31|4[357])|4[0178]))|(?:8294|96)[1-3]|2(?:57|93)[015-9]|(?:223|8699)[014-9]|(?:25[0468]|422|838)[01]|(?:48|8292|9[23])[1-9]|(?:47[59]|59[89]|8(?:68|9))[019]"] (Some (bs "0$1")) None None;
    Build_nfmt (Some (bs "(\d{3})(\d{2})(\d{4})")) (Some (bs "$1-$2-$3")) [bs "[14]|[289][2-9]|5[3-9]|7[2-4679]"] (Some (bs "0$1")) None None;
    Build_nfmt (Some (bs "(\d{3})(\d{3})(\d{4})")) (Some (bs "$1-$2-$3")) [bs "800"] (Some (bs "0$1")) None None;
    Build_nfmt (Some (bs "(\d{2})(\d{4})(\d{4})")) (Some (bs "$1-$2-$3")) [bs "[25-9]"] (Some (bs "0$1")) None None]
  None None (Some true).

Definition md_KE : meta := Eval vm_compute in Build_meta
  (Some (Build_desc (Some (bs "(?:[17]\d\d|900)\d{6}|(?:2|80)0\d{6,7}|[4-6]\d{6,8}")) [(7)%Z; (8)%Z; (9)%Z; (10)%Z] [] None))
  (Some (Build_desc (Some (bs "(?:4[245]|5[1-79]|6[01457-9])\d{5,7}|(?:4[136]|5[08]|62)\d{7}|(?:[24]0|66)\d{6,7}")) [(7)%Z; (8)%Z; (9)%Z] [] (Some (bs "202012345"))))
  (Some (Build_desc (Some (bs "(?:1(?:0[0-8]|[18]\d|2[014]|30|4[0-5])|7\d\d)\d{6}")) [(9)%Z] [] (Some (bs "712123456"))))
  (Some (Build_desc (Some (bs "800[02-8]\d{5,6}")) [(9)%Z; (10)%Z] [] (Some (bs "800223456"))))
  (Some (Build_desc (Some (bs "900[02-9]\d{5}")) [(9)%Z] [] (Some (bs "900223456"))))
  (Some (Build_desc None [(-1)%Z] [] None))
  (Some (Build_desc None [(-1)%Z] [] None))
  (Some (Build_desc None [(-1)%Z] [] None))
  (Some (Build_desc None [(-1)%Z] [] None))
  (Some (Build_desc None [(-1)%Z] [] None))
  None
  (Some (Build_desc None [(-1)%Z] [] None))
  None
  None
  None
  None
  (Some (Build_desc None [(-1)%Z] [] None))
  (Some (bs "KE")) (Some (254)%Z) (Some (bs "000")) None (Some (bs "0"))
  None (Some (bs "0")) None None
  [Build_nfmt (Some (bs "(\d{2})(\d{5,7})")) (Some (bs "$1 $2")) [bs "[24-6]"] (Some (bs "0$1")) None None;
    Build_nfmt (Some (bs "(\d{3})(\d{6})")) (Some (bs "$1 $2")) [bs "[17]"] (Some (bs "0$1")) None None;
    Build_nfmt (Some (bs "(\d{3})(\d{3})(\d{3,4})")) (Some (bs "$1 $2 $3")) [bs "[89]"] (Some (bs "0$1")) None None]
  []
  None None (Some true).

Definition md_KG : meta := Eval vm_compute in Build_meta
  (Some (Build_desc (Some (bs "8\d{9}|[235-9]\d{8}")) [(9)%Z; (10)%Z] [(5)%Z; (6)%Z] None))
  (Some (Build_desc (Some (bs "312(?:5[0-79]\d|9(?:[0-689]\d|7[0-24-9]))\d{3}|(?:3(?:1(?:2[0-46-8]|3[1-9]|47|[56]\d)|2(?:22|3[0-479]|6[0-7])|4(?:22|5[6-9]|6\d)|5(?:22|3[4-7]|59|6\d)|6(?:22|5[35-7]|6\d)|7(?:22|3[468]|4[1-9]|59|[67]\d)|9(?:22|4[1-8]|6\d))|6(?:09|12|2[2-4])\d)\d{5}")) [(9)%Z] [(5)%Z; (6)%Z] (Some (bs "312123456"))))
  (Some (Build_desc (Some (bs "312(?:58\d|973)\d{3}|(?:2(?:0[0-35]|2\d)|5[0-24-7]\d|600|7(?:[07]\d|55)|88[08]|9(?:12|9[05-9]))\d{6}")) [(9)%Z] [] (Some (bs "700123456"))))
  (Some (Build_desc (Some (bs "800\d{6,7}")) [] [] (Some (bs "800123456"))))
  (Some (Build_desc None [(-1)%Z] [] None))
  (Some (Build_desc None [(-1)%Z] [] None))
  (Some (Build_desc None [(-1)%Z] [] None))
  (Some (Build_desc None [(-1)%Z] [] None))
  (Some (Build_desc None [(-1)%Z] [] None))
  (Some (Build_desc None [(-1)%Z] [] None))
  None
  (Some (Build_desc None [(-1)%Z] [] None))
  None
  None
  None
  None
  (Some (Build_desc None [(-1)%Z] [] None))
  (Some (bs "KG")) (Some (996)%Z) (Some (bs "00")) None (Some (bs "0"))
  None (Some (bs "0")) None None
  [Build_nfmt (Some (bs "(\d{4})(\d{5})")) (Some (bs "$1 $2")) [bs "3(?:1[346]|[24-79])"] (Some (bs "0$1")) None None;
    Build_nfmt (Some (bs "(\d{3})(\d{3})(\d{3})")) (Some (bs "$1 $2 $3")) [bs "[235-79]|88"] (Some (bs "0$1")) None None;
    Build_nfmt (Some (bs "(\d{3})(\d{3})(\d)(\d{2,3})")) (Some (bs "$1 $2 $3 $4")) [bs "8"] (Some (bs "0$1")) None None]
  []
  None None None.

Definition md_KH : meta := Eval vm_compute in Build_meta
  (Some (Build_desc (Some (bs "1\d{9}|[1-9]\d{7,8}")) [(8)%Z; (9)%Z; (10)%Z] [(6)%Z; (7)%Z] None))
  (Some (Build_desc (Some (bs "23(?:4(?:[2-4]|[56]\d)|[568]\d\d)\d{4}|23[236-9]\d{5}|(?:2[4-6]|3[2-6]|4[2-4]|[5-7][2-5])(?:(?:[237-9]|4[56]|5\d)\d{5}|6\d{5,6})")) [(8)%Z; (9)%Z] [(6)%Z; (7)%Z] (Some (bs "23756789"))))
  (Some (Build_desc (Some (bs "(?:(?:1[28]|3[18]|9[67])\d|6[016-9]|7(?:[07-9]|[16]\d)|8(?:[013-79]|8\d))\d{6}|(?:1\d|9[0-57-9])\d{6}|(?:2[3-6]|3[2-6]|4[2-4]|[5-7][2-5])48\d{5}")) [(8)%Z; (9)%Z] [] (Some (bs "91234567"))))
  (Some (Build_desc (Some (bs "1800(?:1\d|2[019])\d{4}")) [(10)%Z] [] (Some (bs "1800123456"))))
  (Some (Build_desc (Some (bs "1900(?:1\d|2[09])\d{4}")) [(10)%Z] [] (Some (bs "1900123456"))))
  (Some (Build_desc None [(-1)%Z] [] None))
  (Some (Build_desc None [(-1)%Z] [] None))
  (Some (Build_desc None [(-1)%Z] [] None))
  (Some (Build_desc None [(-1)%Z] [] None))
  (Some (Build_desc None [(-1)%Z] [] None))
  None
  (Some (Build_desc None [(-1)%Z] [] None))
  None
  None
  None
  None
  (Some (Build_desc None [(-1)%Z] [] None))
  (Some (bs "KH")) (Some (855)%Z) (Some (bs "00[14-9]")) None (Some (bs "0"))
  None (Some (bs "0")) None None
  [Build_nfmt (Some (bs "(\d{2})(\d{3})(\d{3,4})")) (Some (bs "$1 $2 $3")) [bs "[1-9]"] (Some (bs "0$1")) None None;
    Build_nfmt (Some (bs "(\d{4})(\d{3})(\d{3})")) (Some (bs "$1 $2 $3")) [bs "1"] None None None]
  []
  None None None.

Definition md_KI : meta := Eval vm_compute in Build_meta
  (Some (Build_desc (Some (bs "(?:[37]\d|6[0-79])\d{6}|(?:[2-48]\d|50)\d{3}")) [(5)%Z; (8)%Z] [] None))
  (Some (Build_desc (Some (bs "(?:[24]\d|3[1-9]|50|65(?:02[12]|12[56]|22[89]|[3-5]00)|7(?:27\d\d|3100|5(?:02[12]|12[56]|22[89]|[34](?:00|81)|500))|8[0-5])\d{3}")) [] [] (Some (bs "31234"))))
  (Some (Build_desc (Some (bs "(?:6200[01]|7(?:310[1-9]|5(?:02[03-9]|12[0-47-9]|22[0-7]|[34](?:0[1-9]|8[02-9])|50[1-9])))\d{3}|(?:63\d\d|7(?:(?:[0146-9]\d|2[0-689])\d|3(?:[02-9]\d|1[1-9])|5(?:[0-2][013-9]|[34][1-79]|5[1-9]|[6-9]\d)))\d{4}")) [(8)%Z] [] (Some (bs "72001234"))))
  (Some (Build_desc None [(-1)%Z] [] None))
  (Some (Build_desc None [(-1)%Z] [] None))
  (Some (Build_desc None [(-1)%Z] [] None))
  (Some (Build_desc None [(-1)%Z] [] None))
  (Some (Build_desc (Some (bs "30(?:0[01]\d\d|12(?:11|20))\d\d")) [(8)%Z] [] (Some (bs "30010000"))))
  (Some (Build_desc None [(-1)%Z] [] None))
  (Some (Build_desc None [(-1)%Z] [] None))
  None
  (Some (Build_desc None [(-1)%Z] [] None))
  None
  None
  None
  None
  (Some (Build_desc None [(-1)%Z] [] None))
  (Some (bs "KI")) (Some (686)%Z) (Some (bs "00")) None (Some (bs "0"))
  None (Some (bs "0")) None None
  []
  []
  None None None.

Definition md_KM : meta := Eval vm_compute in Build_meta
  (Some (Build_desc (Some (bs "[3478]\d{6}")) [(7)%Z] [(4)%Z] None))
  (Some (Build_desc (Some (bs "7[4-7]\d{5}")) [] [(4)%Z] (Some (bs "7712345"))))
  (Some (Build_desc (Some (bs "[34]\d{6}")) [] [] (Some (bs "3212345"))))
  (Some (Build_desc None [(-1)%Z] [] None))
  (Some (Build_desc (Some (bs "8\d{6}")) [] [] (Some (bs "8001234"))))
  (Some (Build_desc None [(-1)%Z] [] None))
  (Some (Build_desc None [(-1)%Z] [] None))
  (Some (Build_desc None [(-1)%Z] [] None))
  (Some (Build_desc None [(-1)%Z] [] None))
  (Some (Build_desc None [(-1)%Z] [] None))
  None
  (Some (Build_desc None [(-1)%Z] [] None))
  None
  None
  None
  None
  (Some (Build_desc None [(-1)%Z] [] None))
  (Some (bs "KM")) (Some (269)%Z) (Some (bs "00")) None None
  None None None None
  [Build_nfmt (Some (bs "(\d{3})(\d{2})(\d{2})")) (Some (bs "$1 $2 $3")) [bs "[3478]"] None None None]
  []
  None None None.

Definition md_KN : meta := Eval vm_compute in Build_meta
  (Some (Build_desc (Some (bs "(?:[58]\d\d|900)\d{7}")) [(10)%Z] [(7)%Z] None))
  (Some (Build_desc (Some (bs "869(?:2(?:29|36)|302|4(?:6[015-9]|70)|56[5-7])\d{4}")) [] [(7)%Z] (Some (bs "8692361234"))))
  (Some (Build_desc (Some (bs "869(?:48[89]|55[6-8]|66\d|76[02-7])\d{4}")) [] [(7)%Z] (Some (bs "8697652917"))))
  (Some (Build_desc (Some (bs "8(?:00|33|44|55|66|77|88)[2-9]\d{6}")) [] [] (Some (bs "8002123456"))))
  (Some (Build_desc (Some (bs "900[2-9]\d{6}")) [] [] (Some (bs "9002123456"))))
  (Some (Build_desc None [(-1)%Z] [] None))
  (Some (Build_desc (Some (bs "52(?:3(?:[2-46-9][02-9]\d|5(?:[02-46-9]\d|5[0-46-9]))|4(?:[2-478][02-9]\d|5(?:[034]\d|2[024-9]|5[0-46-9])|6(?:0[1-9]|[2-9]\d)|9(?:[05-9]\d|2[0-5]|49)))\d{4}|52[34][2-9]1[02-9]\d{4}|5(?:00|2[125-9]|3[23]|44|66|77|88)[2-9]\d{6}")) [] [] (Some (bs "5002345678"))))
  (Some (Build_desc None [(-1)%Z] [] None))
  (Some (Build_desc None [(-1)%Z] [] None))
  (Some (Build_desc None [(-1)%Z] [] None))
  None
  (Some (Build_desc None [(-1)%Z] [] None))
  None
  None
  None
  None
  (Some (Build_desc None [(-1)%Z] [] None))
  (Some (bs "KN")) (Some (1)%Z) (Some (bs "011")) None (Some (bs "1"))
  None (Some (bs "([2-7]\d{6})$|1")) (Some (bs "869$1")) None
  []
  []
  None (Some (bs "869")) (Some true).

Definition md_KP : meta := Eval vm_compute in Build_meta
  (Some (Build_desc (Some (bs "85\d{6}|(?:19\d|[2-7])\d{7}")) [(8)%Z; (10)%Z] [(6)%Z; (7)%Z] None))
  (Some (Build_desc (Some (bs "(?:(?:195|2)\d|3[19]|4[159]|5[37]|6[17]|7[39]|85)\d{6}")) [] [(6)%Z; (7)%Z] (Some (bs "21234567"))))
  (Some (Build_desc (Some (bs "19[1-3]\d{7}")) [(10)%Z] [] (Some (bs "1921234567"))))
  (Some (Build_desc None [(-1)%Z] [] None))
  (Some (Build_desc None [(-1)%Z] [] None))
  (Some (Build_desc None [(-1)%Z] [] None))
  (Some (Build_desc None [(-1)%Z] [] None))
  (Some (Build_desc None [(-1)%Z] [] None))
  (Some (Build_desc None [(-1)%Z] [] None))
  (Some (Build_desc None [(-1)%Z] [] None))
  None
  (Some (Build_desc None [(-1)%Z] [] None))
  None
  None
  None
  None
  (Some (Build_desc (Some (bs "238[02-9]\d{4}|2(?:[0-24-9]\d|3[0-79])\d{5}")) [(8)%Z] [] None))
  (Some (bs "KP")) (Some (850)%Z) (Some (bs "00|99")) None (Some (bs "0"))
  None (Some (bs "0")) None None
  [Build_nfmt (Some (bs "(\d{2})(\d{3})(\d{3})")) (Some (bs "$1 $2 $3")) [bs "8"] (Some (bs "0$1")) None None;
    Build_nfmt (Some (bs "(\d)(\d{3})(\d{4})")) (Some (bs "$1 $2 $3")) [bs "[2-7]"] (Some (bs "0$1")) None None;
    Build_nfmt (Some (bs "(\d{3})(\d{3})(\d{4})")) (Some (bs "$1 $2 $3")) [bs "1"] (Some (bs "0$1")) None None]
  []
  None None None.

Definition md_KR : meta := Eval vm_compute in Build_meta
  (Some (Build_desc (Some (bs "00[1-9]\d{8,11}|(?:[12]|5\d{3})\d{7}|[13-6]\d{9}|(?:[1-6]\d|80)\d{7}|[3-6]\d{4,5}|(?:00|7)0\d{8}")) [(5)%Z; (6)%Z; (8)%Z; (9)%Z; (10)%Z; (11)%Z; (12)%Z; (13)%Z; (14)%Z] [(3)%Z; (4)%Z; (7)%Z] None))
  (Some (Build_desc (Some (bs "(?:2|3[1-3]|[46][1-4]|5[1-5])[1-9]\d{6,7}|(?:3[1-3]|[46][1-4]|5[1-5])1\d{2,3}")) [(5)%Z; (6)%Z; (8)%Z; (9)%Z; (10)%Z] [(3)%Z; (4)%Z; (7)%Z] (Some (bs "22123456"))))
  (Some (Build_desc (Some (bs "1(?:05(?:[0-8]\d|9[0-6])|22[13]\d)\d{4,5}|1(?:0[0-46-9]|[16-9]\d|2[013-9])\d{6,7}")) [(9)%Z; (10)%Z] [] (Some (bs "1020000000"))))
  (Some (Build_desc (Some (bs "00(?:308\d{6,7}|798\d{7,9})|(?:00368|[38]0)\d{7}")) [(9)%Z; (11)%Z; (12)%Z; (13)%Z; (14)%Z] [] (Some (bs "801234567"))))
  (Some (Build_desc (Some (bs "60[2-9]\d{6}")) [(9)%Z] [] (Some (bs "602345678"))))
  (Some (Build_desc None [(-1)%Z] [] None))
  (Some (Build_desc (Some (bs "50\d{8,9}")) [(10)%Z; (11)%Z] [] (Some (bs "5012345678"))))
  (Some (Build_desc (Some (bs "70\d{8}")) [(10)%Z] [] (Some (bs "7012345678"))))
  (Some (Build_desc (Some (bs "15\d{7,8}")) [(9)%Z; (10)%Z] [] (Some (bs "1523456789"))))
  (Some (Build_desc (Some (bs "1(?:5(?:22|33|44|66|77|88|99)|6(?:[07]0|44|6[0168]|88)|8(?:00|33|55|77|99))\d{4}")) [(8)%Z] [] (Some (bs "15441234"))))
  None
  (Some (Build_desc None [(-1)%Z] [] None))
  None
  None
  None
  None
  (Some (Build_desc (Some (bs "00(?:3(?:08\d{6,7}|68\d{7})|798\d{7,9})")) [(11)%Z; (12)%Z; (13)%Z; (14)%Z] [] None))
  (Some (bs "KR")) (Some (82)%Z) (Some (bs "00(?:[125689]|3(?:[46]5|91)|7(?:00|27|3|55|6[126]))")) None (Some (bs "0"))
  None (Some (bs "0(8(?:[1-46-8]|5\d\d))?")) None None
  [Build_nfmt (Some (bs "(\d{5})")) (Some (bs "$1")) [bs "1[016-9]1"; bs "1[016-9]11"; bs "1[016-9]114"] (Some (bs "0$1")) None None;
    Build_nfmt (Some (bs "(\d{2})(\d{3,4})")) (Some (bs "$1-$2")) [bs "(?:3[1-3]|[46][1-4]|5[1-5])1"] (Some (bs "0$1")) None (Some (bs "0$CC-$1"));
    Build_nfmt (Some (bs "(\d{4})(\d{4})")) (Some (bs "$1-$2")) [bs "1"] None None None;
    Build_nfmt (Some (bs "(\d)(\d{3,4})(\d{4})")) (Some (bs "$1-$2-$3")) [bs "2"] (Some (bs "0$1")) None (Some (bs "0$CC-$1"));
    Build_nfmt (Some (bs "(\d{2})(\d{3})(\d{4})")) (Some (bs "$1-$2-$3")) [bs "[36]0|8"] (Some (bs "0$1")) None (Some (bs "0$CC-$1"));
    Build_nfmt (Some (bs "(\d{2})(\d{3,4})(\d{4})")) (Some (bs "$1-$2-$3")) [bs "[1346]|5[1-5]"] (Some (bs "0$1")) None (Some (bs "0$CC-$1"));
    Build_nfmt (Some (bs "(\d{2})(\d{4})(\d{4})")) (Some (bs "$1-$2-$3")) [bs "[57]"] (Some (bs "0$1")) None (Some (bs "0$CC-$1"));
    Build_nfmt (Some (bs "(\d{5})(\d{3})(\d{3})")) (Some (bs "$1 $2 $3")) [bs "003"; bs "0030"] None None None;
    Build_nfmt (Some (bs "(\d{2})(\d{5})(\d{4})")) (Some (bs "$1-$2-$3")) [bs "5"] (Some (bs "0$1")) None (Some (bs "0$CC-$1"));
    Build_nfmt (Some (bs "(\d{5})(\d{3,4})(\d{4})")) (Some (bs "$1 $2 $3")) [bs "0"] None None None;
    Build_nfmt (Some (bs "(\d{5})(\d{2})(\d{3})(\d{4})")) (Some (bs "$1 $2 $3 $4")) [bs "0"] None None None]
  [Build_nfmt (Some (bs "(\d{2})(\d{3,4})")) (Some (bs "$1-$2")) [bs "(?:3[1-3]|[46][1-4]|5[1-5])1"] (Some (bs "0$1")) None (Some (bs "0$CC-$1"));
    Build_nfmt (Some (bs "(\d{4})(\d{4})")) (Some (bs "$1-$2")) [bs "1"] None None None;
    Build_nfmt (Some (bs "(\d)(\d{3,4})(\d{4})")) (Some (bs "$1-$2-$3")) [bs "2"] (Some (bs "0$1")) None (Some (bs "0$CC-$1"));
    Build_nfmt (Some (bs "(\d{2})(\d{3})(\d{4})")) (Some (bs "$1-$2-$3")) [bs "[36]0|8"] (Some (bs "0$1")) None (Some (bs "0$CC-$1"));
    Build_nfmt (Some (bs "(\d{2})(\d{3,4})(\d{4})")) (Some (bs "$1-$2-$3")) [bs "[1346]|5[1-5]"] (Some (bs "0$1")) None (Some (bs "0$CC-$1"));
    Build_nfmt (Some (bs "(\d{2})(\d{4})(\d{4})")) (Some (bs "$1-$2-$3")) [bs "[57]"] (Some (bs "0$1")) None (Some (bs "0$CC-$1"));
    Build_nfmt (Some (bs "(\d{2})(\d{5})(\d{4})")) (Some (bs "$1-$2-$3")) [bs "5"] (Some (bs "0$1")) None (Some (bs "0$CC-$1"))]
  None None (Some true).

Definition md_KW : meta := Eval vm_compute in Build_meta
  (Some (Build_desc (Some (bs "18\d{5}|(?:[2569]\d|41)\d{6}")) [(7)%Z; (8)%Z] [] None))
  (Some (Build_desc (Some (bs "2(?:[23]\d\d|4(?:[1-35-9]\d|44)|5(?:0[034]|[2-46]\d|5[1-3]|7[1-7]))\d{4}")) [(8)%Z] [] (Some (bs "22345678"))))
  (Some (Build_desc (Some (bs "(?:41\d\d|5(?:(?:[05]\d|1[0-7]|6[56])\d|2(?:22|5[25])|7(?:55|77)|88[58])|6(?:(?:0[034679]|5[015-9]|6\d)\d|1(?:00|11|6[16])|2[26]2|3[36]3|4[46]4|7(?:0[013-9]|[67]\d)|8[68]8|9(?:[069]\d|3[039]))|9(?:(?:[04679]\d|8[057-9])\d|1(?:00|1[01]|99)|2(?:00|2\d)|3(?:00|3[03])|5(?:00|5\d)))\d{4}")) [(8)%Z] [] (Some (bs "50012345"))))
  (Some (Build_desc (Some (bs "18\d{5}")) [(7)%Z] [] (Some (bs "1801234"))))
  (Some (Build_desc None [(-1)%Z] [] None))
  (Some (Build_desc None [(-1)%Z] [] None))
  (Some (Build_desc None [(-1)%Z] [] None))
  (Some (Build_desc None [(-1)%Z] [] None))
  (Some (Build_desc None [(-1)%Z] [] None))
  (Some (Build_desc None [(-1)%Z] [] None))
  None
  (Some (Build_desc None [(-1)%Z] [] None))
  None
  None
  None
  None
  (Some (Build_desc None [(-1)%Z] [] None))
  (Some (bs "KW")) (Some (965)%Z) (Some (bs "00")) None None
  None None None None
  [Build_nfmt (Some (bs "(\d{4})(\d{3,4})")) (Some (bs "$1 $2")) [bs "[169]|2(?:[235]|4[1-35-9])|52"] None None None;
    Build_nfmt (Some (bs "(\d{3})(\d{5})")) (Some (bs "$1 $2")) [bs "[245]"] None None None]
  []
  None None (Some true).

Definition md_KY : meta := Eval vm_compute in Build_meta
  (Some (Build_desc (Some (bs "(?:345|[58]\d\d|900)\d{7}")) [(10)%Z] [(7)%Z] None))
  (Some (Build_desc (Some (bs "345(?:2(?:22|3[23]|44|66)|333|444|6(?:23|38|40)|7(?:30|4[35-79]|6[6-9]|77)|8(?:00|1[45]|4[89]|88)|9(?:14|4[035-9]))\d{4}")) [] [(7)%Z] (Some (bs "3452221234"))))
  (Some (Build_desc (Some (bs "345(?:32[1-9]|4(?:1[2-6]|2[0-4])|5(?:1[67]|2[5-79]|4[6-9]|50|76)|649|82[56]|9(?:1[679]|2[2-9]|3[06-9]|90))\d{4}")) [] [(7)%Z] (Some (bs "3453231234"))))
  (Some (Build_desc (Some (bs "8(?:00|33|44|55|66|77|88)[2-9]\d{6}")) [] [] (Some (bs "8002345678"))))
  (Some (Build_desc (Some (bs "(?:345976|900[2-9]\d\d)\d{4}")) [] [] (Some (bs "9002345678"))))
  (Some (Build_desc None [(-1)%Z] [] None))
  (Some (Build_desc (Some (bs "52(?:3(?:[2-46-9][02-9]\d|5(?:[02-46-9]\d|5[0-46-9]))|4(?:[2-478][02-9]\d|5(?:[034]\d|2[024-9]|5[0-46-9])|6(?:0[1-9]|[2-9]\d)|9(?:[05-9]\d|2[0-5]|49)))\d{4}|52[34][2-9]1[02-9]\d{4}|5(?:00|2[125-9]|3[23]|44|66|77|88)[2-9]\d{6}")) [] [] (Some (bs "5002345678"))))
  (Some (Build_desc None [(-1)%Z] [] None))
  (Some (Build_desc None [(-1)%Z] [] None))
  (Some (Build_desc None [(-1)%Z] [] None))
  None
  (Some (Build_desc None [(-1)%Z] [] None))
  None
  None
  None
  None
  (Some (Build_desc None [(-1)%Z] [] None))
  (Some (bs "KY")) (Some (1)%Z) (Some (bs "011")) None (Some (bs "1"))
  None (Some (bs "([2-9]\d{6})$|1")) (Some (bs "345$1")) None
  []
  []
  None (Some (bs "345")) (Some true).

Definition md_KZ : meta := Eval vm_compute in Build_meta
  (Some (Build_desc (Some (bs "8\d{13}|[78]\d{9}")) [(10)%Z; (14)%Z] [(5)%Z; (6)%Z; (7)%Z] None))
  (Some (Build_desc (Some (bs "7(?:1(?:0(?:[23]\d|4[0-3]|59|63)|1(?:[23]\d|4[0-79]|59)|2(?:[23]\d|59)|3(?:2\d|3[0-79]|4[0-35-9]|59)|4(?:[24]\d|3[013-9]|5[1-9]|97)|5(?:2\d|3[1-9]|4[0-7]|59)|6(?:[2-4]\d|5[19]|61)|72\d|8(?:[27]\d|3[1-46-9]|4[0-5]|59))|2(?:1(?:[23]\d|4[46-9]|5[3469])|2(?:2\d|3[0679]|46|5[12679])|3(?:[2-4]\d|5[139])|4(?:2\d|3[1-35-9]|59)|5(?:[23]\d|4[0-8]|59|61)|6(?:2\d|3[1-9]|4[0-4]|59)|7(?:[2379]\d|40|5[279])|8(?:[23]\d|4[0-3]|59)|9(?:2\d|3[124578]|59)))\d{5}")) [(10)%Z] [(5)%Z; (6)%Z; (7)%Z] (Some (bs "7123456789"))))
  (Some (Build_desc (Some (bs "7(?:0[0-25-8]|47|6[0-4]|7[15-8]|85)\d{7}")) [(10)%Z] [] (Some (bs "7710009998"))))
  (Some (Build_desc (Some (bs "8(?:00|108\d{3})\d{7}")) [] [] (Some (bs "8001234567"))))
  (Some (Build_desc (Some (bs "809\d{7}")) [(10)%Z] [] (Some (bs "8091234567"))))
  (Some (Build_desc None [(-1)%Z] [] None))
  (Some (Build_desc (Some (bs "808\d{7}")) [(10)%Z] [] (Some (bs "8081234567"))))
  (Some (Build_desc (Some (bs "751\d{7}")) [(10)%Z] [] (Some (bs "7511234567"))))
  (Some (Build_desc None [(-1)%Z] [] None))
  (Some (Build_desc None [(-1)%Z] [] None))
  None
  (Some (Build_desc None [(-1)%Z] [] None))
  None
  None
  None
  None
  (Some (Build_desc (Some (bs "751\d{7}")) [(10)%Z] [] None))
  (Some (bs "KZ")) (Some (7)%Z) (Some (bs "810")) (Some (bs "8~10")) (Some (bs "8"))
  None (Some (bs "8")) None None
  []
  []
  None (Some (bs "7")) (Some true).

Definition md_LA : meta := Eval vm_compute in Build_meta
  (Some (Build_desc (Some (bs "[23]\d{9}|3\d{8}|(?:[235-8]\d|41)\d{6}")) [(8)%Z; (9)%Z; (10)%Z] [(6)%Z] None))
  (Some (Build_desc (Some (bs "(?:2[13]|[35-7][14]|41|8[1468])\d{6}")) [(8)%Z] [(6)%Z] (Some (bs "21212862"))))
  (Some (Build_desc (Some (bs "(?:20(?:[23579]\d|8[78])|30[24]\d)\d{6}|30\d{7}")) [(9)%Z; (10)%Z] [] (Some (bs "2023123456"))))
  (Some (Build_desc None [(-1)%Z] [] None))
  (Some (Build_desc None [(-1)%Z] [] None))
  (Some (Build_desc None [(-1)%Z] [] None))
  (Some (Build_desc None [(-1)%Z] [] None))
  (Some (Build_desc None [(-1)%Z] [] None))
  (Some (Build_desc None [(-1)%Z] [] None))
  (Some (Build_desc None [(-1)%Z] [] None))
  None
  (Some (Build_desc None [(-1)%Z] [] None))
  None
  None
  None
  None
  (Some (Build_desc None [(-1)%Z] [] None))
  (Some (bs "LA")) (Some (856)%Z) (Some (bs "00")) None (Some (bs "0"))
  None (Some (bs "0")) None None
  [Build_nfmt (Some (bs "(\d{2})(\d{3})(\d{3})")) (Some (bs "$1 $2 $3")) [bs "2[13]|3[14]|[4-8]"] (Some (bs "0$1")) None None;
    Build_nfmt (Some (bs "(\d{2})(\d{2})(\d{2})(\d{3})")) (Some (bs "$1 $2 $3 $4")) [bs "3"] (Some (bs "0$1")) None None;
    Build_nfmt (Some (bs "(\d{2})(\d{2})(\d{3})(\d{3})")) (Some (bs "$1 $2 $3 $4")) [bs "[23]"] (Some (bs "0$1")) None None]
  []
  None None None.

Definition md_LB : meta := Eval vm_compute in Build_meta
  (Some (Build_desc (Some (bs "[27-9]\d{7}|[13-9]\d{6}")) [(7)%Z; (8)%Z] [] None))
  (Some (Build_desc (Some (bs "7(?:62|8[0-6]|9[04-9])\d{4}|(?:[14-69]\d|2(?:[14-69]\d|[78][1-9])|7[2-57]|8[02-9])\d{5}")) [] [] (Some (bs "1123456"))))
  (Some (Build_desc (Some (bs "(?:(?:3|81)\d|7(?:[01]\d|6[013-9]|8[7-9]|9[0-4]))\d{5}")) [] [] (Some (bs "71123456"))))
  (Some (Build_desc None [(-1)%Z] [] None))
  (Some (Build_desc (Some (bs "9[01]\d{6}")) [(8)%Z] [] (Some (bs "90123456"))))
  (Some (Build_desc (Some (bs "80\d{6}")) [(8)%Z] [] (Some (bs "80123456"))))
  (Some (Build_desc None [(-1)%Z] [] None))
  (Some (Build_desc None [(-1)%Z] [] None))
  (Some (Build_desc None [(-1)%Z] [] None))
  (Some (Build_desc None [(-1)%Z] [] None))
  None
  (Some (Build_desc None [(-1)%Z] [] None))
  None
  None
  None
  None
  (Some (Build_desc None [(-1)%Z] [] None))
  (Some (bs "LB")) (Some (961)%Z) (Some (bs "00")) None (Some (bs "0"))
  None (Some (bs "0")) None None
  [Build_nfmt (Some (bs "(\d)(\d{3})(\d{3})")) (Some (bs "$1 $2 $3")) [bs "[13-69]|7(?:[2-57]|62|8[0-6]|9[04-9])|8[02-9]"] (Some (bs "0$1")) None None;
    Build_nfmt (Some (bs "(\d{2})(\d{3})(\d{3})")) (Some (bs "$1 $2 $3")) [bs "[27-9]"] None None None]
  []
  None None None.

Definition md_LC : meta := Eval vm_compute in Build_meta
  (Some (Build_desc (Some (bs "(?:[58]\d\d|758|900)\d{7}")) [(10)%Z] [(7)%Z] None))
  (Some (Build_desc (Some (bs "758(?:234|4(?:30|5\d|6[2-9]|8[0-2])|57[0-2]|(?:63|75)8)\d{4}")) [] [(7)%Z] (Some (bs "7584305678"))))
  (Some (Build_desc (Some (bs "758(?:28[4-7]|384|4(?:6[01]|8[4-9])|5(?:1[89]|20|84)|7(?:1[2-9]|2\d|3[0-3])|812)\d{4}")) [] [(7)%Z] (Some (bs "7582845678"))))
  (Some (Build_desc (Some (bs "8(?:00|33|44|55|66|77|88)[2-9]\d{6}")) [] [] (Some (bs "8002123456"))))
  (Some (Build_desc (Some (bs "900[2-9]\d{6}")) [] [] (Some (bs "9002123456"))))
  (Some (Build_desc None [(-1)%Z] [] None))
  (Some (Build_desc (Some (bs "52(?:3(?:[2-46-9][02-9]\d|5(?:[02-46-9]\d|5[0-46-9]))|4(?:[2-478][02-9]\d|5(?:[034]\d|2[024-9]|5[0-46-9])|6(?:0[1-9]|[2-9]\d)|9(?:[05-9]\d|2[0-5]|49)))\d{4}|52[34][2-9]1[02-9]\d{4}|5(?:00|2[125-9]|3[23]|44|66|77|88)[2-9]\d{6}")) [] [] (Some (bs "5002345678"))))
  (Some (Build_desc None [(-1)%Z] [] None))
  (Some (Build_desc None [(-1)%Z] [] None))
  (Some (Build_desc None [(-1)%Z] [] None))
  None
  (Some (Build_desc None [(-1)%Z] [] None))
  None
  None
  None
  None
  (Some (Build_desc None [(-1)%Z] [] None))
  (Some (bs "LC")) (Some (1)%Z) (Some (bs "011")) None (Some (bs "1"))
  None (Some (bs "([2-8]\d{6})$|1")) (Some (bs "758$1")) None
  []
  []
  None (Some (bs "758")) (Some true).

Definition md_LI : meta := Eval vm_compute in Build_meta
  (Some (Build_desc (Some (bs "[68]\d{8}|(?:[2378]\d|90)\d{5}")) [(7)%Z; (9)%Z] [] None))
  (Some (Build_desc (Some (bs "(?:2(?:01|1[27]|2[024]|3\d|6[02-578]|96)|3(?:[24]0|33|7[0135-7]|8[048]|9[0269]))\d{4}")) [(7)%Z] [] (Some (bs "2345678"))))
  (Some (Build_desc (Some (bs "(?:6(?:(?:4[5-9]|5\d)\d|6(?:[024-68]\d|1[01]|3[7-9]|7[02]))\d|7(?:[37-9]\d|42|56))\d{4}")) [] [] (Some (bs "660234567"))))
  (Some (Build_desc (Some (bs "8002[28]\d\d|80(?:05\d|9)\d{4}")) [] [] (Some (bs "8002222"))))
  (Some (Build_desc (Some (bs "90(?:02[258]|1(?:23|3[14])|66[136])\d\d")) [(7)%Z] [] (Some (bs "9002222"))))
  (Some (Build_desc None [(-1)%Z] [] None))
  (Some (Build_desc None [(-1)%Z] [] None))
  (Some (Build_desc None [(-1)%Z] [] None))
  (Some (Build_desc None [(-1)%Z] [] None))
  (Some (Build_desc (Some (bs "870(?:28|87)\d\d")) [(7)%Z] [] (Some (bs "8702812"))))
  None
  (Some (Build_desc (Some (bs "697(?:42|56|[78]\d)\d{4}")) [(9)%Z] [] (Some (bs "697861234"))))
  None
  None
  None
  None
  (Some (Build_desc None [(-1)%Z] [] None))
  (Some (bs "LI")) (Some (423)%Z) (Some (bs "00")) None (Some (bs "0"))
  None (Some (bs "(1001)|0")) None None
  [Build_nfmt (Some (bs "(\d{3})(\d{2})(\d{2})")) (Some (bs "$1 $2 $3")) [bs "[2379]|8(?:0[09]|7)"; bs "[2379]|8(?:0(?:02|9)|7)"] None None (Some (bs "$CC $1"));
    Build_nfmt (Some (bs "(\d{3})(\d{3})(\d{3})")) (Some (bs "$1 $2 $3")) [bs "8"] None None None;
    Build_nfmt (Some (bs "(\d{2})(\d{3})(\d{4})")) (Some (bs "$1 $2 $3")) [bs "69"] None None (Some (bs "$CC $1"));
    Build_nfmt (Some (bs "(\d{3})(\d{3})(\d{3})")) (Some (bs "$1 $2 $3")) [bs "6"] None None (Some (bs "$CC $1"))]
  []
  None None None.

Definition md_LK : meta := Eval vm_compute in Build_meta
  (Some (Build_desc (Some (bs "[1-9]\d{8}")) [(9)%Z] [(7)%Z] None))
  (Some (Build_desc (Some (bs "(?:12[2-9]|602|8[12]\d|9(?:1\d|22|9[245]))\d{6}|(?:11|2[13-7]|3[1-8]|4[157]|5[12457]|6[35-7])[2-57]\d{6}")) [] [(7)%Z] (Some (bs "112345678"))))
  (Some (Build_desc (Some (bs "7(?:[0-25-8]\d|4[0-4])\d{6}")) [] [] (Some (bs "712345678"))))
  (Some (Build_desc None [(-1)%Z] [] None))
  (Some (Build_desc None [(-1)%Z] [] None))
  (Some (Build_desc None [(-1)%Z] [] None))
  (Some (Build_desc None [(-1)%Z] [] None))
  (Some (Build_desc None [(-1)%Z] [] None))
  (Some (Build_desc None [(-1)%Z] [] None))
  (Some (Build_desc (Some (bs "1973\d{5}")) [] [] (Some (bs "197312345"))))
  None
  (Some (Build_desc None [(-1)%Z] [] None))
  None
  None
  None
  None
  (Some (Build_desc None [(-1)%Z] [] None))
  (Some (bs "LK")) (Some (94)%Z) (Some (bs "00")) None (Some (bs "0"))
  None (Some (bs "0")) None None
  [Build_nfmt (Some (bs "(\d{2})(\d{3})(\d{4})")) (Some (bs "$1 $2 $3")) [bs "7"] (Some (bs "0$1")) None None;
    Build_nfmt (Some (bs "(\d{3})(\d{3})(\d{3})")) (Some (bs "$1 $2 $3")) [bs "[1-689]"] (Some (bs "0$1")) None None]
  []
  None None None.

Definition md_LR : meta := Eval vm_compute in Build_meta
  (Some (Build_desc (Some (bs "(?:[2457]\d|33|88)\d{7}|(?:2\d|[4-6])\d{6}")) [(7)%Z; (8)%Z; (9)%Z] [] None))
  (Some (Build_desc (Some (bs "2\d{7}")) [(8)%Z] [] (Some (bs "21234567"))))
  (Some (Build_desc (Some (bs "(?:(?:(?:22|33)0|555|7(?:6[01]|7\d)|88\d)\d|4(?:240|[67]))\d{5}|[56]\d{6}")) [(7)%Z; (9)%Z] [] (Some (bs "770123456"))))
  (Some (Build_desc None [(-1)%Z] [] None))
  (Some (Build_desc (Some (bs "332(?:02|[34]\d)\d{4}")) [(9)%Z] [] (Some (bs "332021234"))))
  (Some (Build_desc None [(-1)%Z] [] None))
  (Some (Build_desc None [(-1)%Z] [] None))
  (Some (Build_desc None [(-1)%Z] [] None))
  (Some (Build_desc None [(-1)%Z] [] None))
  (Some (Build_desc None [(-1)%Z] [] None))
  None
  (Some (Build_desc None [(-1)%Z] [] None))
  None
  None
  None
  None
  (Some (Build_desc None [(-1)%Z] [] None))
  (Some (bs "LR")) (Some (231)%Z) (Some (bs "00")) None (Some (bs "0"))
  None (Some (bs "0")) None None
  [Build_nfmt (Some (bs "(\d)(\d{3})(\d{3})")) (Some (bs "$1 $2 $3")) [bs "4[67]|[56]"] (Some (bs "0$1")) None None;
    Build_nfmt (Some (bs "(\d{2})(\d{3})(\d{3})")) (Some (bs "$1 $2 $3")) [bs "2"] (Some (bs "0$1")) None None;
    Build_nfmt (Some (bs "(\d{2})(\d{3})(\d{4})")) (Some (bs "$1 $2 $3")) [bs "[2-578]"] (Some (bs "0$1")) None None]
  []
  None None None.

Definition md_LS : meta := Eval vm_compute in Build_meta
  (Some (Build_desc (Some (bs "(?:[256]\d\d|800)\d{5}")) [(8)%Z] [] None))
  (Some (Build_desc (Some (bs "2\d{7}")) [] [] (Some (bs "22123456"))))
  (Some (Build_desc (Some (bs "[56]\d{7}")) [] [] (Some (bs "50123456"))))
  (Some (Build_desc (Some (bs "800[1256]\d{4}")) [] [] (Some (bs "80021234"))))
  (Some (Build_desc None [(-1)%Z] [] None))
  (Some (Build_desc None [(-1)%Z] [] None))
  (Some (Build_desc None [(-1)%Z] [] None))
  (Some (Build_desc None [(-1)%Z] [] None))
  (Some (Build_desc None [(-1)%Z] [] None))
  (Some (Build_desc None [(-1)%Z] [] None))
  None
  (Some (Build_desc None [(-1)%Z] [] None))
  None
  None
  None
  None
  (Some (Build_desc None [(-1)%Z] [] None))
  (Some (bs "LS")) (Some (266)%Z) (Some (bs "00")) None None
  None None None None
  [Build_nfmt (Some (bs "(\d{4})(\d{4})")) (Some (bs "$1 $2")) [bs "[2568]"] None None None]
  []
  None None None.

Definition md_LT : meta := Eval vm_compute in Build_meta
  (Some (Build_desc (Some (bs "(?:[3469]\d|52|[78]0)\d{6}")) [(8)%Z] [] None))
  (Some (Build_desc (Some (bs "(?:3[1478]|4[124-6]|52)\d{6}")) [] [] (Some (bs "31234567"))))
  (Some (Build_desc (Some (bs "6\d{7}")) [] [] (Some (bs "61234567"))))
  (Some (Build_desc (Some (bs "80[02]\d{5}")) [] [] (Some (bs "80012345"))))
  (Some (Build_desc (Some (bs "9(?:0[0239]|10)\d{5}")) [] [] (Some (bs "90012345"))))
  (Some (Build_desc (Some (bs "808\d{5}")) [] [] (Some (bs "80812345"))))
  (Some (Build_desc (Some (bs "70[05]\d{5}")) [] [] (Some (bs "70012345"))))
  (Some (Build_desc (Some (bs "[89]01\d{5}")) [] [] (Some (bs "80123456"))))
  (Some (Build_desc None [(-1)%Z] [] None))
  (Some (Build_desc (Some (bs "70[67]\d{5}")) [] [] (Some (bs "70712345"))))
  None
  (Some (Build_desc None [(-1)%Z] [] None))
  None
  None
  None
  None
  (Some (Build_desc None [(-1)%Z] [] None))
  (Some (bs "LT")) (Some (370)%Z) (Some (bs "00")) None (Some (bs "0"))
  None (Some (bs "[08]")) None None
  [Build_nfmt (Some (bs "(\d)(\d{3})(\d{4})")) (Some (bs "$1 $2 $3")) [bs "52[0-7]"] (Some (bs "(0-$1)")) (Some true) None;
    Build_nfmt (Some (bs "(\d{3})(\d{2})(\d{3})")) (Some (bs "$1 $2 $3")) [bs "[7-9]"] (Some (bs "0 $1")) (Some true) None;
    Build_nfmt (Some (bs "(\d{2})(\d{6})")) (Some (bs "$1 $2")) [bs "37|4(?:[15]|6[1-8])"] (Some (bs "(0-$1)")) (Some true) None;
    Build_nfmt (Some (bs "(\d{3})(\d{5})")) (Some (bs "$1 $2")) [bs "[3-6]"] (Some (bs "(0-$1)")) (Some true) None]
  []
  None None (Some true).

Definition md_LU : meta := Eval vm_compute in Build_meta
  (Some (Build_desc (Some (bs "35[013-9]\d{4,8}|6\d{8}|35\d{2,4}|(?:[2457-9]\d|3[0-46-9])\d{2,9}")) [(4)%Z; (5)%Z; (6)%Z; (7)%Z; (8)%Z; (9)%Z; (10)%Z; (11)%Z] [] None))
  (Some (Build_desc (Some (bs "(?:35[013-9]|80[2-9]|90[89])\d{1,8}|(?:2[2-9]|3[0-46-9]|[457]\d|8[13-9]|9[2-579])\d{2,9}")) [] [] (Some (bs "27123456"))))
  (Some (Build_desc (Some (bs "6(?:[26][18]|5[1568]|7[189]|81|9[128])\d{6}")) [(9)%Z] [] (Some (bs "628123456"))))
  (Some (Build_desc (Some (bs "800\d{5}")) [(8)%Z] [] (Some (bs "80012345"))))
  (Some (Build_desc (Some (bs "90[015]\d{5}")) [(8)%Z] [] (Some (bs "90012345"))))
  (Some (Build_desc (Some (bs "801\d{5}")) [(8)%Z] [] (Some (bs "80112345"))))
  (Some (Build_desc None [(-1)%Z] [] None))
  (Some (Build_desc (Some (bs "20(?:1\d{5}|[2-689]\d{1,7})")) [(4)%Z; (5)%Z; (6)%Z; (7)%Z; (8)%Z; (9)%Z; (10)%Z] [] (Some (bs "20201234"))))
  (Some (Build_desc None [(-1)%Z] [] None))
  (Some (Build_desc None [(-1)%Z] [] None))
  None
  (Some (Build_desc None [(-1)%Z] [] None))
  None
  None
  None
  None
  (Some (Build_desc None [(-1)%Z] [] None))
  (Some (bs "LU")) (Some (352)%Z) (Some (bs "00")) None None
  None (Some (bs "(15(?:0[06]|1[12]|[35]5|4[04]|6[26]|77|88|99)\d)")) None None
  [Build_nfmt (Some (bs "(\d{2})(\d{3})")) (Some (bs "$1 $2")) [bs "2(?:0[2-689]|[2-9])|[3-57]|8(?:0[2-9]|[13-9])|9(?:0[89]|[2-579])"] None None (Some (bs "$CC $1"));
    Build_nfmt (Some (bs "(\d{2})(\d{2})(\d{2})")) (Some (bs "$1 $2 $3")) [bs "2(?:0[2-689]|[2-9])|[3-57]|8(?:0[2-9]|[13-9])|9(?:0[89]|[2-579])"] None None (Some (bs "$CC $1"));
    Build_nfmt (Some (bs "(\d{2})(\d{2})(\d{3})")) (Some (bs "$1 $2 $3")) [bs "20[2-689]"] None None (Some (bs "$CC $1"));
    Build_nfmt (Some (bs "(\d{2})(\d{2})(\d{2})(\d{1,2})")) (Some (bs "$1 $2 $3 $4")) [bs "20"] None None (Some (bs "$CC $1"));
    Build_nfmt (Some (bs "(\d{2})(\d{2})(\d{2})(\d{1,5})")) (Some (bs "$1 $2 $3 $4")) [bs "[3-57]|8[13-9]|9(?:0[89]|[2-579])|(?:2|80)[2-9]"] None None (Some (bs "$CC $1"));
    Build_nfmt (Some (bs "(\d{3})(\d{2})(\d{3})")) (Some (bs "$1 $2 $3")) [bs "80[01]|90[015]"] None None (Some (bs "$CC $1"));
    Build_nfmt (Some (bs "(\d{2})(\d{2})(\d{2})(\d{3})")) (Some (bs "$1 $2 $3 $4")) [bs "20"] None None (Some (bs "$CC $1"));
    Build_nfmt (Some (bs "(\d{3})(\d{3})(\d{3})")) (Some (bs "$1 $2 $3")) [bs "6"] None None (Some (bs "$CC $1"));
    Build_nfmt (Some (bs "(\d{2})(\d{2})(\d{2})(\d{2})(\d{1,2})")) (Some (bs "$1 $2 $3 $4 $5")) [bs "20"] None None (Some (bs "$CC $1"))]
  []
  None None (Some true).

Definition md_LV : meta := Eval vm_compute in Build_meta
  (Some (Build_desc (Some (bs "(?:[268]\d|78|90)\d{6}")) [(8)%Z] [] None))
  (Some (Build_desc (Some (bs "6\d{7}")) [] [] (Some (bs "63123456"))))
  (Some (Build_desc (Some (bs "2333[0-8]\d{3}|2(?:[0-24-9]\d\d|3(?:0[07]|[14-9]\d|2[02-9]|3[0-24-9]))\d{4}")) [] [] (Some (bs "21234567"))))
  (Some (Build_desc (Some (bs "80\d{6}")) [] [] (Some (bs "80123456"))))
  (Some (Build_desc (Some (bs "90\d{6}")) [] [] (Some (bs "90123456"))))
  (Some (Build_desc (Some (bs "81\d{6}")) [] [] (Some (bs "81123456"))))
  (Some (Build_desc None [(-1)%Z] [] None))
  (Some (Build_desc None [(-1)%Z] [] None))
  (Some (Build_desc None [(-1)%Z] [] None))
  (Some (Build_desc None [(-1)%Z] [] None))
  None
  (Some (Build_desc None [(-1)%Z] [] None))
  None
  None
  None
  None
  (Some (Build_desc None [(-1)%Z] [] None))
  (Some (bs "LV")) (Some (371)%Z) (Some (bs "00")) None None
  None None None None
  [Build_nfmt (Some (bs "(\d{2})(\d{3})(\d{3})")) (Some (bs "$1 $2 $3")) [bs "[2679]|8[01]"] None None None]
  []
  None None (Some true).

Definition md_LY : meta := Eval vm_compute in Build_meta
  (Some (Build_desc (Some (bs "[2-9]\d{8}")) [(9)%Z] [(7)%Z] None))
  (Some (Build_desc (Some (bs "(?:2(?:0[56]|[1-6]\d|7[124579]|8[124])|3(?:1\d|2[2356])|4(?:[17]\d|2[1-357]|5[2-4]|8[124])|5(?:[1347]\d|2[1-469]|5[13-5]|8[1-4])|6(?:[1-479]\d|5[2-57]|8[1-5])|7(?:[13]\d|2[13-79])|8(?:[124]\d|5[124]|84))\d{6}")) [] [(7)%Z] (Some (bs "212345678"))))
  (Some (Build_desc (Some (bs "9[1-6]\d{7}")) [] [] (Some (bs "912345678"))))
  (Some (Build_desc None [(-1)%Z] [] None))
  (Some (Build_desc None [(-1)%Z] [] None))
  (Some (Build_desc None [(-1)%Z] [] None))
  (Some (Build_desc None [(-1)%Z] [] None))
  (Some (Build_desc None [(-1)%Z] [] None))
  (Some (Build_desc None [(-1)%Z] [] None))
  (Some (Build_desc None [(-1)%Z] [] None))
  None
  (Some (Build_desc None [(-1)%Z] [] None))
  None
  None
  None
  None
  (Some (Build_desc None [(-1)%Z] [] None))
  (Some (bs "LY")) (Some (218)%Z) (Some (bs "00")) None (Some (bs "0"))
  None (Some (bs "0")) None None
  [Build_nfmt (Some (bs "(\d{2})(\d{7})")) (Some (bs "$1-$2")) [bs "[2-9]"] (Some (bs "0$1")) None None]
  []
  None None None.

Definition md_MA : meta := Eval vm_compute in Build_meta
  (Some (Build_desc (Some (bs "[5-8]\d{8}")) [(9)%Z] [] None))
  (Some (Build_desc (Some (bs "5(?:(?:18|4[0679]|5[03])\d|2(?:[0-25-79]\d|3[1-578]|4[02-46-8]|8[0235-9])|3(?:[0-47]\d|5[02-9]|6[02-8]|8[014-9]|9[3-9]))\d{5}")) [] [] (Some (bs "520123456"))))
  (Some (Build_desc (Some (bs "(?:6(?:[0-79]\d|8[0-247-9])|7(?:[016-8]\d|2[0-8]|3[01]|5[0-5]))\d{6}")) [] [] (Some (bs "650123456"))))
  (Some (Build_desc (Some (bs "80[0-7]\d{6}")) [] [] (Some (bs "801234567"))))
  (Some (Build_desc (Some (bs "89\d{7}")) [] [] (Some (bs "891234567"))))
  (Some (Build_desc None [(-1)%Z] [] None))
  (Some (Build_desc None [(-1)%Z] [] None))
  (Some (Build_desc (Some (bs "(?:592(?:4[0-2]|93)|80[89]\d\d)\d{4}")) [] [] (Some (bs "592401234"))))
  (Some (Build_desc None [(-1)%Z] [] None))
  (Some (Build_desc None [(-1)%Z] [] None))
  None
  (Some (Build_desc None [(-1)%Z] [] None))
  None
  None
  None
  None
  (Some (Build_desc None [(-1)%Z] [] None))
  (Some (bs "MA")) (Some (212)%Z) (Some (bs "00")) None (Some (bs "0"))
  None (Some (bs "0")) None None
  [Build_nfmt (Some (bs "(\d{4})(\d{5})")) (Some (bs "$1-$2")) [bs "892"] (Some (bs "0$1")) None None;
    Build_nfmt (Some (bs "(\d{2})(\d{7})")) (Some (bs "$1-$2")) [bs "8(?:0[0-7]|9)"] (Some (bs "0$1")) None None;
    Build_nfmt (Some (bs "(\d)(\d{2})(\d{2})(\d{2})(\d{2})")) (Some (bs "$1 $2 $3 $4 $5")) [bs "[5-8]"] (Some (bs "0$1")) None None]
  []
  (Some true) (Some (bs "[5-8]")) (Some true).

Definition md_MC : meta := Eval vm_compute in Build_meta
  (Some (Build_desc (Some (bs "(?:[3489]|[67]\d)\d{7}")) [(8)%Z; (9)%Z] [] None))
  (Some (Build_desc (Some (bs "(?:870|9[2-47-9]\d)\d{5}")) [(8)%Z] [] (Some (bs "99123456"))))
  (Some (Build_desc (Some (bs "4(?:[46]\d|5[1-9])\d{5}|(?:3|[67]\d)\d{7}")) [] [] (Some (bs "612345678"))))
  (Some (Build_desc (Some (bs "(?:800|90\d)\d{5}")) [(8)%Z] [] (Some (bs "90123456"))))
  (Some (Build_desc None [(-1)%Z] [] None))
  (Some (Build_desc None [(-1)%Z] [] None))
  (Some (Build_desc None [(-1)%Z] [] None))
  (Some (Build_desc None [(-1)%Z] [] None))
  (Some (Build_desc None [(-1)%Z] [] None))
  (Some (Build_desc None [(-1)%Z] [] None))
  None
  (Some (Build_desc None [(-1)%Z] [] None))
  None
  None
  None
  None
  (Some (Build_desc (Some (bs "8[07]0\d{5}")) [(8)%Z] [] None))
  (Some (bs "MC")) (Some (377)%Z) (Some (bs "00")) None (Some (bs "0"))
  None (Some (bs "0")) None None
  [Build_nfmt (Some (bs "(\d{3})(\d{3})(\d{2})")) (Some (bs "$1 $2 $3")) [bs "87"] None None None;
    Build_nfmt (Some (bs "(\d{2})(\d{3})(\d{3})")) (Some (bs "$1 $2 $3")) [bs "4"] (Some (bs "0$1")) None None;
    Build_nfmt (Some (bs "(\d{2})(\d{2})(\d{2})(\d{2})")) (Some (bs "$1 $2 $3 $4")) [bs "[389]"] None None None;
    Build_nfmt (Some (bs "(\d)(\d{2})(\d{2})(\d{2})(\d{2})")) (Some (bs "$1 $2 $3 $4 $5")) [bs "[67]"] (Some (bs "0$1")) None None]
  [Build_nfmt (Some (bs "(\d{2})(\d{3})(\d{3})")) (Some (bs "$1 $2 $3")) [bs "4"] (Some (bs "0$1")) None None;
    Build_nfmt (Some (bs "(\d{2})(\d{2})(\d{2})(\d{2})")) (Some (bs "$1 $2 $3 $4")) [bs "[389]"] None None None;
    Build_nfmt (Some (bs "(\d)(\d{2})(\d{2})(\d{2})(\d{2})")) (Some (bs "$1 $2 $3 $4 $5")) [bs "[67]"] (Some (bs "0$1")) None None]
  None None None.

Definition md_MD : meta := Eval vm_compute in Build_meta
  (Some (Build_desc (Some (bs "(?:[235-7]\d|[89]0)\d{6}")) [(8)%Z] [] None))
  (Some (Build_desc (Some (bs "(?:(?:2[1-9]|3[1-79])\d|5(?:33|5[257]))\d{5}")) [] [] (Some (bs "22212345"))))
  (Some (Build_desc (Some (bs "562\d{5}|(?:6\d|7[16-9])\d{6}")) [] [] (Some (bs "62112345"))))
  (Some (Build_desc (Some (bs "800\d{5}")) [] [] (Some (bs "80012345"))))
  (Some (Build_desc (Some (bs "90[056]\d{5}")) [] [] (Some (bs "90012345"))))
  (Some (Build_desc (Some (bs "808\d{5}")) [] [] (Some (bs "80812345"))))
  (Some (Build_desc None [(-1)%Z] [] None))
  (Some (Build_desc (Some (bs "3[08]\d{6}")) [] [] (Some (bs "30123456"))))
  (Some (Build_desc None [(-1)%Z] [] None))
  (Some (Build_desc (Some (bs "803\d{5}")) [] [] (Some (bs "80312345"))))
  None
  (Some (Build_desc None [(-1)%Z] [] None))
  None
  None
  None
  None
  (Some (Build_desc None [(-1)%Z] [] None))
  (Some (bs "MD")) (Some (373)%Z) (Some (bs "00")) None (Some (bs "0"))
  None (Some (bs "0")) None None
  [Build_nfmt (Some (bs "(\d{3})(\d{5})")) (Some (bs "$1 $2")) [bs "[89]"] (Some (bs "0$1")) None None;
    Build_nfmt (Some (bs "(\d{2})(\d{3})(\d{3})")) (Some (bs "$1 $2 $3")) [bs "22|3"] (Some (bs "0$1")) None None;
    Build_nfmt (Some (bs "(\d{3})(\d{2})(\d{3})")) (Some (bs "$1 $2 $3")) [bs "[25-7]"] (Some (bs "0$1")) None None]
  []
  None None (Some true).

Definition md_ME : meta := Eval vm_compute in Build_meta
  (Some (Build_desc (Some (bs "(?:20|[3-79]\d)\d{6}|80\d{6,7}")) [(8)%Z; (9)%Z] [(6)%Z] None))
  (Some (Build_desc (Some (bs "(?:20[2-8]|3(?:[0-2][2-7]|3[24-7])|4(?:0[2-467]|1[2467])|5(?:0[2467]|1[24-7]|2[2-467]))\d{5}")) [(8)%Z] [(6)%Z] (Some (bs "30234567"))))
  (Some (Build_desc (Some (bs "6(?:[07-9]\d|3[024]|6[0-25])\d{5}")) [(8)%Z] [] (Some (bs "60123456"))))
  (Some (Build_desc (Some (bs "80(?:[0-2578]|9\d)\d{5}")) [] [] (Some (bs "80080002"))))
  (Some (Build_desc (Some (bs "9(?:4[1568]|5[178])\d{5}")) [(8)%Z] [] (Some (bs "94515151"))))
  (Some (Build_desc None [(-1)%Z] [] None))
  (Some (Build_desc None [(-1)%Z] [] None))
  (Some (Build_desc (Some (bs "78[1-49]\d{5}")) [(8)%Z] [] (Some (bs "78108780"))))
  (Some (Build_desc None [(-1)%Z] [] None))
  (Some (Build_desc (Some (bs "77[1-9]\d{5}")) [(8)%Z] [] (Some (bs "77273012"))))
  None
  (Some (Build_desc None [(-1)%Z] [] None))
  None
  None
  None
  None
  (Some (Build_desc None [(-1)%Z] [] None))
  (Some (bs "ME")) (Some (382)%Z) (Some (bs "00")) None (Some (bs "0"))
  None (Some (bs "0")) None None
  [Build_nfmt (Some (bs "(\d{2})(\d{3})(\d{3,4})")) (Some (bs "$1 $2 $3")) [bs "[2-9]"] (Some (bs "0$1")) None None]
  []
  None None None.

Definition md_MF : meta := Eval vm_compute in Build_meta
  (Some (Build_desc (Some (bs "7090\d{5}|(?:[56]9|[89]\d)\d{7}")) [(9)%Z] [] None))
  (Some (Build_desc (Some (bs "(?:59(?:0(?:0[079]|[14]3|[27][79]|3[03-7]|5[0-268]|87)|87\d)|80[6-9]\d\d)\d{4}")) [] [] (Some (bs "590271234"))))
  (Some (Build_desc (Some (bs "(?:69(?:0\d\d|1(?:2[2-9]|3[0-5]))|7090[0-4])\d{4}")) [] [] (Some (bs "690001234"))))
  (Some (Build_desc (Some (bs "80[0-5]\d{6}")) [] [] (Some (bs "800012345"))))
  (Some (Build_desc (Some (bs "8[129]\d{7}")) [] [] (Some (bs "810123456"))))
  (Some (Build_desc None [(-1)%Z] [] None))
  (Some (Build_desc None [(-1)%Z] [] None))
  (Some (Build_desc (Some (bs "9(?:(?:39[5-7]|76[018])\d|475[0-6])\d{4}")) [] [] (Some (bs "976012345"))))
  (Some (Build_desc None [(-1)%Z] [] None))
  (Some (Build_desc None [(-1)%Z] [] None))
  None
  (Some (Build_desc None [(-1)%Z] [] None))
  None
  None
  None
  None
  (Some (Build_desc None [(-1)%Z] [] None))
  (Some (bs "MF")) (Some (590)%Z) (Some (bs "00")) None (Some (bs "0"))
  None (Some (bs "0")) None None
  []
  []
  None None (Some true).

Definition md_MG : meta := Eval vm_compute in Build_meta
  (Some (Build_desc (Some (bs "[23]\d{8}")) [(9)%Z] [(7)%Z] None))
  (Some (Build_desc (Some (bs "2072[29]\d{4}|20(?:2\d|4[47]|5[3467]|6[279]|7[356]|8[268]|9[2457])\d{5}")) [] [(7)%Z] (Some (bs "202123456"))))
  (Some (Build_desc (Some (bs "3[2-9]\d{7}")) [] [] (Some (bs "321234567"))))
  (Some (Build_desc None [(-1)%Z] [] None))
  (Some (Build_desc None [(-1)%Z] [] None))
  (Some (Build_desc None [(-1)%Z] [] None))
  (Some (Build_desc None [(-1)%Z] [] None))
  (Some (Build_desc (Some (bs "22\d{7}")) [] [] (Some (bs "221234567"))))
  (Some (Build_desc None [(-1)%Z] [] None))
  (Some (Build_desc None [(-1)%Z] [] None))
  None
  (Some (Build_desc None [(-1)%Z] [] None))
  None
  None
  None
  None
  (Some (Build_desc None [(-1)%Z] [] None))
  (Some (bs "MG")) (Some (261)%Z) (Some (bs "00")) None (Some (bs "0"))
  None (Some (bs "([24-9]\d{6})$|0")) (Some (bs "20$1")) None
  [Build_nfmt (Some (bs "(\d{2})(\d{2})(\d{3})(\d{2})")) (Some (bs "$1 $2 $3 $4")) [bs "[23]"] (Some (bs "0$1")) None None]
  []
  None None None.

Definition md_MH : meta := Eval vm_compute in Build_meta
  (Some (Build_desc (Some (bs "329\d{4}|(?:[256]\d|45)\d{5}")) [(7)%Z] [] None))
  (Some (Build_desc (Some (bs "(?:247|528|625)\d{4}")) [] [] (Some (bs "2471234"))))
  (Some (Build_desc (Some (bs "(?:(?:23|54)5|329|45[35-8])\d{4}")) [] [] (Some (bs "2351234"))))
  (Some (Build_desc None [(-1)%Z] [] None))
  (Some (Build_desc None [(-1)%Z] [] None))
  (Some (Build_desc None [(-1)%Z] [] None))
  (Some (Build_desc None [(-1)%Z] [] None))
  (Some (Build_desc (Some (bs "635\d{4}")) [] [] (Some (bs "6351234"))))
  (Some (Build_desc None [(-1)%Z] [] None))
  (Some (Build_desc None [(-1)%Z] [] None))
  None
  (Some (Build_desc None [(-1)%Z] [] None))
  None
  None
  None
  None
  (Some (Build_desc None [(-1)%Z] [] None))
  (Some (bs "MH")) (Some (692)%Z) (Some (bs "011")) None (Some (bs "1"))
  None (Some (bs "1")) None None
  [Build_nfmt (Some (bs "(\d{3})(\d{4})")) (Some (bs "$1-$2")) [bs "[2-6]"] None None None]
  []
  None None None.

Definition md_MK : meta := Eval vm_compute in Build_meta
  (Some (Build_desc (Some (bs "[2-578]\d{7}")) [(8)%Z] [(6)%Z; (7)%Z] None))
  (Some (Build_desc (Some (bs "(?:(?:2(?:62|77)0|3444)\d|4[56]440)\d{3}|(?:34|4[357])700\d{3}|(?:2(?:[0-3]\d|5[0-578]|6[01]|82)|3(?:1[3-68]|[23][2-68]|4[23568])|4(?:[23][2-68]|4[3-68]|5[2568]|6[25-8]|7[24-68]|8[4-68]))\d{5}")) [] [(6)%Z; (7)%Z] (Some (bs "22012345"))))
  (Some (Build_desc (Some (bs "7(?:3555|(?:474|9[019]7)7)\d{3}|7(?:[0-25-8]\d\d|3(?:[1-478]\d|6[01])|4(?:2\d|60|7[01578])|9(?:[2-4]\d|5[01]|7[015]))\d{4}")) [] [] (Some (bs "72345678"))))
  (Some (Build_desc (Some (bs "800\d{5}")) [] [] (Some (bs "80012345"))))
  (Some (Build_desc (Some (bs "5\d{7}")) [] [] (Some (bs "50012345"))))
  (Some (Build_desc (Some (bs "8(?:0[1-9]|[1-9]\d)\d{5}")) [] [] (Some (bs "80123456"))))
  (Some (Build_desc None [(-1)%Z] [] None))
  (Some (Build_desc None [(-1)%Z] [] None))
  (Some (Build_desc None [(-1)%Z] [] None))
  (Some (Build_desc None [(-1)%Z] [] None))
  None
  (Some (Build_desc None [(-1)%Z] [] None))
  None
  None
  None
  None
  (Some (Build_desc None [(-1)%Z] [] None))
  (Some (bs "MK")) (Some (389)%Z) (Some (bs "00")) None (Some (bs "0"))
  None (Some (bs "0")) None None
  [Build_nfmt (Some (bs "(\d)(\d{3})(\d{4})")) (Some (bs "$1 $2 $3")) [bs "2|34[47]|4(?:[37]7|5[47]|64)"] (Some (bs "0$1")) None None;
    Build_nfmt (Some (bs "(\d{2})(\d{3})(\d{3})")) (Some (bs "$1 $2 $3")) [bs "[347]"] (Some (bs "0$1")) None None;
    Build_nfmt (Some (bs "(\d{3})(\d)(\d{2})(\d{2})")) (Some (bs "$1 $2 $3 $4")) [bs "[58]"] (Some (bs "0$1")) None None]
  []
  None None (Some true).

Definition md_ML : meta := Eval vm_compute in Build_meta
  (Some (Build_desc (Some (bs "[24-9]\d{7}")) [(8)%Z] [] None))
  (Some (Build_desc (Some (bs "2(?:07[0-8]|12[67])\d{4}|(?:2(?:02|1[4-689])|4(?:0[0-4]|4[1-69]))\d{5}")) [] [] (Some (bs "20212345"))))
  (Some (Build_desc (Some (bs "2(?:0(?:01|79)|17\d)\d{4}|(?:5[0-3]|[679]\d|8[2-59])\d{6}")) [] [] (Some (bs "65012345"))))
  (Some (Build_desc (Some (bs "80\d{6}")) [] [] (Some (bs "80012345"))))
  (Some (Build_desc None [(-1)%Z] [] None))
  (Some (Build_desc None [(-1)%Z] [] None))
  (Some (Build_desc None [(-1)%Z] [] None))
  (Some (Build_desc None [(-1)%Z] [] None))
  (Some (Build_desc None [(-1)%Z] [] None))
  (Some (Build_desc None [(-1)%Z] [] None))
  None
  (Some (Build_desc None [(-1)%Z] [] None))
  None
  None
  None
  None
  (Some (Build_desc (Some (bs "80\d{6}")) [] [] None))
  (Some (bs "ML")) (Some (223)%Z) (Some (bs "00")) None None
  None None None None
  [Build_nfmt (Some (bs "(\d{4})")) (Some (bs "$1")) [bs "67[057-9]|74[045]"; bs "67(?:0[09]|[59]9|77|8[89])|74(?:0[02]|44|55)"] None None None;
    Build_nfmt (Some (bs "(\d{2})(\d{2})(\d{2})(\d{2})")) (Some (bs "$1 $2 $3 $4")) [bs "[24-9]"] None None None]
  [Build_nfmt (Some (bs "(\d{2})(\d{2})(\d{2})(\d{2})")) (Some (bs "$1 $2 $3 $4")) [bs "[24-9]"] None None None]
  None None None.

Definition md_MM : meta := Eval vm_compute in Build_meta
  (Some (Build_desc (Some (bs "1\d{5,7}|95\d{6}|(?:[4-7]|9[0-46-9])\d{6,8}|(?:2|8\d)\d{5,8}")) [(6)%Z; (7)%Z; (8)%Z; (9)%Z; (10)%Z] [(5)%Z] None))
  (Some (Build_desc (Some (bs "(?:1(?:(?:12|[28]\d|3[56]|7[3-6]|9[0-6])\d|4(?:2[29]|7[0-2]|83)|6)|2(?:2(?:00|8[34])|4(?:0\d|22|7[0-2]|83)|51\d\d)|4(?:2(?:2\d\d|48[013])|3(?:20\d|4(?:70|83)|56)|420\d|5(?:2\d|470))|6(?:0(?:[23]|88\d)|(?:124|[56]2\d)\d|2472|3(?:20\d|470)|4(?:2[04]\d|472)|7(?:3\d\d|4[67]0|8(?:[01459]\d|8))))\d{4}|5(?:2(?:2\d{5,6}|47[02]\d{4})|(?:3472|4(?:2(?:1|86)|470)|522\d|6(?:20\d|483)|7(?:20\d|48[01])|8(?:20\d|47[02])|9(?:20\d|470))\d{4})|7(?:(?:0470|4(?:25\d|470)|5(?:202|470|96\d))\d{4}|1(?:20\d{4,5}|4(?:70|83)\d{4}))|8(?:1(?:2\d{5,6}|4(?:10|7[01]\d)\d{3})|2(?:2\d{5,6}|(?:320|490\d)\d{3})|(?:3(?:2\d\d|470)|4[24-7]|5(?:(?:2\d|51)\d|4(?:[1-35-9]\d|4[0-57-9]))|6[23])\d{4})|(?:1[2-6]\d|4(?:2[24-8]|3[2-7]|[46][2-6]|5[3-5])|5(?:[27][2-8]|3[2-68]|4[24-8]|5[23]|6[2-4]|8[24-7]|9[2-7])|6(?:[19]20|42[03-6]|(?:52|7[45])\d)|7(?:[04][24-8]|[15][2-7]|22|3[2-4])|8(?:1[2-689]|2[2-8]|(?:[35]2|64)\d))\d{4}|25\d{5,6}|(?:2[2-9]|6(?:1[2356]|[24][2-6]|3[24-6]|5[2-4]|6[2-8]|7[235-7]|8[245]|9[24])|8(?:3[24]|5[245]))\d{4}")) [(6)%Z; (7)%Z; (8)%Z; (9)%Z] [(5)%Z] (Some (bs "1234567"))))
  (Some (Build_desc (Some (bs "(?:17[01]|9(?:2(?:[0-4]|[56]\d\d)|(?:3(?:[0-36]|4\d)|(?:6\d|8[89]|9[4-8])\d|7(?:3|40|[5-9]\d))\d|4(?:(?:[0245]\d|[1379])\d|88)|5[0-6])\d)\d{4}|9[69]1\d{6}|9(?:[68]\d|9[089])\d{5}")) [(7)%Z; (8)%Z; (9)%Z; (10)%Z] [] (Some (bs "92123456"))))
  (Some (Build_desc (Some (bs "80080(?:0[1-9]|2\d)\d{3}")) [(10)%Z] [] (Some (bs "8008001234"))))
  (Some (Build_desc None [(-1)%Z] [] None))
  (Some (Build_desc None [(-1)%Z] [] None))
  (Some (Build_desc None [(-1)%Z] [] None))
  (Some (Build_desc (Some (bs "1333\d{4}")) [(8)%Z] [] (Some (bs "13331234"))))
  (Some (Build_desc None [(-1)%Z] [] None))
  (Some (Build_desc None [(-1)%Z] [] None))
  None
  (Some (Build_desc None [(-1)%Z] [] None))
  None
  None
  None
  None
  (Some (Build_desc None [(-1)%Z] [] None))
  (Some (bs "MM")) (Some (95)%Z) (Some (bs "00")) None (Some (bs "0"))
  None (Some (bs "0")) None None
  [Build_nfmt (Some (bs "(\d)(\d{2})(\d{3})")) (Some (bs "$1 $2 $3")) [bs "16|2"] (Some (bs "0$1")) None None;
    Build_nfmt (Some (bs "(\d{2})(\d{2})(\d{3})")) (Some (bs "$1 $2 $3")) [bs "4(?:[2-46]|5[3-5])|5|6(?:[1-689]|7[235-7])|7(?:[0-4]|5[2-7])|8[1-5]|(?:60|86)[23]"] (Some (bs "0$1")) None None;
    Build_nfmt (Some (bs "(\d)(\d{3})(\d{3,4})")) (Some (bs "$1 $2 $3")) [bs "[12]|452|678|86"; bs "[12]|452|6788|86"] (Some (bs "0$1")) None None;
    Build_nfmt (Some (bs "(\d{2})(\d{3})(\d{3,4})")) (Some (bs "$1 $2 $3")) [bs "[4-7]|8[1-35]"] (Some (bs "0$1")) None None;
    Build_nfmt (Some (bs "(\d)(\d{3})(\d{4,6})")) (Some (bs "$1 $2 $3")) [bs "9(?:2[0-4]|[35-9]|4[137-9])"] (Some (bs "0$1")) None None;
    Build_nfmt (Some (bs "(\d)(\d{4})(\d{4})")) (Some (bs "$1 $2 $3")) [bs "2"] (Some (bs "0$1")) None None;
    Build_nfmt (Some (bs "(\d{3})(\d{3})(\d{4})")) (Some (bs "$1 $2 $3")) [bs "8"] (Some (bs "0$1")) None None;
    Build_nfmt (Some (bs "(\d)(\d{3})(\d{3})(\d{3})")) (Some (bs "$1 $2 $3 $4")) [bs "92"] (Some (bs "0$1")) None None;
    Build_nfmt (Some (bs "(\d)(\d{5})(\d{4})")) (Some (bs "$1 $2 $3")) [bs "9"] (Some (bs "0$1")) None None]
  []
  None None None.

Definition md_MN : meta := Eval vm_compute in Build_meta
  (Some (Build_desc (Some (bs "[12]\d{7,9}|[5-9]\d{7}")) [(8)%Z; (9)%Z; (10)%Z] [(4)%Z; (5)%Z; (6)%Z] None))
  (Some (Build_desc (Some (bs "[12](?:2[1-3]|(?:3[2-8]|4[2-68]|5[1-4689])\d)\d{5,6}|7(?:0(?:[0-5]\d|7[078]|80)|128)\d{4}|[12]27\d{6}|(?:11|2[16]|5[368])\d{6}")) [] [(4)%Z; (5)%Z; (6)%Z] (Some (bs "53123456"))))
  (Some (Build_desc (Some (bs "(?:87[01]|92[0139])\d{5}|(?:5[05]|6[069]|7[28]|8[0135689]|9[013-9])\d{6}")) [(8)%Z] [] (Some (bs "88123456"))))
  (Some (Build_desc None [(-1)%Z] [] None))
  (Some (Build_desc None [(-1)%Z] [] None))
  (Some (Build_desc None [(-1)%Z] [] None))
  (Some (Build_desc None [(-1)%Z] [] None))
  (Some (Build_desc (Some (bs "712[0-79]\d{4}|7(?:1[013-9]|[5-79]\d)\d{5}")) [(8)%Z] [] (Some (bs "75123456"))))
  (Some (Build_desc None [(-1)%Z] [] None))
  (Some (Build_desc None [(-1)%Z] [] None))
  None
  (Some (Build_desc None [(-1)%Z] [] None))
  None
  None
  None
  None
  (Some (Build_desc None [(-1)%Z] [] None))
  (Some (bs "MN")) (Some (976)%Z) (Some (bs "001")) None (Some (bs "0"))
  None (Some (bs "0")) None None
  [Build_nfmt (Some (bs "(\d{2})(\d{2})(\d{4})")) (Some (bs "$1 $2 $3")) [bs "11|2[16]"] (Some (bs "0$1")) None None;
    Build_nfmt (Some (bs "(\d{4})(\d{4})")) (Some (bs "$1 $2")) [bs "[5-9]"] None None None;
    Build_nfmt (Some (bs "(\d{3})(\d{5,6})")) (Some (bs "$1 $2")) [bs "[12]2[1-3]"] (Some (bs "0$1")) None None;
    Build_nfmt (Some (bs "(\d{4})(\d{5,6})")) (Some (bs "$1 $2")) [bs "[12](?:27|3[2-8]|4[2-68]|5[1-4689])"; bs "[12](?:27|3[2-8]|4[2-68]|5[1-4689])[0-3]"] (Some (bs "0$1")) None None;
    Build_nfmt (Some (bs "(\d{5})(\d{4,5})")) (Some (bs "$1 $2")) [bs "[12]"] (Some (bs "0$1")) None None]
  []
  None None None.

Definition md_MO : meta := Eval vm_compute in Build_meta
  (Some (Build_desc (Some (bs "0800\d{3}|(?:28|[68]\d)\d{6}")) [(7)%Z; (8)%Z] [] None))
  (Some (Build_desc (Some (bs "(?:28[2-9]|8(?:11|[2-57-9]\d))\d{5}")) [(8)%Z] [] (Some (bs "28212345"))))
  (Some (Build_desc (Some (bs "6800[0-79]\d{3}|6(?:[235]\d\d|6(?:0[0-5]|[1-9]\d)|8(?:0[1-9]|[14-8]\d|2[5-9]|[39][0-4]))\d{4}")) [(8)%Z] [] (Some (bs "66123456"))))
  (Some (Build_desc (Some (bs "0800\d{3}")) [(7)%Z] [] (Some (bs "0800501"))))
  (Some (Build_desc None [(-1)%Z] [] None))
  (Some (Build_desc None [(-1)%Z] [] None))
  (Some (Build_desc None [(-1)%Z] [] None))
  (Some (Build_desc None [(-1)%Z] [] None))
  (Some (Build_desc None [(-1)%Z] [] None))
  (Some (Build_desc None [(-1)%Z] [] None))
  None
  (Some (Build_desc None [(-1)%Z] [] None))
  None
  None
  None
  None
  (Some (Build_desc None [(-1)%Z] [] None))
  (Some (bs "MO")) (Some (853)%Z) (Some (bs "00")) None None
  None None None None
  [Build_nfmt (Some (bs "(\d{4})(\d{3})")) (Some (bs "$1 $2")) [bs "0"] None None None;
    Build_nfmt (Some (bs "(\d{4})(\d{4})")) (Some (bs "$1 $2")) [bs "[268]"] None None None]
  []
  None None None.

Definition md_MP : meta := Eval vm_compute in Build_meta
  (Some (Build_desc (Some (bs "[58]\d{9}|(?:67|90)0\d{7}")) [(10)%Z] [(7)%Z] None))
  (Some (Build_desc (Some (bs "670(?:2(?:3[3-7]|56|8[4-8])|32[1-38]|4(?:33|8[348])|5(?:32|55|88)|6(?:64|70|82)|78[3589]|8[3-9]8|989)\d{4}")) [] [(7)%Z] (Some (bs "6702345678"))))
  (Some (Build_desc (Some (bs "670(?:2(?:3[3-7]|56|8[4-8])|32[1-38]|4(?:33|8[348])|5(?:32|55|88)|6(?:64|70|82)|78[3589]|8[3-9]8|989)\d{4}")) [] [(7)%Z] (Some (bs "6702345678"))))
  (Some (Build_desc (Some (bs "8(?:00|33|44|55|66|77|88)[2-9]\d{6}")) [] [] (Some (bs "8002123456"))))
  (Some (Build_desc (Some (bs "900[2-9]\d{6}")) [] [] (Some (bs "9002123456"))))
  (Some (Build_desc None [(-1)%Z] [] None))
  (Some (Build_desc (Some (bs "52(?:3(?:[2-46-9][02-9]\d|5(?:[02-46-9]\d|5[0-46-9]))|4(?:[2-478][02-9]\d|5(?:[034]\d|2[024-9]|5[0-46-9])|6(?:0[1-9]|[2-9]\d)|9(?:[05-9]\d|2[0-5]|49)))\d{4}|52[34][2-9]1[02-9]\d{4}|5(?:00|2[125-9]|3[23]|44|66|77|88)[2-9]\d{6}")) [] [] (Some (bs "5002345678"))))
  (Some (Build_desc None [(-1)%Z] [] None))
  (Some (Build_desc None [(-1)%Z] [] None))
  (Some (Build_desc None [(-1)%Z] [] None))
  None
  (Some (Build_desc None [(-1)%Z] [] None))
  None
  None
  None
  None
  (Some (Build_desc None [(-1)%Z] [] None))
  (Some (bs "MP")) (Some (1)%Z) (Some (bs "011")) None (Some (bs "1"))
  None (Some (bs "([2-9]\d{6})$|1")) (Some (bs "670$1")) (Some true)
  []
  []
  None (Some (bs "670")) None.

Definition md_MQ : meta := Eval vm_compute in Build_meta
  (Some (Build_desc (Some (bs "7091\d{5}|(?:[56]9|[89]\d)\d{7}")) [(9)%Z] [] None))
  (Some (Build_desc (Some (bs "(?:59(?:6(?:[03-7]\d|1[05]|2[7-9]|8[0-39]|9[04-9])|89\d)|80[6-9]\d\d|9(?:477[6-9]|767[4589]))\d{4}")) [] [] (Some (bs "596301234"))))
  (Some (Build_desc (Some (bs "(?:69[67]\d\d|7091[0-3])\d{4}")) [] [] (Some (bs "696201234"))))
  (Some (Build_desc (Some (bs "80[0-5]\d{6}")) [] [] (Some (bs "800012345"))))
  (Some (Build_desc (Some (bs "8[129]\d{7}")) [] [] (Some (bs "810123456"))))
  (Some (Build_desc None [(-1)%Z] [] None))
  (Some (Build_desc None [(-1)%Z] [] None))
  (Some (Build_desc (Some (bs "9(?:397[0-3]|477[0-5]|76(?:6\d|7[0-367]))\d{4}")) [] [] (Some (bs "976612345"))))
  (Some (Build_desc None [(-1)%Z] [] None))
  (Some (Build_desc None [(-1)%Z] [] None))
  None
  (Some (Build_desc None [(-1)%Z] [] None))
  None
  None
  None
  None
  (Some (Build_desc None [(-1)%Z] [] None))
  (Some (bs "MQ")) (Some (596)%Z) (Some (bs "00")) None (Some (bs "0"))
  None (Some (bs "0")) None None
  [Build_nfmt (Some (bs "(\d{3})(\d{2})(\d{2})(\d{2})")) (Some (bs "$1 $2 $3 $4")) [bs "[5-79]|8(?:0[6-9]|[36])"] (Some (bs "0$1")) None None;
    Build_nfmt (Some (bs "(\d{3})(\d{2})(\d{2})(\d{2})")) (Some (bs "$1 $2 $3 $4")) [bs "8"] (Some (bs "0$1")) None None]
  []
  None None (Some true).

Definition md_MR : meta := Eval vm_compute in Build_meta
  (Some (Build_desc (Some (bs "(?:[2-4]\d\d|800)\d{5}")) [(8)%Z] [] None))
  (Some (Build_desc (Some (bs "(?:25[08]|35\d|45[1-7])\d{5}")) [] [] (Some (bs "35123456"))))
  (Some (Build_desc (Some (bs "[2-4][0-46-9]\d{6}")) [] [] (Some (bs "22123456"))))
  (Some (Build_desc (Some (bs "800\d{5}")) [] [] (Some (bs "80012345"))))
  (Some (Build_desc None [(-1)%Z] [] None))
  (Some (Build_desc None [(-1)%Z] [] None))
  (Some (Build_desc None [(-1)%Z] [] None))
  (Some (Build_desc None [(-1)%Z] [] None))
  (Some (Build_desc None [(-1)%Z] [] None))
  (Some (Build_desc None [(-1)%Z] [] None))
  None
  (Some (Build_desc None [(-1)%Z] [] None))
  None
  None
  None
  None
  (Some (Build_desc None [(-1)%Z] [] None))
  (Some (bs "MR")) (Some (222)%Z) (Some (bs "00")) None None
  None None None None
  [Build_nfmt (Some (bs "(\d{2})(\d{2})(\d{2})(\d{2})")) (Some (bs "$1 $2 $3 $4")) [bs "[2-48]"] None None None]
  []
  None None None.

Definition md_MS : meta := Eval vm_compute in Build_meta
  (Some (Build_desc (Some (bs "(?:[58]\d\d|664|900)\d{7}")) [(10)%Z] [(7)%Z] None))
  (Some (Build_desc (Some (bs "6644(?:1[0-3]|91)\d{4}")) [] [(7)%Z] (Some (bs "6644912345"))))
  (Some (Build_desc (Some (bs "664(?:3(?:49|9[1-6])|49[2-6])\d{4}")) [] [(7)%Z] (Some (bs "6644923456"))))
  (Some (Build_desc (Some (bs "8(?:00|33|44|55|66|77|88)[2-9]\d{6}")) [] [] (Some (bs "8002123456"))))
  (Some (Build_desc (Some (bs "900[2-9]\d{6}")) [] [] (Some (bs "9002123456"))))
  (Some (Build_desc None [(-1)%Z] [] None))
  (Some (Build_desc (Some (bs "52(?:3(?:[2-46-9][02-9]\d|5(?:[02-46-9]\d|5[0-46-9]))|4(?:[2-478][02-9]\d|5(?:[034]\d|2[024-9]|5[0-46-9])|6(?:0[1-9]|[2-9]\d)|9(?:[05-9]\d|2[0-5]|49)))\d{4}|52[34][2-9]1[02-9]\d{4}|5(?:00|2[125-9]|3[23]|44|66|77|88)[2-9]\d{6}")) [] [] (Some (bs "5002345678"))))
  (Some (Build_desc None [(-1)%Z] [] None))
  (Some (Build_desc None [(-1)%Z] [] None))
  (Some (Build_desc None [(-1)%Z] [] None))
  None
  (Some (Build_desc None [(-1)%Z] [] None))
  None
  None
  None
  None
  (Some (Build_desc None [(-1)%Z] [] None))
  (Some (bs "MS")) (Some (1)%Z) (Some (bs "011")) None (Some (bs "1"))
  None (Some (bs "([34]\d{6})$|1")) (Some (bs "664$1")) None
  []
  []
  None (Some (bs "664")) (Some true).

Definition md_MT : meta := Eval vm_compute in Build_meta
  (Some (Build_desc (Some (bs "3550\d{4}|(?:[2579]\d\d|800)\d{5}")) [(8)%Z] [] None))
  (Some (Build_desc (Some (bs "20(?:3[1-4]|6[059])\d{4}|2(?:0[19]|[1-357]\d|60)\d{5}")) [] [] (Some (bs "21001234"))))
  (Some (Build_desc (Some (bs "(?:7(?:210|[79]\d\d)|9(?:[29]\d\d|69[67]|8(?:1[1-3]|89|97)))\d{4}")) [] [] (Some (bs "96961234"))))
  (Some (Build_desc (Some (bs "800(?:02|[3467]\d)\d{3}")) [] [] (Some (bs "80071234"))))
  (Some (Build_desc (Some (bs "5(?:0(?:0(?:37|43)|(?:6\d|70|9[0168])\d)|[12]\d0[1-5])\d{3}")) [] [] (Some (bs "50037123"))))
  (Some (Build_desc None [(-1)%Z] [] None))
  (Some (Build_desc None [(-1)%Z] [] None))
  (Some (Build_desc (Some (bs "3550\d{4}")) [] [] (Some (bs "35501234"))))
  (Some (Build_desc (Some (bs "7117\d{4}")) [] [] (Some (bs "71171234"))))
  (Some (Build_desc (Some (bs "501\d{5}")) [] [] (Some (bs "50112345"))))
  None
  (Some (Build_desc None [(-1)%Z] [] None))
  None
  None
  None
  None
  (Some (Build_desc None [(-1)%Z] [] None))
  (Some (bs "MT")) (Some (356)%Z) (Some (bs "00")) None None
  None None None None
  [Build_nfmt (Some (bs "(\d{4})(\d{4})")) (Some (bs "$1 $2")) [bs "[2357-9]"] None None None]
  []
  None None (Some true).

Definition md_MU : meta := Eval vm_compute in Build_meta
  (Some (Build_desc (Some (bs "(?:[57]|8\d\d)\d{7}|[2-468]\d{6}")) [(7)%Z; (8)%Z; (10)%Z] [] None))
  (Some (Build_desc (Some (bs "(?:2(?:[0346-8]\d|1[0-8])|4(?:[013568]\d|2[0-24-8]|71|90)|54(?:[3-5]\d|71)|6\d\d|8(?:14|3[129]))\d{4}")) [(7)%Z; (8)%Z] [] (Some (bs "54480123"))))
  (Some (Build_desc (Some (bs "5(?:4(?:2[1-389]|7[1-9])|87[15-8])\d{4}|(?:5(?:2[5-9]|4[3-689]|[57]\d|8[0-689]|9[0-8])|7(?:0[0-7]|3[013]))\d{5}")) [(8)%Z] [] (Some (bs "52512345"))))
  (Some (Build_desc (Some (bs "802\d{7}|80[0-2]\d{4}")) [(7)%Z; (10)%Z] [] (Some (bs "8001234"))))
  (Some (Build_desc (Some (bs "30\d{5}")) [(7)%Z] [] (Some (bs "3012345"))))
  (Some (Build_desc None [(-1)%Z] [] None))
  (Some (Build_desc None [(-1)%Z] [] None))
  (Some (Build_desc (Some (bs "3(?:20|9\d)\d{4}")) [(7)%Z] [] (Some (bs "3201234"))))
  (Some (Build_desc (Some (bs "219\d{4}")) [(7)%Z] [] (Some (bs "2190123"))))
  (Some (Build_desc None [(-1)%Z] [] None))
  None
  (Some (Build_desc None [(-1)%Z] [] None))
  None
  None
  None
  None
  (Some (Build_desc None [(-1)%Z] [] None))
  (Some (bs "MU")) (Some (230)%Z) (Some (bs "0(?:0|[24-7]0|3[03])")) (Some (bs "020")) None
  None None None None
  [Build_nfmt (Some (bs "(\d{3})(\d{4})")) (Some (bs "$1 $2")) [bs "[2-46]|8[013]"] None None None;
    Build_nfmt (Some (bs "(\d{4})(\d{4})")) (Some (bs "$1 $2")) [bs "[57]"] None None None;
    Build_nfmt (Some (bs "(\d{5})(\d{5})")) (Some (bs "$1 $2")) [bs "8"] None None None]
  []
  None None None.

Definition md_MV : meta := Eval vm_compute in Build_meta
  (Some (Build_desc (Some (bs "(?:800|9[0-57-9]\d)\d{7}|[34679]\d{6}")) [(7)%Z; (10)%Z] [] None))
  (Some (Build_desc (Some (bs "(?:3(?:0[0-4]|3[0-59])|6(?:[58][024689]|6[024-68]|7[02468]))\d{4}")) [(7)%Z] [] (Some (bs "6701234"))))
  (Some (Build_desc (Some (bs "(?:46[46]|[79]\d\d)\d{4}")) [(7)%Z] [] (Some (bs "7712345"))))
  (Some (Build_desc (Some (bs "800\d{7}")) [(10)%Z] [] (Some (bs "8001234567"))))
  (Some (Build_desc (Some (bs "900\d{7}")) [(10)%Z] [] (Some (bs "9001234567"))))
  (Some (Build_desc None [(-1)%Z] [] None))
  (Some (Build_desc None [(-1)%Z] [] None))
  (Some (Build_desc None [(-1)%Z] [] None))
  (Some (Build_desc None [(-1)%Z] [] None))
  (Some (Build_desc (Some (bs "4(?:0[01]|50)\d{4}")) [(7)%Z] [] (Some (bs "4001234"))))
  None
  (Some (Build_desc None [(-1)%Z] [] None))
  None
  None
  None
  None
  (Some (Build_desc None [(-1)%Z] [] None))
  (Some (bs "MV")) (Some (960)%Z) (Some (bs "0(?:0|19)")) (Some (bs "00")) None
  None None None None
  [Build_nfmt (Some (bs "(\d{3})(\d{4})")) (Some (bs "$1-$2")) [bs "[34679]"] None None None;
    Build_nfmt (Some (bs "(\d{3})(\d{3})(\d{4})")) (Some (bs "$1 $2 $3")) [bs "[89]"] None None None]
  []
  None None None.

Definition md_MW : meta := Eval vm_compute in Build_meta
  (Some (Build_desc (Some (bs "(?:[1289]\d|31|77)\d{7}|1\d{6}")) [(7)%Z; (9)%Z] [] None))
  (Some (Build_desc (Some (bs "1[2-9]\d{5}")) [(7)%Z] [] (Some (bs "1234567"))))
  (Some (Build_desc (Some (bs "111\d{6}|(?:2[12]|31|77|[89][89])\d{7}")) [(9)%Z] [] (Some (bs "991234567"))))
  (Some (Build_desc None [(-1)%Z] [] None))
  (Some (Build_desc None [(-1)%Z] [] None))
  (Some (Build_desc None [(-1)%Z] [] None))
  (Some (Build_desc None [(-1)%Z] [] None))
  (Some (Build_desc None [(-1)%Z] [] None))
  (Some (Build_desc None [(-1)%Z] [] None))
  (Some (Build_desc None [(-1)%Z] [] None))
  None
  (Some (Build_desc None [(-1)%Z] [] None))
  None
  None
  None
  None
  (Some (Build_desc None [(-1)%Z] [] None))
  (Some (bs "MW")) (Some (265)%Z) (Some (bs "00")) None (Some (bs "0"))
  None (Some (bs "0")) None None
  [Build_nfmt (Some (bs "(\d)(\d{3})(\d{3})")) (Some (bs "$1 $2 $3")) [bs "1[2-9]"] (Some (bs "0$1")) None None;
    Build_nfmt (Some (bs "(\d{3})(\d{2})(\d{2})(\d{2})")) (Some (bs "$1 $2 $3 $4")) [bs "[1-37-9]"] (Some (bs "0$1")) None None]
  []
  None None None.

Definition md_MX : meta := Eval vm_compute in Build_meta
  (Some (Build_desc (Some (bs "[2-9]\d{9}")) [(10)%Z] [(7)%Z; (8)%Z] None))
  (Some (Build_desc (Some (bs "(?:2(?:0[01]|2\d|3[1-35-8]|4[13-9]|7[1-689]|8[1-578]|9[467])|3(?:1[1-79]|[2458][1-9]|3\d|7[1-8]|9[1-5])|4(?:1[1-57-9]|[267][1-9]|3[1-8]|[45]\d|8[1-35-9]|9[2-689])|5(?:[56]\d|88|9[1-79])|6(?:1[2-68]|[2-4][1-9]|5[1-36-9]|6[0-57-9]|7[1-7]|8[67]|9[4-8])|7(?:[1346][1-9]|[27]\d|5[13-9]|8[1-69]|9[17])|8(?:1\d|2[13-689]|3[1-6]|4[124-6]|6[1246-9]|7[0-378]|9[12479])|9(?:1[346-9]|2[1-4]|3[2-46-8]|5[1348]|[69]\d|7[12]|8[1-8]))\d{7}")) [] [(7)%Z; (8)%Z] (Some (bs "2001234567"))))
  (Some (Build_desc (Some (bs "(?:2(?:2\d|3[1-35-8]|4[13-9]|7[1-689]|8[1-578]|9[467])|3(?:1[1-79]|[2458][1-9]|3\d|7[1-8]|9[1-5])|4(?:1[1-57-9]|[267][1-9]|3[1-8]|[45]\d|8[1-35-9]|9[2-689])|5(?:[56]\d|88|9[1-79])|6(?:1[2-68]|[2-4][1-9]|5[1-36-9]|6[0-57-9]|7[1-7]|8[67]|9[4-8])|7(?:[1346][1-9]|[27]\d|5[13-9]|8[1-69]|9[17])|8(?:1\d|2[13-689]|3[1-6]|4[124-6]|6[1246-9]|7[0-378]|9[12479])|9(?:1[346-9]|2[1-4]|3[2-46-8]|5[1348]|[69]\d|7[12]|8[1-8]))\d{7}")) [] [(7)%Z; (8)%Z] (Some (bs "2221234567"))))
  (Some (Build_desc (Some (bs "8(?:00|88)\d{7}")) [] [] (Some (bs "8001234567"))))
  (Some (Build_desc (Some (bs "900\d{7}")) [] [] (Some (bs "9001234567"))))
  (Some (Build_desc (Some (bs "300\d{7}")) [] [] (Some (bs "3001234567"))))
  (Some (Build_desc (Some (bs "500\d{7}")) [] [] (Some (bs "5001234567"))))
  (Some (Build_desc None [(-1)%Z] [] None))
  (Some (Build_desc None [(-1)%Z] [] None))
  (Some (Build_desc None [(-1)%Z] [] None))
  None
  (Some (Build_desc None [(-1)%Z] [] None))
  None
  None
  None
  None
  (Some (Build_desc None [(-1)%Z] [] None))
  (Some (bs "MX")) (Some (52)%Z) (Some (bs "0[09]")) (Some (bs "00")) None
  None None None None
  [Build_nfmt (Some (bs "(\d{5})")) (Some (bs "$1")) [bs "53"] None None None;
    Build_nfmt (Some (bs "(\d{2})(\d{4})(\d{4})")) (Some (bs "$1 $2 $3")) [bs "33|5[56]|81"] None None None;
    Build_nfmt (Some (bs "(\d{3})(\d{3})(\d{4})")) (Some (bs "$1 $2 $3")) [bs "[2-9]"] None None None]
  [Build_nfmt (Some (bs "(\d{2})(\d{4})(\d{4})")) (Some (bs "$1 $2 $3")) [bs "33|5[56]|81"] None None None;
    Build_nfmt (Some (bs "(\d{3})(\d{3})(\d{4})")) (Some (bs "$1 $2 $3")) [bs "[2-9]"] None None None]
  None None (Some true).

Definition md_MY : meta := Eval vm_compute in Build_meta
  (Some (Build_desc (Some (bs "1\d{8,9}|(?:3\d|[4-9])\d{7}")) [(8)%Z; (9)%Z; (10)%Z] [(6)%Z; (7)%Z] None))
  (Some (Build_desc (Some (bs "427[01]\d{4}|(?:3(?:2[0-36-9]|3[0-368]|4[0-278]|5[0-24-8]|6[0-467]|7[1246-9]|8\d|9[0-57])\d|4(?:2[0-689]|[3-79]\d|8[1-35689])|5(?:2[0-589]|[3468]\d|5[0-489]|7[1-9]|9[23])|6(?:2[2-9]|3[1357-9]|[46]\d|5[0-6]|7[0-35-9]|85|9[015-8])|7(?:[2579]\d|3[03-68]|4[0-8]|6[5-9]|8[0-35-9])|8(?:[24][2-8]|3[2-5]|5[2-7]|6[2-589]|7[2-578]|[89][2-9])|9(?:0[57]|13|[25-7]\d|[3489][0-8]))\d{5}")) [(8)%Z; (9)%Z] [(6)%Z; (7)%Z] (Some (bs "323856789"))))
  (Some (Build_desc (Some (bs "1(?:(?:1888[689]|4400|8(?:47|8[27])[0-4])\d{4}|9\d{7,8})|1(?:0(?:[23568]\d|4[0-6]|7[016-9]|9[0-8])|1(?:[1-5]\d\d|6(?:0[5-9]|[1-9]\d)|7(?:[0-4]\d|5[0-79]|6[02-4]|8[02-5]))|(?:[26]\d|[37][1-9]|4[235-9])\d|5(?:31|9\d\d)|8(?:1[23]|[236]\d|4[06]|5(?:46|[7-9])|7[016-9]|8[01]|9[0-8]))\d{5}")) [(9)%Z; (10)%Z] [] (Some (bs "123456789"))))
  (Some (Build_desc (Some (bs "1[378]00\d{6}")) [(10)%Z] [] (Some (bs "1300123456"))))
  (Some (Build_desc (Some (bs "1600\d{6}")) [(10)%Z] [] (Some (bs "1600123456"))))
  (Some (Build_desc None [(-1)%Z] [] None))
  (Some (Build_desc None [(-1)%Z] [] None))
  (Some (Build_desc (Some (bs "15(?:4(?:6[0-4]\d|8(?:0[125]|[17]\d|21|3[01]|4[01589]|5[014]|6[02]))|6(?:32[0-6]|78\d))\d{4}")) [(10)%Z] [] (Some (bs "1546012345"))))
  (Some (Build_desc None [(-1)%Z] [] None))
  (Some (Build_desc None [(-1)%Z] [] None))
  None
  (Some (Build_desc None [(-1)%Z] [] None))
  None
  None
  None
  None
  (Some (Build_desc None [(-1)%Z] [] None))
  (Some (bs "MY")) (Some (60)%Z) (Some (bs "00")) None (Some (bs "0"))
  None (Some (bs "0")) None None
  [Build_nfmt (Some (bs "(\d)(\d{3})(\d{4})")) (Some (bs "$1-$2 $3")) [bs "[4-79]"] (Some (bs "0$1")) None None;
    Build_nfmt (Some (bs "(\d{2})(\d{3})(\d{3,4})")) (Some (bs "$1-$2 $3")) [bs "1(?:[02469]|[378][1-9]|53)|8"; bs "1(?:[02469]|[37][1-9]|53|8(?:[1-46-9]|5[7-9]))|8"] (Some (bs "0$1")) None None;
    Build_nfmt (Some (bs "(\d)(\d{4})(\d{4})")) (Some (bs "$1-$2 $3")) [bs "3"] (Some (bs "0$1")) None None;
    Build_nfmt (Some (bs "(\d)(\d{3})(\d{2})(\d{4})")) (Some (bs "$1-$2-$3-$4")) [bs "1(?:[367]|80)"] None None None;
    Build_nfmt (Some (bs "(\d{3})(\d{3})(\d{4})")) (Some (bs "$1-$2 $3")) [bs "15"] (Some (bs "0$1")) None None;
    Build_nfmt (Some (bs "(\d{2})(\d{4})(\d{4})")) (Some (bs "$1-$2 $3")) [bs "1"] (Some (bs "0$1")) None None]
  []
  None None (Some true).

Definition md_MZ : meta := Eval vm_compute in Build_meta
  (Some (Build_desc (Some (bs "(?:2|8\d)\d{7}")) [(8)%Z; (9)%Z] [] None))
  (Some (Build_desc (Some (bs "2(?:[1346]\d|5[0-2]|[78][12]|93)\d{5}")) [(8)%Z] [] (Some (bs "21123456"))))
  (Some (Build_desc (Some (bs "8[2-9]\d{7}")) [(9)%Z] [] (Some (bs "821234567"))))
  (Some (Build_desc (Some (bs "800\d{6}")) [(9)%Z] [] (Some (bs "800123456"))))
  (Some (Build_desc None [(-1)%Z] [] None))
  (Some (Build_desc None [(-1)%Z] [] None))
  (Some (Build_desc None [(-1)%Z] [] None))
  (Some (Build_desc None [(-1)%Z] [] None))
  (Some (Build_desc None [(-1)%Z] [] None))
  (Some (Build_desc None [(-1)%Z] [] None))
  None
  (Some (Build_desc None [(-1)%Z] [] None))
  None
  None
  None
  None
  (Some (Build_desc None [(-1)%Z] [] None))
  (Some (bs "MZ")) (Some (258)%Z) (Some (bs "00")) None None
  None None None None
  [Build_nfmt (Some (bs "(\d{2})(\d{3})(\d{3,4})")) (Some (bs "$1 $2 $3")) [bs "2|8[2-9]"] None None None;
    Build_nfmt (Some (bs "(\d{3})(\d{3})(\d{3})")) (Some (bs "$1 $2 $3")) [bs "8"] None None None]
  []
  None None None.

Definition md_NA : meta := Eval vm_compute in Build_meta
  (Some (Build_desc (Some (bs "[68]\d{7,8}")) [(8)%Z; (9)%Z] [] None))
  (Some (Build_desc (Some (bs "64426\d{3}|6(?:1(?:2[2-7]|3[01378]|4[0-4])|254|32[0237]|4(?:27|41|5[25])|52[236-8]|626|7(?:2[2-4]|30))\d{4,5}|6(?:1(?:(?:0\d|2[0189]|3[24-69]|4[5-9])\d|17|69|7[014])|2(?:17|5[0-36-8]|69|70)|3(?:17|2[14-689]|34|6[289]|7[01]|81)|4(?:17|2[0-2]|4[06]|5[0137]|69|7[01])|5(?:17|2[0459]|69|7[01])|6(?:17|25|38|42|69|7[01])|7(?:17|2[569]|3[13]|6[89]|7[01]))\d{4}")) [] [] (Some (bs "61221234"))))
  (Some (Build_desc (Some (bs "(?:60|8[1245])\d{7}")) [(9)%Z] [] (Some (bs "811234567"))))
  (Some (Build_desc (Some (bs "80\d{7}")) [(9)%Z] [] (Some (bs "800123456"))))
  (Some (Build_desc (Some (bs "8701\d{5}")) [(9)%Z] [] (Some (bs "870123456"))))
  (Some (Build_desc None [(-1)%Z] [] None))
  (Some (Build_desc None [(-1)%Z] [] None))
  (Some (Build_desc (Some (bs "8(?:3\d\d|86)\d{5}")) [] [] (Some (bs "88612345"))))
  (Some (Build_desc None [(-1)%Z] [] None))
  (Some (Build_desc None [(-1)%Z] [] None))
  None
  (Some (Build_desc None [(-1)%Z] [] None))
  None
  None
  None
  None
  (Some (Build_desc None [(-1)%Z] [] None))
  (Some (bs "NA")) (Some (264)%Z) (Some (bs "00")) None (Some (bs "0"))
  None (Some (bs "0")) None None
  [Build_nfmt (Some (bs "(\d{2})(\d{3})(\d{3})")) (Some (bs "$1 $2 $3")) [bs "88"] (Some (bs "0$1")) None None;
    Build_nfmt (Some (bs "(\d{2})(\d{3})(\d{3,4})")) (Some (bs "$1 $2 $3")) [bs "6"] (Some (bs "0$1")) None None;
    Build_nfmt (Some (bs "(\d{3})(\d{3})(\d{3})")) (Some (bs "$1 $2 $3")) [bs "87"] (Some (bs "0$1")) None None;
    Build_nfmt (Some (bs "(\d{2})(\d{3})(\d{4})")) (Some (bs "$1 $2 $3")) [bs "8"] (Some (bs "0$1")) None None]
  []
  None None None.

Definition md_NC : meta := Eval vm_compute in Build_meta
  (Some (Build_desc (Some (bs "(?:050|[2-57-9]\d\d)\d{3}")) [(6)%Z] [] None))
  (Some (Build_desc (Some (bs "(?:2[03-9]|3[0-5]|4[1-7]|88)\d{4}")) [] [] (Some (bs "201234"))))
  (Some (Build_desc (Some (bs "(?:[579]\d|8[0-79])\d{4}")) [] [] (Some (bs "751234"))))
  (Some (Build_desc (Some (bs "050\d{3}")) [] [] (Some (bs "050012"))))
  (Some (Build_desc (Some (bs "36\d{4}")) [] [] (Some (bs "366711"))))
  (Some (Build_desc None [(-1)%Z] [] None))
  (Some (Build_desc None [(-1)%Z] [] None))
  (Some (Build_desc None [(-1)%Z] [] None))
  (Some (Build_desc None [(-1)%Z] [] None))
  (Some (Build_desc None [(-1)%Z] [] None))
  None
  (Some (Build_desc None [(-1)%Z] [] None))
  None
  None
  None
  None
  (Some (Build_desc None [(-1)%Z] [] None))
  (Some (bs "NC")) (Some (687)%Z) (Some (bs "00")) None None
  None None None None
  [Build_nfmt (Some (bs "(\d{3})")) (Some (bs "$1")) [bs "5[6-8]"] None None None;
    Build_nfmt (Some (bs "(\d{2})(\d{2})(\d{2})")) (Some (bs "$1.$2.$3")) [bs "[02-57-9]"] None None None]
  [Build_nfmt (Some (bs "(\d{2})(\d{2})(\d{2})")) (Some (bs "$1.$2.$3")) [bs "[02-57-9]"] None None None]
  None None None.

Definition md_NE : meta := Eval vm_compute in Build_meta
  (Some (Build_desc (Some (bs "[027-9]\d{7}")) [(8)%Z] [] None))
  (Some (Build_desc (Some (bs "2(?:0(?:20|3[1-8]|4[13-5]|5[14]|6[14578]|7[1-578])|1(?:4[145]|5[14]|6[14-68]|7[169]|88))\d{4}")) [] [] (Some (bs "20201234"))))
  (Some (Build_desc (Some (bs "(?:23|7[0467]|[89]\d)\d{6}")) [] [] (Some (bs "93123456"))))
  (Some (Build_desc (Some (bs "08\d{6}")) [] [] (Some (bs "08123456"))))
  (Some (Build_desc (Some (bs "09\d{6}")) [] [] (Some (bs "09123456"))))
  (Some (Build_desc None [(-1)%Z] [] None))
  (Some (Build_desc None [(-1)%Z] [] None))
  (Some (Build_desc None [(-1)%Z] [] None))
  (Some (Build_desc None [(-1)%Z] [] None))
  (Some (Build_desc None [(-1)%Z] [] None))
  None
  (Some (Build_desc None [(-1)%Z] [] None))
  None
  None
  None
  None
  (Some (Build_desc None [(-1)%Z] [] None))
  (Some (bs "NE")) (Some (227)%Z) (Some (bs "00")) None None
  None None None None
  [Build_nfmt (Some (bs "(\d{2})(\d{3})(\d{3})")) (Some (bs "$1 $2 $3")) [bs "08"] None None None;
    Build_nfmt (Some (bs "(\d{2})(\d{2})(\d{2})(\d{2})")) (Some (bs "$1 $2 $3 $4")) [bs "[089]|2[013]|7[0467]"] None None None]
  []
  None None None.

Definition md_NF : meta := Eval vm_compute in Build_meta
  (Some (Build_desc (Some (bs "[13]\d{5}")) [(6)%Z] [(5)%Z] None))
  (Some (Build_desc (Some (bs "(?:1(?:06|17|28|39)|3[0-2]\d)\d{3}")) [] [(5)%Z] (Some (bs "106609"))))
  (Some (Build_desc (Some (bs "(?:14|3[58])\d{4}")) [] [(5)%Z] (Some (bs "381234"))))
  (Some (Build_desc None [(-1)%Z] [] None))
  (Some (Build_desc None [(-1)%Z] [] None))
  (Some (Build_desc None [(-1)%Z] [] None))
  (Some (Build_desc None [(-1)%Z] [] None))
  (Some (Build_desc None [(-1)%Z] [] None))
  (Some (Build_desc None [(-1)%Z] [] None))
  (Some (Build_desc None [(-1)%Z] [] None))
  None
  (Some (Build_desc None [(-1)%Z] [] None))
  None
  None
  None
  None
  (Some (Build_desc None [(-1)%Z] [] None))
  (Some (bs "NF")) (Some (672)%Z) (Some (bs "00")) None None
  None (Some (bs "([0-258]\d{4})$")) (Some (bs "3$1")) None
  [Build_nfmt (Some (bs "(\d{2})(\d{4})")) (Some (bs "$1 $2")) [bs "1[0-3]"] None None None;
    Build_nfmt (Some (bs "(\d)(\d{5})")) (Some (bs "$1 $2")) [bs "[13]"] None None None]
  []
  None None None.

Definition md_NG : meta := Eval vm_compute in Build_meta
  (Some (Build_desc (Some (bs "(?:20|9\d)\d{8}|[78]\d{9,13}")) [(10)%Z; (11)%Z; (12)%Z; (13)%Z; (14)%Z] [(6)%Z; (7)%Z] None))
  (Some (Build_desc (Some (bs "20(?:[1259]\d|3[013-9]|4[1-8]|6[024-689]|7[1-79]|8[2-9])\d{6}")) [(10)%Z] [(6)%Z; (7)%Z] (Some (bs "2033123456"))))
  (Some (Build_desc (Some (bs "(?:702[0-24-9]|819[01])\d{6}|(?:7(?:0[13-9]|[12]\d)|8(?:0[1-9]|1[0-8])|9(?:0[1-9]|1[1-6]))\d{7}")) [(10)%Z] [] (Some (bs "8021234567"))))
  (Some (Build_desc (Some (bs "800\d{7,11}")) [] [] (Some (bs "80017591759"))))
  (Some (Build_desc None [(-1)%Z] [] None))
  (Some (Build_desc None [(-1)%Z] [] None))
  (Some (Build_desc None [(-1)%Z] [] None))
  (Some (Build_desc None [(-1)%Z] [] None))
  (Some (Build_desc None [(-1)%Z] [] None))
  (Some (Build_desc (Some (bs "700\d{7,11}")) [] [] (Some (bs "7001234567"))))
  None
  (Some (Build_desc None [(-1)%Z] [] None))
  None
  None
  None
  None
  (Some (Build_desc None [(-1)%Z] [] None))
  (Some (bs "NG")) (Some (234)%Z) (Some (bs "009")) None (Some (bs "0"))
  None (Some (bs "0")) None None
  [Build_nfmt (Some (bs "(\d{3})(\d{3})(\d{3,4})")) (Some (bs "$1 $2 $3")) [bs "[7-9]"] (Some (bs "0$1")) None None;
    Build_nfmt (Some (bs "(\d{3})(\d{3})(\d{4})")) (Some (bs "$1 $2 $3")) [bs "20[129]"] (Some (bs "0$1")) None None;
    Build_nfmt (Some (bs "(\d{4})(\d{2})(\d{4})")) (Some (bs "$1 $2 $3")) [bs "2"] (Some (bs "0$1")) None None;
    Build_nfmt (Some (bs "(\d{3})(\d{4})(\d{4,5})")) (Some (bs "$1 $2 $3")) [bs "[78]"] (Some (bs "0$1")) None None;
    Build_nfmt (Some (bs "(\d{3})(\d{5})(\d{5,6})")) (Some (bs "$1 $2 $3")) [bs "[78]"] (Some (bs "0$1")) None None]
  []
  None None (Some true).

Definition md_NI : meta := Eval vm_compute in Build_meta
  (Some (Build_desc (Some (bs "(?:1800|[25-8]\d{3})\d{4}")) [(8)%Z] [] None))
  (Some (Build_desc (Some (bs "2\d{7}")) [] [] (Some (bs "21234567"))))
  (Some (Build_desc (Some (bs "(?:5(?:5[0-7]|[78]\d)|6(?:20|3[035]|4[045]|5[05]|77|8[1-9]|9[059])|(?:7[5-8]|8\d)\d)\d{5}")) [] [] (Some (bs "81234567"))))
  (Some (Build_desc (Some (bs "1800\d{4}")) [] [] (Some (bs "18001234"))))
  (Some (Build_desc None [(-1)%Z] [] None))
  (Some (Build_desc None [(-1)%Z] [] None))
  (Some (Build_desc None [(-1)%Z] [] None))
  (Some (Build_desc None [(-1)%Z] [] None))
  (Some (Build_desc None [(-1)%Z] [] None))
  (Some (Build_desc None [(-1)%Z] [] None))
  None
  (Some (Build_desc None [(-1)%Z] [] None))
  None
  None
  None
  None
  (Some (Build_desc None [(-1)%Z] [] None))
  (Some (bs "NI")) (Some (505)%Z) (Some (bs "00")) None None
  None None None None
  [Build_nfmt (Some (bs "(\d{4})(\d{4})")) (Some (bs "$1 $2")) [bs "[125-8]"] None None None]
  []
  None None None.

Definition md_NL : meta := Eval vm_compute in Build_meta
  (Some (Build_desc (Some (bs "(?:[124-7]\d\d|3(?:[02-9]\d|1[0-8]))\d{6}|8\d{6,9}|9\d{6,10}|1\d{4,5}")) [(5)%Z; (6)%Z; (7)%Z; (8)%Z; (9)%Z; (10)%Z; (11)%Z] [] None))
  (Some (Build_desc (Some (bs "(?:1(?:[035]\d|1[13-578]|6[124-8]|7[24]|8[0-467])|2(?:[0346]\d|2[2-46-9]|5[125]|9[479])|3(?:[03568]\d|1[3-8]|2[01]|4[1-8])|4(?:[0356]\d|1[1-368]|7[58]|8[15-8]|9[23579])|5(?:[0358]\d|[19][1-9]|2[1-57-9]|4[13-8]|6[126]|7[0-3578])|7\d\d)\d{6}")) [(9)%Z] [] (Some (bs "101234567"))))
  (Some (Build_desc (Some (bs "(?:6[1-58]|970\d)\d{7}")) [(9)%Z; (11)%Z] [] (Some (bs "612345678"))))
  (Some (Build_desc (Some (bs "800\d{4,7}")) [(7)%Z; (8)%Z; (9)%Z; (10)%Z] [] (Some (bs "8001234"))))
  (Some (Build_desc (Some (bs "90[069]\d{4,7}")) [(7)%Z; (8)%Z; (9)%Z; (10)%Z] [] (Some (bs "9061234"))))
  (Some (Build_desc None [(-1)%Z] [] None))
  (Some (Build_desc None [(-1)%Z] [] None))
  (Some (Build_desc (Some (bs "(?:85|91)\d{7}")) [(9)%Z] [] (Some (bs "851234567"))))
  (Some (Build_desc (Some (bs "66\d{7}")) [(9)%Z] [] (Some (bs "662345678"))))
  (Some (Build_desc (Some (bs "140(?:1[035]|2[0346]|3[03568]|4[0356]|5[0358]|8[458])|(?:140(?:1[16-8]|2[259]|3[124]|4[17-9]|5[124679]|7)|8[478]\d{6})\d")) [(5)%Z; (6)%Z; (9)%Z] [] (Some (bs "14020"))))
  None
  (Some (Build_desc None [(-1)%Z] [] None))
  None
  None
  None
  None
  (Some (Build_desc (Some (bs "140(?:1[035]|2[0346]|3[03568]|4[0356]|5[0358]|8[458])|140(?:1[16-8]|2[259]|3[124]|4[17-9]|5[124679]|7)\d")) [(5)%Z; (6)%Z] [] None))
  (Some (bs "NL")) (Some (31)%Z) (Some (bs "00")) None (Some (bs "0"))
  None (Some (bs "0")) None None
  [Build_nfmt (Some (bs "(\d{4})")) (Some (bs "$1")) [bs "1[238]|[34]"] None None None;
    Build_nfmt (Some (bs "(\d{2})(\d{3,4})")) (Some (bs "$1 $2")) [bs "14"] None None None;
    Build_nfmt (Some (bs "(\d{6})")) (Some (bs "$1")) [bs "1"] None None None;
    Build_nfmt (Some (bs "(\d{3})(\d{4,7})")) (Some (bs "$1 $2")) [bs "[89]0"] (Some (bs "0$1")) None None;
    Build_nfmt (Some (bs "(\d{2})(\d{7})")) (Some (bs "$1 $2")) [bs "66"] (Some (bs "0$1")) None None;
    Build_nfmt (Some (bs "(\d)(\d{8})")) (Some (bs "$1 $2")) [bs "6"] (Some (bs "0$1")) None None;
    Build_nfmt (Some (bs "(\d{3})(\d{3})(\d{3})")) (Some (bs "$1 $2 $3")) [bs "1[16-8]|2[259]|3[124]|4[17-9]|5[124679]"] (Some (bs "0$1")) None None;
    Build_nfmt (Some (bs "(\d{2})(\d{3})(\d{4})")) (Some (bs "$1 $2 $3")) [bs "[1-578]|91"] (Some (bs "0$1")) None None;
    Build_nfmt (Some (bs "(\d{3})(\d{3})(\d{5})")) (Some (bs "$1 $2 $3")) [bs "9"] (Some (bs "0$1")) None None]
  [Build_nfmt (Some (bs "(\d{3})(\d{4,7})")) (Some (bs "$1 $2")) [bs "[89]0"] (Some (bs "0$1")) None None;
    Build_nfmt (Some (bs "(\d{2})(\d{7})")) (Some (bs "$1 $2")) [bs "66"] (Some (bs "0$1")) None None;
    Build_nfmt (Some (bs "(\d)(\d{8})")) (Some (bs "$1 $2")) [bs "6"] (Some (bs "0$1")) None None;
    Build_nfmt (Some (bs "(\d{3})(\d{3})(\d{3})")) (Some (bs "$1 $2 $3")) [bs "1[16-8]|2[259]|3[124]|4[17-9]|5[124679]"] (Some (bs "0$1")) None None;
    Build_nfmt (Some (bs "(\d{2})(\d{3})(\d{4})")) (Some (bs "$1 $2 $3")) [bs "[1-578]|91"] (Some (bs "0$1")) None None;
    Build_nfmt (Some (bs "(\d{3})(\d{3})(\d{5})")) (Some (bs "$1 $2 $3")) [bs "9"] (Some (bs "0$1")) None None]
  None None (Some true).

Definition md_NO : meta := Eval vm_compute in Build_meta
  (Some (Build_desc (Some (bs "(?:0|[2-9]\d{3})\d{4}")) [(5)%Z; (8)%Z] [] None))
  (Some (Build_desc (Some (bs "(?:2[1-4]|3[1-3578]|5[1-35-7]|6[1-46-9]|7[0-8])\d{6}")) [(8)%Z] [] (Some (bs "21234567"))))
  (Some (Build_desc (Some (bs "45(?:[0-24-9]\d|3[0-57-9])\d{4}|(?:4[016-8]|9\d)\d{6}")) [(8)%Z] [] (Some (bs "40612345"))))
  (Some (Build_desc (Some (bs "80[01]\d{5}")) [(8)%Z] [] (Some (bs "80012345"))))
  (Some (Build_desc (Some (bs "82[09]\d{5}")) [(8)%Z] [] (Some (bs "82012345"))))
  (Some (Build_desc (Some (bs "810(?:0[0-6]|[2-8]\d)\d{3}")) [(8)%Z] [] (Some (bs "81021234"))))
  (Some (Build_desc (Some (bs "880\d{5}")) [(8)%Z] [] (Some (bs "88012345"))))
  (Some (Build_desc (Some (bs "85[0-5]\d{5}")) [(8)%Z] [] (Some (bs "85012345"))))
  (Some (Build_desc None [(-1)%Z] [] None))
  (Some (Build_desc (Some (bs "(?:0[235-9]|81(?:0(?:0[7-9]|1\d)|5\d\d))\d{3}")) [] [] (Some (bs "02000"))))
  None
  (Some (Build_desc (Some (bs "81[23]\d{5}")) [(8)%Z] [] (Some (bs "81212345"))))
  None
  None
  None
  None
  (Some (Build_desc None [(-1)%Z] [] None))
  (Some (bs "NO")) (Some (47)%Z) (Some (bs "00")) None None
  None None None None
  [Build_nfmt (Some (bs "(\d{3})(\d{2})(\d{3})")) (Some (bs "$1 $2 $3")) [bs "8"] None None None;
    Build_nfmt (Some (bs "(\d{2})(\d{2})(\d{2})(\d{2})")) (Some (bs "$1 $2 $3 $4")) [bs "[2-79]"] None None None]
  []
  (Some true) (Some (bs "[02-689]|7[0-8]")) (Some true).

Definition md_NP : meta := Eval vm_compute in Build_meta
  (Some (Build_desc (Some (bs "(?:1\d|9)\d{9}|[1-9]\d{7}")) [(8)%Z; (10)%Z; (11)%Z] [(6)%Z; (7)%Z] None))
  (Some (Build_desc (Some (bs "(?:1[0-6]\d|99[02-6])\d{5}|(?:2[13-79]|3[135-8]|4[146-9]|5[135-7]|6[13-9]|7[15-9]|8[1-46-9]|9[1-7])[2-6]\d{5}")) [(8)%Z] [(6)%Z; (7)%Z] (Some (bs "14567890"))))
  (Some (Build_desc (Some (bs "9(?:00|6[0-3]|7[0-24-6]|8[0-24-68])\d{7}")) [(10)%Z] [] (Some (bs "9841234567"))))
  (Some (Build_desc (Some (bs "1(?:66001|800\d\d)\d{5}")) [(11)%Z] [] (Some (bs "16600101234"))))
  (Some (Build_desc None [(-1)%Z] [] None))
  (Some (Build_desc None [(-1)%Z] [] None))
  (Some (Build_desc None [(-1)%Z] [] None))
  (Some (Build_desc None [(-1)%Z] [] None))
  (Some (Build_desc None [(-1)%Z] [] None))
  (Some (Build_desc None [(-1)%Z] [] None))
  None
  (Some (Build_desc None [(-1)%Z] [] None))
  None
  None
  None
  None
  (Some (Build_desc None [(-1)%Z] [] None))
  (Some (bs "NP")) (Some (977)%Z) (Some (bs "00")) None (Some (bs "0"))
  None (Some (bs "0")) None None
  [Build_nfmt (Some (bs "(\d)(\d{7})")) (Some (bs "$1-$2")) [bs "1[2-6]"] (Some (bs "0$1")) None None;
    Build_nfmt (Some (bs "(\d{2})(\d{6})")) (Some (bs "$1-$2")) [bs "1[01]|[2-8]|9(?:[1-59]|[67][2-6])"] (Some (bs "0$1")) None None;
    Build_nfmt (Some (bs "(\d{3})(\d{7})")) (Some (bs "$1-$2")) [bs "9"] None None None;
    Build_nfmt (Some (bs "(\d{4})(\d{2})(\d{5})")) (Some (bs "$1-$2-$3")) [bs "1"] None None None]
  [Build_nfmt (Some (bs "(\d)(\d{7})")) (Some (bs "$1-$2")) [bs "1[2-6]"] (Some (bs "0$1")) None None;
    Build_nfmt (Some (bs "(\d{2})(\d{6})")) (Some (bs "$1-$2")) [bs "1[01]|[2-8]|9(?:[1-59]|[67][2-6])"] (Some (bs "0$1")) None None;
    Build_nfmt (Some (bs "(\d{3})(\d{7})")) (Some (bs "$1-$2")) [bs "9"] None None None]
  None None None.

Definition md_NR : meta := Eval vm_compute in Build_meta
  (Some (Build_desc (Some (bs "(?:222|444|(?:55|8\d)\d|666|777|999)\d{4}")) [(7)%Z] [] None))
  (Some (Build_desc (Some (bs "444\d{4}")) [] [] (Some (bs "4441234"))))
  (Some (Build_desc (Some (bs "(?:222|55[3-9]|666|777|8\d\d|999)\d{4}")) [] [] (Some (bs "5551234"))))
  (Some (Build_desc None [(-1)%Z] [] None))
  (Some (Build_desc None [(-1)%Z] [] None))
  (Some (Build_desc None [(-1)%Z] [] None))
  (Some (Build_desc None [(-1)%Z] [] None))
  (Some (Build_desc None [(-1)%Z] [] None))
  (Some (Build_desc None [(-1)%Z] [] None))
  (Some (Build_desc None [(-1)%Z] [] None))
  None
  (Some (Build_desc None [(-1)%Z] [] None))
  None
  None
  None
  None
  (Some (Build_desc None [(-1)%Z] [] None))
  (Some (bs "NR")) (Some (674)%Z) (Some (bs "00")) None None
  None None None None
  [Build_nfmt (Some (bs "(\d{3})(\d{4})")) (Some (bs "$1 $2")) [bs "[24-9]"] None None None]
  []
  None None None.

Definition md_NU : meta := Eval vm_compute in Build_meta
  (Some (Build_desc (Some (bs "(?:[4-7]|888\d)\d{3}")) [(4)%Z; (7)%Z] [] None))
  (Some (Build_desc (Some (bs "[47]\d{3}")) [(4)%Z] [] (Some (bs "7012"))))
  (Some (Build_desc (Some (bs "(?:[56]|888[1-9])\d{3}")) [] [] (Some (bs "8884012"))))
  (Some (Build_desc None [(-1)%Z] [] None))
  (Some (Build_desc None [(-1)%Z] [] None))
  (Some (Build_desc None [(-1)%Z] [] None))
  (Some (Build_desc None [(-1)%Z] [] None))
  (Some (Build_desc None [(-1)%Z] [] None))
  (Some (Build_desc None [(-1)%Z] [] None))
  (Some (Build_desc None [(-1)%Z] [] None))
  None
  (Some (Build_desc None [(-1)%Z] [] None))
  None
  None
  None
  None
  (Some (Build_desc None [(-1)%Z] [] None))
  (Some (bs "NU")) (Some (683)%Z) (Some (bs "00")) None None
  None None None None
  [Build_nfmt (Some (bs "(\d{3})(\d{4})")) (Some (bs "$1 $2")) [bs "8"] None None None]
  []
  None None None.

Definition md_NZ : meta := Eval vm_compute in Build_meta
  (Some (Build_desc (Some (bs "[1289]\d{9}|50\d{5}(?:\d{2,3})?|[27-9]\d{7,8}|(?:[34]\d|6[0-35-9])\d{6}|8\d{4,6}")) [(5)%Z; (6)%Z; (7)%Z; (8)%Z; (9)%Z; (10)%Z] [] None))
  (Some (Build_desc (Some (bs "240\d{5}|(?:3[2-79]|[49][2-9]|6[235-9]|7[2-57-9])\d{6}")) [(8)%Z] [(7)%Z] (Some (bs "32345678"))))
  (Some (Build_desc (Some (bs "2(?:[0-27-9]\d|6)\d{6,7}|2(?:1\d|75)\d{5}")) [(8)%Z; (9)%Z; (10)%Z] [] (Some (bs "211234567"))))
  (Some (Build_desc (Some (bs "508\d{6,7}|80\d{6,8}")) [(8)%Z; (9)%Z; (10)%Z] [] (Some (bs "800123456"))))
  (Some (Build_desc (Some (bs "(?:1[13-57-9]\d{5}|50(?:0[08]|30|66|77|88))\d{3}|90\d{6,8}")) [(7)%Z; (8)%Z; (9)%Z; (10)%Z] [] (Some (bs "900123456"))))
  (Some (Build_desc None [(-1)%Z] [] None))
  (Some (Build_desc (Some (bs "70\d{7}")) [(9)%Z] [] (Some (bs "701234567"))))
  (Some (Build_desc None [(-1)%Z] [] None))
  (Some (Build_desc None [(-1)%Z] [] None))
  (Some (Build_desc (Some (bs "8(?:1[16-9]|22|3\d|4[045]|5[459]|6[235-9]|7[0-3579]|90)\d{2,7}")) [] [] (Some (bs "83012378"))))
  None
  (Some (Build_desc None [(-1)%Z] [] None))
  None
  None
  None
  None
  (Some (Build_desc None [(-1)%Z] [] None))
  (Some (bs "NZ")) (Some (64)%Z) (Some (bs "0(?:0|161)")) (Some (bs "00")) (Some (bs "0"))
  None (Some (bs "0")) None None
  [Build_nfmt (Some (bs "(\d{2})(\d{3,8})")) (Some (bs "$1 $2")) [bs "8[1-79]"] (Some (bs "0$1")) None None;
    Build_nfmt (Some (bs "(\d{3})(\d{2})(\d{2,3})")) (Some (bs "$1 $2 $3")) [bs "50[036-8]|8|90"; bs "50(?:[0367]|88)|8|90"] (Some (bs "0$1")) None None;
    Build_nfmt (Some (bs "(\d)(\d{3})(\d{4})")) (Some (bs "$1 $2 $3")) [bs "24|[346]|7[2-57-9]|9[2-9]"] (Some (bs "0$1")) None None;
    Build_nfmt (Some (bs "(\d{3})(\d{3})(\d{3,4})")) (Some (bs "$1 $2 $3")) [bs "2(?:10|74)|[589]"] (Some (bs "0$1")) None None;
    Build_nfmt (Some (bs "(\d{2})(\d{3,4})(\d{4})")) (Some (bs "$1 $2 $3")) [bs "1|2[028]"] (Some (bs "0$1")) None None;
    Build_nfmt (Some (bs "(\d{2})(\d{3})(\d{3,5})")) (Some (bs "$1 $2 $3")) [bs "2(?:[169]|7[0-35-9])|7"] (Some (bs "0$1")) None None]
  []
  None None (Some true).

Definition md_OM : meta := Eval vm_compute in Build_meta
  (Some (Build_desc (Some (bs "(?:1505|[279]\d{3}|500)\d{4}|800\d{5,6}")) [(7)%Z; (8)%Z; (9)%Z] [] None))
  (Some (Build_desc (Some (bs "2[1-6]\d{6}")) [(8)%Z] [] (Some (bs "23123456"))))
  (Some (Build_desc (Some (bs "(?:1505|90[1-9]\d)\d{4}|(?:7[124-9]|9[1-9])\d{6}")) [(8)%Z] [] (Some (bs "92123456"))))
  (Some (Build_desc (Some (bs "8007\d{4,5}|(?:500|800[05])\d{4}")) [] [] (Some (bs "80071234"))))
  (Some (Build_desc (Some (bs "900\d{5}")) [(8)%Z] [] (Some (bs "90012345"))))
  (Some (Build_desc None [(-1)%Z] [] None))
  (Some (Build_desc None [(-1)%Z] [] None))
  (Some (Build_desc None [(-1)%Z] [] None))
  (Some (Build_desc None [(-1)%Z] [] None))
  (Some (Build_desc None [(-1)%Z] [] None))
  None
  (Some (Build_desc None [(-1)%Z] [] None))
  None
  None
  None
  None
  (Some (Build_desc None [(-1)%Z] [] None))
  (Some (bs "OM")) (Some (968)%Z) (Some (bs "00")) None None
  None None None None
  [Build_nfmt (Some (bs "(\d{3})(\d{4,6})")) (Some (bs "$1 $2")) [bs "[58]"] None None None;
    Build_nfmt (Some (bs "(\d{2})(\d{6})")) (Some (bs "$1 $2")) [bs "2"] None None None;
    Build_nfmt (Some (bs "(\d{4})(\d{4})")) (Some (bs "$1 $2")) [bs "[179]"] None None None]
  []
  None None (Some true).

Definition md_PA : meta := Eval vm_compute in Build_meta
  (Some (Build_desc (Some (bs "(?:00800|8\d{3})\d{6}|[68]\d{7}|[1-57-9]\d{6}")) [(7)%Z; (8)%Z; (10)%Z; (11)%Z] [] None))
  (Some (Build_desc (Some (bs "(?:1(?:0\d|1[0479]|2[37]|3[0137]|4[147]|5[05]|6[058]|7[0167]|8[2358]|9[1389])|2(?:[0235-79]\d|1[0-7]|4[013-9]|8[02-9])|3(?:[0147-9]\d|[25][0-5]|33|6[068])|4(?:00|3[0-579]|4\d|7[0-57-9])|5(?:[01]\d|2[0-7]|[56]0|79)|7(?:0[09]|2[0-26-8]|3[03]|4[04]|5[05-9]|6[0156]|7[0-24-9]|8[4-9]|90)|8(?:09|2[89]|3\d|4[0-24-689]|5[014]|8[02])|9(?:0[5-9]|1[0135-8]|2[036-9]|3[35-79]|40|5[0457-9]|6[05-9]|7[04-9]|8[35-8]|9\d))\d{4}")) [(7)%Z] [] (Some (bs "2001234"))))
  (Some (Build_desc (Some (bs "(?:1[16]1|21[89]|6\d{3}|8(?:1[01]|7[23]))\d{4}")) [(7)%Z; (8)%Z] [] (Some (bs "61234567"))))
  (Some (Build_desc (Some (bs "800\d{4,5}|(?:00800|800\d)\d{6}")) [] [] (Some (bs "8001234"))))
  (Some (Build_desc (Some (bs "(?:8(?:22|55|60|7[78]|86)|9(?:00|81))\d{4}")) [(7)%Z] [] (Some (bs "8601234"))))
  (Some (Build_desc None [(-1)%Z] [] None))
  (Some (Build_desc None [(-1)%Z] [] None))
  (Some (Build_desc None [(-1)%Z] [] None))
  (Some (Build_desc None [(-1)%Z] [] None))
  (Some (Build_desc None [(-1)%Z] [] None))
  None
  (Some (Build_desc None [(-1)%Z] [] None))
  None
  None
  None
  None
  (Some (Build_desc None [(-1)%Z] [] None))
  (Some (bs "PA")) (Some (507)%Z) (Some (bs "00")) None None
  None None None None
  [Build_nfmt (Some (bs "(\d{3})(\d{4})")) (Some (bs "$1-$2")) [bs "[1-57-9]"] None None None;
    Build_nfmt (Some (bs "(\d{4})(\d{4})")) (Some (bs "$1-$2")) [bs "[68]"] None None None;
    Build_nfmt (Some (bs "(\d{3})(\d{3})(\d{4})")) (Some (bs "$1 $2 $3")) [bs "8"] None None None]
  []
  None None (Some true).

Definition md_PE : meta := Eval vm_compute in Build_meta
  (Some (Build_desc (Some (bs "(?:[14-8]|9\d)\d{7}")) [(8)%Z; (9)%Z] [(6)%Z; (7)%Z] None))
  (Some (Build_desc (Some (bs "(?:(?:19[02-68]|(?:4[34]|5[14])[0-8]|687)\d|7(?:173|(?:3[0-8]|55)\d)|8(?:10[05689]|6(?:0[06-9]|1[6-9]|29)|7(?:0[0569]|[56]0)))\d{4}|(?:1[0-8]|4[12]|5[236]|6[1-7]|7[246]|8[2-4])\d{6}")) [(8)%Z] [(6)%Z; (7)%Z] (Some (bs "11234567"))))
  (Some (Build_desc (Some (bs "9\d{8}")) [(9)%Z] [] (Some (bs "912345678"))))
  (Some (Build_desc (Some (bs "800\d{5}")) [(8)%Z] [] (Some (bs "80012345"))))
  (Some (Build_desc (Some (bs "805\d{5}")) [(8)%Z] [] (Some (bs "80512345"))))
  (Some (Build_desc (Some (bs "801\d{5}")) [(8)%Z] [] (Some (bs "80112345"))))
  (Some (Build_desc (Some (bs "80[24]\d{5}")) [(8)%Z] [] (Some (bs "80212345"))))
  (Some (Build_desc None [(-1)%Z] [] None))
  (Some (Build_desc None [(-1)%Z] [] None))
  (Some (Build_desc None [(-1)%Z] [] None))
  None
  (Some (Build_desc None [(-1)%Z] [] None))
  None
  None
  None
  None
  (Some (Build_desc None [(-1)%Z] [] None))
  (Some (bs "PE")) (Some (51)%Z) (Some (bs "00|19(?:1[124]|77|90)00")) (Some (bs "00")) (Some (bs "0"))
  (Some (bs " Anexo ")) (Some (bs "0")) None None
  [Build_nfmt (Some (bs "(\d{3})(\d{5})")) (Some (bs "$1 $2")) [bs "80"] (Some (bs "(0$1)")) None None;
    Build_nfmt (Some (bs "(\d)(\d{7})")) (Some (bs "$1 $2")) [bs "1"] (Some (bs "(0$1)")) None None;
    Build_nfmt (Some (bs "(\d{2})(\d{6})")) (Some (bs "$1 $2")) [bs "[4-8]"] (Some (bs "(0$1)")) None None;
    Build_nfmt (Some (bs "(\d{3})(\d{3})(\d{3})")) (Some (bs "$1 $2 $3")) [bs "9"] None None None]
  []
  None None (Some true).

Definition md_PF : meta := Eval vm_compute in Build_meta
  (Some (Build_desc (Some (bs "4\d{5}(?:\d{2})?|8\d{7,8}")) [(6)%Z; (8)%Z; (9)%Z] [] None))
  (Some (Build_desc (Some (bs "4(?:0[4-689]|9[4-68])\d{5}")) [(8)%Z] [] (Some (bs "40412345"))))
  (Some (Build_desc (Some (bs "8[7-9]\d{6}")) [(8)%Z] [] (Some (bs "87123456"))))
  (Some (Build_desc (Some (bs "80[0-5]\d{6}")) [(9)%Z] [] (Some (bs "800012345"))))
  (Some (Build_desc None [(-1)%Z] [] None))
  (Some (Build_desc None [(-1)%Z] [] None))
  (Some (Build_desc None [(-1)%Z] [] None))
  (Some (Build_desc (Some (bs "499\d{5}")) [(8)%Z] [] (Some (bs "49901234"))))
  (Some (Build_desc None [(-1)%Z] [] None))
  (Some (Build_desc (Some (bs "44\d{4}")) [(6)%Z] [] (Some (bs "440123"))))
  None
  (Some (Build_desc None [(-1)%Z] [] None))
  None
  None
  None
  None
  (Some (Build_desc (Some (bs "44\d{4}")) [(6)%Z] [] None))
  (Some (bs "PF")) (Some (689)%Z) (Some (bs "00")) None None
  None None None None
  [Build_nfmt (Some (bs "(\d{2})(\d{2})(\d{2})")) (Some (bs "$1 $2 $3")) [bs "44"] None None None;
    Build_nfmt (Some (bs "(\d{2})(\d{2})(\d{2})(\d{2})")) (Some (bs "$1 $2 $3 $4")) [bs "4|8[7-9]"] None None None;
    Build_nfmt (Some (bs "(\d{3})(\d{2})(\d{2})(\d{2})")) (Some (bs "$1 $2 $3 $4")) [bs "8"] None None None]
  []
  None None None.

Definition md_PG : meta := Eval vm_compute in Build_meta
  (Some (Build_desc (Some (bs "(?:180|[78]\d{3})\d{4}|(?:[2-589]\d|64)\d{5}")) [(7)%Z; (8)%Z] [] None))
  (Some (Build_desc (Some (bs "(?:(?:3[0-2]|4[257]|5[34]|9[78])\d|64[1-9]|85[02-46-9])\d{4}")) [(7)%Z] [] (Some (bs "3123456"))))
  (Some (Build_desc (Some (bs "(?:7\d|8[1-48])\d{6}")) [(8)%Z] [] (Some (bs "70123456"))))
  (Some (Build_desc (Some (bs "180\d{4}")) [(7)%Z] [] (Some (bs "1801234"))))
  (Some (Build_desc None [(-1)%Z] [] None))
  (Some (Build_desc None [(-1)%Z] [] None))
  (Some (Build_desc None [(-1)%Z] [] None))
  (Some (Build_desc (Some (bs "2(?:0[0-57]|7[568])\d{4}")) [(7)%Z] [] (Some (bs "2751234"))))
  (Some (Build_desc (Some (bs "27[01]\d{4}")) [(7)%Z] [] (Some (bs "2700123"))))
  (Some (Build_desc None [(-1)%Z] [] None))
  None
  (Some (Build_desc None [(-1)%Z] [] None))
  None
  None
  None
  None
  (Some (Build_desc None [(-1)%Z] [] None))
  (Some (bs "PG")) (Some (675)%Z) (Some (bs "00|140[1-3]")) (Some (bs "00")) None
  None None None None
  [Build_nfmt (Some (bs "(\d{3})(\d{4})")) (Some (bs "$1 $2")) [bs "18|[2-69]|85"] None None None;
    Build_nfmt (Some (bs "(\d{4})(\d{4})")) (Some (bs "$1 $2")) [bs "[78]"] None None None]
  []
  None None None.

Definition md_PH : meta := Eval vm_compute in Build_meta
  (Some (Build_desc (Some (bs "(?:[2-7]|9\d)\d{8}|2\d{5}|(?:1800|8)\d{7,9}")) [(6)%Z; (8)%Z; (9)%Z; (10)%Z; (11)%Z; (12)%Z; (13)%Z] [(4)%Z; (5)%Z; (7)%Z] None))
  (Some (Build_desc (Some (bs "(?:(?:2[3-8]|3[2-68]|4[2-9]|5[2-6]|6[2-58]|7[24578])\d{3}|88(?:22\d\d|42))\d{4}|(?:2|8[2-8]\d\d)\d{5}")) [(6)%Z; (8)%Z; (9)%Z; (10)%Z] [(4)%Z; (5)%Z; (7)%Z] (Some (bs "232345678"))))
  (Some (Build_desc (Some (bs "(?:8(?:1[37]|9[5-8])|9(?:0[5-9]|1[0-24-9]|[235-7]\d|4[2-9]|8[135-9]|9[1-9]))\d{7}")) [(10)%Z] [] (Some (bs "9051234567"))))
  (Some (Build_desc (Some (bs "1800\d{7,9}")) [(11)%Z; (12)%Z; (13)%Z] [] (Some (bs "180012345678"))))
  (Some (Build_desc None [(-1)%Z] [] None))
  (Some (Build_desc None [(-1)%Z] [] None))
  (Some (Build_desc None [(-1)%Z] [] None))
  (Some (Build_desc None [(-1)%Z] [] None))
  (Some (Build_desc None [(-1)%Z] [] None))
  (Some (Build_desc None [(-1)%Z] [] None))
  None
  (Some (Build_desc None [(-1)%Z] [] None))
  None
  None
  None
  None
  (Some (Build_desc None [(-1)%Z] [] None))
  (Some (bs "PH")) (Some (63)%Z) (Some (bs "00")) None (Some (bs "0"))
  None (Some (bs "0")) None None
  [Build_nfmt (Some (bs "(\d)(\d{5})")) (Some (bs "$1 $2")) [bs "2"] (Some (bs "(0$1)")) None None;
    Build_nfmt (Some (bs "(\d{4})(\d{4,6})")) (Some (bs "$1 $2")) [bs "3(?:23|39|46)|4(?:2[3-6]|[35]9|4[26]|76)|544|88[245]|(?:52|64|86)2"; bs "3(?:230|397|461)|4(?:2(?:35|[46]4|51)|396|4(?:22|63)|59[347]|76[15])|5(?:221|446)|642[23]|8(?:622|8(?:[24]2|5[13]))"] (Some (bs "(0$1)")) None None;
    Build_nfmt (Some (bs "(\d{5})(\d{4})")) (Some (bs "$1 $2")) [bs "346|4(?:27|9[35])|883"; bs "3469|4(?:279|9(?:30|56))|8834"] (Some (bs "(0$1)")) None None;
    Build_nfmt (Some (bs "(\d)(\d{4})(\d{4})")) (Some (bs "$1 $2 $3")) [bs "2"] (Some (bs "(0$1)")) None None;
    Build_nfmt (Some (bs "(\d{2})(\d{3})(\d{4})")) (Some (bs "$1 $2 $3")) [bs "[3-7]|8[2-8]"] (Some (bs "(0$1)")) None None;
    Build_nfmt (Some (bs "(\d{3})(\d{3})(\d{4})")) (Some (bs "$1 $2 $3")) [bs "[89]"] (Some (bs "0$1")) None None;
    Build_nfmt (Some (bs "(\d{4})(\d{3})(\d{4})")) (Some (bs "$1 $2 $3")) [bs "1"] None None None;
    Build_nfmt (Some (bs "(\d{4})(\d{1,2})(\d{3})(\d{4})")) (Some (bs "$1 $2 $3 $4")) [bs "1"] None None None]
  []
  None None None.

Definition md_PK : meta := Eval vm_compute in Build_meta
  (Some (Build_desc (Some (bs "122\d{6}|[24-8]\d{10,11}|9(?:[013-9]\d{8,10}|2(?:[01]\d\d|2(?:[06-8]\d|1[01]))\d{7})|(?:[2-8]\d{3}|92(?:[0-7]\d|8[1-9]))\d{6}|[24-9]\d{8}|[89]\d{7}")) [(8)%Z; (9)%Z; (10)%Z; (11)%Z; (12)%Z] [(5)%Z; (6)%Z; (7)%Z] None))
  (Some (Build_desc (Some (bs "(?:(?:21|42)[2-9]|58[126])\d{7}|(?:2[25]|4[0146-9]|5[1-35-7]|6[1-8]|7[14]|8[16]|91)[2-9]\d{6,7}|(?:2(?:3[2358]|4[2-4]|9[2-8])|45[3479]|54[2-467]|60[468]|72[236]|8(?:2[2-689]|3[23578]|4[3478]|5[2356])|9(?:2[2-8]|3[27-9]|4[2-6]|6[3569]|9[25-8]))[2-9]\d{5,6}")) [(9)%Z; (10)%Z] [(5)%Z; (6)%Z; (7)%Z; (8)%Z] (Some (bs "2123456789"))))
  (Some (Build_desc (Some (bs "3(?:[0-247]\d|3[0-79]|55|64)\d{7}")) [(10)%Z] [] (Some (bs "3012345678"))))
  (Some (Build_desc (Some (bs "800\d{5}(?:\d{3})?")) [(8)%Z; (11)%Z] [] (Some (bs "80012345"))))
  (Some (Build_desc (Some (bs "900\d{5}")) [(8)%Z] [] (Some (bs "90012345"))))
  (Some (Build_desc None [(-1)%Z] [] None))
  (Some (Build_desc (Some (bs "122\d{6}")) [(9)%Z] [] (Some (bs "122044444"))))
  (Some (Build_desc None [(-1)%Z] [] None))
  (Some (Build_desc None [(-1)%Z] [] None))
  (Some (Build_desc (Some (bs "(?:2(?:[125]|3[2358]|4[2-4]|9[2-8])|4(?:[0-246-9]|5[3479])|5(?:[1-35-7]|4[2-467])|6(?:0[468]|[1-8])|7(?:[14]|2[236])|8(?:[16]|2[2-689]|3[23578]|4[3478]|5[2356])|9(?:1|22|3[27-9]|4[2-6]|6[3569]|9[2-7]))111\d{6}")) [(11)%Z; (12)%Z] [] (Some (bs "21111825888"))))
  None
  (Some (Build_desc None [(-1)%Z] [] None))
  None
  None
  None
  None
  (Some (Build_desc None [(-1)%Z] [] None))
  (Some (bs "PK")) (Some (92)%Z) (Some (bs "00")) None (Some (bs "0"))
  None (Some (bs "0")) None None
  [Build_nfmt (Some (bs "(\d{3})(\d{3})(\d{2,7})")) (Some (bs "$1 $2 $3")) [bs "[89]0"] (Some (bs "0$1")) None None;
    Build_nfmt (Some (bs "(\d{4})(\d{5})")) (Some (bs "$1 $2")) [bs "1"] None None None;
    Build_nfmt (Some (bs "(\d{3})(\d{6,7})")) (Some (bs "$1 $2")) [bs "2(?:3[2358]|4[2-4]|9[2-8])|45[3479]|54[2-467]|60[468]|72[236]|8(?:2[2-689]|3[23578]|4[3478]|5[2356])|9(?:2[2-8]|3[27-9]|4[2-6]|6[3569]|9[25-8])"; bs "9(?:2[3-8]|98)|(?:2(?:3[2358]|4[2-4]|9[2-8])|45[3479]|54[2-467]|60[468]|72[236]|8(?:2[2-689]|3[23578]|4[3478]|5[2356])|9(?:22|3[27-9]|4[2-6]|6[3569]|9[25-7]))[2-9]"] (Some (bs "(0$1)")) None None;
    Build_nfmt (Some (bs "(\d{2})(\d{7,8})")) (Some (bs "$1 $2")) [bs "(?:2[125]|4[0-246-9]|5[1-35-7]|6[1-8]|7[14]|8[16]|91)[2-9]"] (Some (bs "(0$1)")) None None;
    Build_nfmt (Some (bs "(\d{5})(\d{5})")) (Some (bs "$1 $2")) [bs "58"] (Some (bs "(0$1)")) None None;
    Build_nfmt (Some (bs "(\d{3})(\d{7})")) (Some (bs "$1 $2")) [bs "3"] (Some (bs "0$1")) None None;
    Build_nfmt (Some (bs "(\d{2})(\d{3})(\d{3})(\d{3})")) (Some (bs "$1 $2 $3 $4")) [bs "2[125]|4[0-246-9]|5[1-35-7]|6[1-8]|7[14]|8[16]|91"] (Some (bs "(0$1)")) None None;
    Build_nfmt (Some (bs "(\d{3})(\d{3})(\d{3})(\d{3})")) (Some (bs "$1 $2 $3 $4")) [bs "[24-9]"] (Some (bs "(0$1)")) None None]
  []
  None None (Some true).

Definition md_PL : meta := Eval vm_compute in Build_meta
  (Some (Build_desc (Some (bs "(?:6|8\d\d)\d{7}|[1-9]\d{6}(?:\d{2})?|[26]\d{5}")) [(6)%Z; (7)%Z; (8)%Z; (9)%Z; (10)%Z] [] None))
  (Some (Build_desc (Some (bs "(?:30|47\d\d)\d{5}|(?:1[2-8]|2[2-69]|3[2-4]|4[1-468]|5[24-689]|6[1-3578]|7[14-7]|8[1-79]|9[145])(?:[02-9]\d{6}|1(?:[0-8]\d{5}|9\d{3}(?:\d{2})?))")) [(7)%Z; (9)%Z] [] (Some (bs "123456789"))))
  (Some (Build_desc (Some (bs "21(?:1[013-5]|2\d|3[1-9])\d{5}|(?:45|5[0137]|6[069]|7[2389]|88)\d{7}")) [(9)%Z] [] (Some (bs "512345678"))))
  (Some (Build_desc (Some (bs "800\d{6,7}")) [(9)%Z; (10)%Z] [] (Some (bs "800123456"))))
  (Some (Build_desc (Some (bs "70[01346-8]\d{6}")) [(9)%Z] [] (Some (bs "701234567"))))
  (Some (Build_desc (Some (bs "801\d{6}")) [(9)%Z] [] (Some (bs "801234567"))))
  (Some (Build_desc None [(-1)%Z] [] None))
  (Some (Build_desc (Some (bs "39\d{7}")) [(9)%Z] [] (Some (bs "391234567"))))
  (Some (Build_desc (Some (bs "64\d{4,7}")) [(6)%Z; (7)%Z; (8)%Z; (9)%Z] [] (Some (bs "641234567"))))
  (Some (Build_desc (Some (bs "804\d{6}")) [(9)%Z] [] (Some (bs "804123456"))))
  None
  (Some (Build_desc None [(-1)%Z] [] None))
  None
  None
  None
  None
  (Some (Build_desc None [(-1)%Z] [] None))
  (Some (bs "PL")) (Some (48)%Z) (Some (bs "00")) None None
  None None None None
  [Build_nfmt (Some (bs "(\d{5})")) (Some (bs "$1")) [bs "19"] None None None;
    Build_nfmt (Some (bs "(\d{3})(\d{3})")) (Some (bs "$1 $2")) [bs "11|20|64"] None None None;
    Build_nfmt (Some (bs "(\d{2})(\d{2})(\d{3})")) (Some (bs "$1 $2 $3")) [bs "30|(?:1[2-8]|2[2-69]|3[2-4]|4[1-468]|5[24-689]|6[1-3578]|7[14-7]|8[1-79]|9[145])1"; bs "30|(?:1[2-8]|2[2-69]|3[2-4]|4[1-468]|5[24-689]|6[1-3578]|7[14-7]|8[1-79]|9[145])19"] None None None;
    Build_nfmt (Some (bs "(\d{3})(\d{2})(\d{2,3})")) (Some (bs "$1 $2 $3")) [bs "64"] None None None;
    Build_nfmt (Some (bs "(\d{3})(\d{3})(\d{3})")) (Some (bs "$1 $2 $3")) [bs "21|39|45|5[0137]|6[0469]|7[02389]|8(?:0[14]|8)"] None None None;
    Build_nfmt (Some (bs "(\d{2})(\d{3})(\d{2})(\d{2})")) (Some (bs "$1 $2 $3 $4")) [bs "1[2-8]|[2-7]|8[1-79]|9[145]"] None None None;
    Build_nfmt (Some (bs "(\d{3})(\d{3})(\d{3,4})")) (Some (bs "$1 $2 $3")) [bs "8"] None None None]
  []
  None None (Some true).

Definition md_PM : meta := Eval vm_compute in Build_meta
  (Some (Build_desc (Some (bs "[78]\d{8}|[2-9]\d{5}")) [(6)%Z; (9)%Z] [] None))
  (Some (Build_desc (Some (bs "80[6-9]\d{6}|(?:[236-9]\d|4[1-35-9]|5[0-47-9])\d{4}")) [] [] (Some (bs "430123"))))
  (Some (Build_desc (Some (bs "708(?:4[0-5]|5[0-6])\d{4}|(?:[236-9]\d|4[02-489]|5[02-9])\d{4}")) [] [] (Some (bs "551234"))))
  (Some (Build_desc (Some (bs "80[0-5]\d{6}")) [(9)%Z] [] (Some (bs "800012345"))))
  (Some (Build_desc (Some (bs "8[129]\d{7}")) [(9)%Z] [] (Some (bs "810123456"))))
  (Some (Build_desc None [(-1)%Z] [] None))
  (Some (Build_desc None [(-1)%Z] [] None))
  (Some (Build_desc None [(-1)%Z] [] None))
  (Some (Build_desc None [(-1)%Z] [] None))
  (Some (Build_desc None [(-1)%Z] [] None))
  None
  (Some (Build_desc None [(-1)%Z] [] None))
  None
  None
  None
  None
  (Some (Build_desc None [(-1)%Z] [] None))
  (Some (bs "PM")) (Some (508)%Z) (Some (bs "00")) None (Some (bs "0"))
  None (Some (bs "0")) None None
  [Build_nfmt (Some (bs "(\d{2})(\d{2})(\d{2})")) (Some (bs "$1 $2 $3")) [bs "[2-9]"] (Some (bs "0$1")) None None;
    Build_nfmt (Some (bs "(\d{3})(\d{3})(\d{3})")) (Some (bs "$1 $2 $3")) [bs "7"] None None None;
    Build_nfmt (Some (bs "(\d{3})(\d{2})(\d{2})(\d{2})")) (Some (bs "$1 $2 $3 $4")) [bs "8"] (Some (bs "0$1")) None None]
  []
  None None None.

Definition md_PR : meta := Eval vm_compute in Build_meta
  (Some (Build_desc (Some (bs "(?:[589]\d\d|787)\d{7}")) [(10)%Z] [(7)%Z] None))
  (Some (Build_desc (Some (bs "(?:787|939)[2-9]\d{6}")) [] [(7)%Z] (Some (bs "7872345678"))))
  (Some (Build_desc (Some (bs "(?:787|939)[2-9]\d{6}")) [] [(7)%Z] (Some (bs "7872345678"))))
  (Some (Build_desc (Some (bs "8(?:00|33|44|55|66|77|88)[2-9]\d{6}")) [] [] (Some (bs "8002345678"))))
  (Some (Build_desc (Some (bs "900[2-9]\d{6}")) [] [] (Some (bs "9002345678"))))
  (Some (Build_desc None [(-1)%Z] [] None))
  (Some (Build_desc (Some (bs "52(?:3(?:[2-46-9][02-9]\d|5(?:[02-46-9]\d|5[0-46-9]))|4(?:[2-478][02-9]\d|5(?:[034]\d|2[024-9]|5[0-46-9])|6(?:0[1-9]|[2-9]\d)|9(?:[05-9]\d|2[0-5]|49)))\d{4}|52[34][2-9]1[02-9]\d{4}|5(?:00|2[125-9]|3[23]|44|66|77|88)[2-9]\d{6}")) [] [] (Some (bs "5002345678"))))
  (Some (Build_desc None [(-1)%Z] [] None))
  (Some (Build_desc None [(-1)%Z] [] None))
  (Some (Build_desc None [(-1)%Z] [] None))
  None
  (Some (Build_desc None [(-1)%Z] [] None))
  None
  None
  None
  None
  (Some (Build_desc None [(-1)%Z] [] None))
  (Some (bs "PR")) (Some (1)%Z) (Some (bs "011")) None (Some (bs "1"))
  None (Some (bs "1")) None (Some true)
  []
  []
  None (Some (bs "787|939")) (Some true).

Definition md_PS : meta := Eval vm_compute in Build_meta
  (Some (Build_desc (Some (bs "[2489]2\d{6}|(?:1\d|5)\d{8}")) [(8)%Z; (9)%Z; (10)%Z] [(7)%Z] None))
  (Some (Build_desc (Some (bs "(?:22[2-47-9]|42[45]|82[014-68]|92[3569])\d{5}")) [(8)%Z] [(7)%Z] (Some (bs "22234567"))))
  (Some (Build_desc (Some (bs "5[69]\d{7}")) [(9)%Z] [] (Some (bs "599123456"))))
  (Some (Build_desc (Some (bs "1800\d{6}")) [(10)%Z] [] (Some (bs "1800123456"))))
  (Some (Build_desc None [(-1)%Z] [] None))
  (Some (Build_desc (Some (bs "1700\d{6}")) [(10)%Z] [] (Some (bs "1700123456"))))
  (Some (Build_desc None [(-1)%Z] [] None))
  (Some (Build_desc None [(-1)%Z] [] None))
  (Some (Build_desc None [(-1)%Z] [] None))
  (Some (Build_desc None [(-1)%Z] [] None))
  None
  (Some (Build_desc None [(-1)%Z] [] None))
  None
  None
  None
  None
  (Some (Build_desc None [(-1)%Z] [] None))
  (Some (bs "PS")) (Some (970)%Z) (Some (bs "00")) None (Some (bs "0"))
  None (Some (bs "0")) None None
  [Build_nfmt (Some (bs "(\d)(\d{3})(\d{4})")) (Some (bs "$1 $2 $3")) [bs "[2489]"] (Some (bs "0$1")) None None;
    Build_nfmt (Some (bs "(\d{3})(\d{3})(\d{3})")) (Some (bs "$1 $2 $3")) [bs "5"] (Some (bs "0$1")) None None;
    Build_nfmt (Some (bs "(\d{4})(\d{3})(\d{3})")) (Some (bs "$1 $2 $3")) [bs "1"] None None None]
  []
  None None None.

Definition md_PT : meta := Eval vm_compute in Build_meta
  (Some (Build_desc (Some (bs "1693\d{5}|(?:[26-9]\d|30)\d{7}")) [(9)%Z] [] None))
  (Some (Build_desc (Some (bs "2(?:[12]\d|3[1-689]|4[1-59]|[57][1-9]|6[1-35689]|8[1-69]|9[1256])\d{6}")) [] [] (Some (bs "212345678"))))
  (Some (Build_desc (Some (bs "6(?:[06]92(?:30|9\d)|[35]92(?:[049]\d|3[034]))\d{3}|(?:(?:16|6[0356])93|9(?:[1-36]\d\d|480))\d{5}")) [] [] (Some (bs "912345678"))))
  (Some (Build_desc (Some (bs "80[02]\d{6}")) [] [] (Some (bs "800123456"))))
  (Some (Build_desc (Some (bs "(?:6(?:0[178]|4[68])\d|76(?:0[1-57]|1[2-47]|2[237]))\d{5}")) [] [] (Some (bs "760123456"))))
  (Some (Build_desc (Some (bs "80(?:8\d|9[1579])\d{5}")) [] [] (Some (bs "808123456"))))
  (Some (Build_desc (Some (bs "884[0-4689]\d{5}")) [] [] (Some (bs "884123456"))))
  (Some (Build_desc (Some (bs "30\d{7}")) [] [] (Some (bs "301234567"))))
  (Some (Build_desc (Some (bs "6(?:222\d|89(?:00|88|99))\d{4}")) [] [] (Some (bs "622212345"))))
  (Some (Build_desc (Some (bs "70(?:38[01]|596|(?:7\d|8[17])\d)\d{4}")) [] [] (Some (bs "707123456"))))
  None
  (Some (Build_desc (Some (bs "600\d{6}|6[06]92(?:0\d|3[349]|49)\d{3}")) [] [] (Some (bs "600110000"))))
  None
  None
  None
  None
  (Some (Build_desc None [(-1)%Z] [] None))
  (Some (bs "PT")) (Some (351)%Z) (Some (bs "00")) None None
  None None None None
  [Build_nfmt (Some (bs "(\d{2})(\d{3})(\d{4})")) (Some (bs "$1 $2 $3")) [bs "2[12]"] None None None;
    Build_nfmt (Some (bs "(\d{3})(\d{3})(\d{3})")) (Some (bs "$1 $2 $3")) [bs "16|[236-9]"] None None None]
  []
  None None (Some true).

Definition md_PW : meta := Eval vm_compute in Build_meta
  (Some (Build_desc (Some (bs "(?:[24-8]\d\d|345|900)\d{4}")) [(7)%Z] [] None))
  (Some (Build_desc (Some (bs "(?:2(?:55|77)|345|488|5(?:35|44|87)|6(?:22|54|79)|7(?:33|47)|8(?:24|55|76)|900)\d{4}")) [] [] (Some (bs "2771234"))))
  (Some (Build_desc (Some (bs "(?:(?:46|83)[0-5]|(?:6[2-4689]|78)0)\d{4}|(?:45|77|88)\d{5}")) [] [] (Some (bs "6201234"))))
  (Some (Build_desc None [(-1)%Z] [] None))
  (Some (Build_desc None [(-1)%Z] [] None))
  (Some (Build_desc None [(-1)%Z] [] None))
  (Some (Build_desc None [(-1)%Z] [] None))
  (Some (Build_desc None [(-1)%Z] [] None))
  (Some (Build_desc None [(-1)%Z] [] None))
  (Some (Build_desc None [(-1)%Z] [] None))
  None
  (Some (Build_desc None [(-1)%Z] [] None))
  None
  None
  None
  None
  (Some (Build_desc None [(-1)%Z] [] None))
  (Some (bs "PW")) (Some (680)%Z) (Some (bs "01[12]")) None None
  None None None None
  [Build_nfmt (Some (bs "(\d{3})(\d{4})")) (Some (bs "$1 $2")) [bs "[2-9]"] None None None]
  []
  None None None.

Definition md_PY : meta := Eval vm_compute in Build_meta
  (Some (Build_desc (Some (bs "[36-8]\d{5,8}|4\d{6,8}|59\d{6}|9\d{5,10}|(?:2\d|5[0-8])\d{6,7}")) [(6)%Z; (7)%Z; (8)%Z; (9)%Z; (10)%Z; (11)%Z] [(5)%Z] None))
  (Some (Build_desc (Some (bs "(?:3[289]|4[246-8]|61|7[1-3]|8[1-36])\d{5,7}|(?:2(?:[14-68]\d|2[4-68]|7[15]|9[1-5])|3(?:18|3[167]|4[2357]|51|[67]\d)|4(?:1\d|3[12]|5[13]|9[1-47])|5(?:[1-4]\d|5[02-4])|6(?:3[1-3]|44|7[1-8])|7(?:4[0-4]|5\d|6[1-578]|75|8[0-8])|858)\d{5,6}")) [(7)%Z; (8)%Z; (9)%Z] [(5)%Z; (6)%Z] (Some (bs "212345678"))))
  (Some (Build_desc (Some (bs "9(?:51|6[129]|7[1-6]|8[1-7]|9[1-5])\d{6}")) [(9)%Z] [] (Some (bs "961456789"))))
  (Some (Build_desc (Some (bs "9800\d{5,7}")) [(9)%Z; (10)%Z; (11)%Z] [] (Some (bs "98000123456"))))
  (Some (Build_desc None [(-1)%Z] [] None))
  (Some (Build_desc None [(-1)%Z] [] None))
  (Some (Build_desc None [(-1)%Z] [] None))
  (Some (Build_desc (Some (bs "8700[0-4]\d{4}")) [(9)%Z] [] (Some (bs "870012345"))))
  (Some (Build_desc None [(-1)%Z] [] None))
  (Some (Build_desc (Some (bs "[245]0\d{6,7}|[36-9]0\d{4,7}")) [(6)%Z; (7)%Z; (8)%Z; (9)%Z] [] (Some (bs "201234567"))))
  None
  (Some (Build_desc None [(-1)%Z] [] None))
  None
  None
  None
  None
  (Some (Build_desc None [(-1)%Z] [] None))
  (Some (bs "PY")) (Some (595)%Z) (Some (bs "00")) None (Some (bs "0"))
  None (Some (bs "0")) None None
  [Build_nfmt (Some (bs "(\d{6,7})")) (Some (bs "$1")) [bs "[125]|4[01]"] None None None;
    Build_nfmt (Some (bs "(\d{3})(\d{3,6})")) (Some (bs "$1 $2")) [bs "[2-9]0"] (Some (bs "0$1")) None None;
    Build_nfmt (Some (bs "(\d{2})(\d{5})")) (Some (bs "$1 $2")) [bs "3[289]|4[246-8]|61|7[1-3]|8[1-36]"] (Some (bs "(0$1)")) None None;
    Build_nfmt (Some (bs "(\d{3})(\d{4,5})")) (Some (bs "$1 $2")) [bs "2[279]|3[13-5]|4[359]|5|6(?:[34]|7[1-46-8])|7[46-8]|85"] (Some (bs "(0$1)")) None None;
    Build_nfmt (Some (bs "(\d{2})(\d{3})(\d{3,4})")) (Some (bs "$1 $2 $3")) [bs "2[14-68]|3[26-9]|4[1246-8]|6(?:1|75)|7[1-35]|8[1-36]"] (Some (bs "(0$1)")) None None;
    Build_nfmt (Some (bs "(\d{2})(\d{3})(\d{4})")) (Some (bs "$1 $2 $3")) [bs "87"] None None None;
    Build_nfmt (Some (bs "(\d{3})(\d{6})")) (Some (bs "$1 $2")) [bs "9(?:[5-79]|8[1-7])"] (Some (bs "0$1")) None None;
    Build_nfmt (Some (bs "(\d{3})(\d{3})(\d{3})")) (Some (bs "$1 $2 $3")) [bs "[2-8]"] (Some (bs "0$1")) None None;
    Build_nfmt (Some (bs "(\d{4})(\d{3})(\d{4})")) (Some (bs "$1 $2 $3")) [bs "9"] None None None]
  [Build_nfmt (Some (bs "(\d{3})(\d{3,6})")) (Some (bs "$1 $2")) [bs "[2-9]0"] (Some (bs "0$1")) None None;
    Build_nfmt (Some (bs "(\d{2})(\d{5})")) (Some (bs "$1 $2")) [bs "3[289]|4[246-8]|61|7[1-3]|8[1-36]"] (Some (bs "(0$1)")) None None;
    Build_nfmt (Some (bs "(\d{3})(\d{4,5})")) (Some (bs "$1 $2")) [bs "2[279]|3[13-5]|4[359]|5|6(?:[34]|7[1-46-8])|7[46-8]|85"] (Some (bs "(0$1)")) None None;
    Build_nfmt (Some (bs "(\d{2})(\d{3})(\d{3,4})")) (Some (bs "$1 $2 $3")) [bs "2[14-68]|3[26-9]|4[1246-8]|6(?:1|75)|7[1-35]|8[1-36]"] (Some (bs "(0$1)")) None None;
    Build_nfmt (Some (bs "(\d{2})(\d{3})(\d{4})")) (Some (bs "$1 $2 $3")) [bs "87"] None None None;
    Build_nfmt (Some (bs "(\d{3})(\d{6})")) (Some (bs "$1 $2")) [bs "9(?:[5-79]|8[1-7])"] (Some (bs "0$1")) None None;
    Build_nfmt (Some (bs "(\d{3})(\d{3})(\d{3})")) (Some (bs "$1 $2 $3")) [bs "[2-8]"] (Some (bs "0$1")) None None;
    Build_nfmt (Some (bs "(\d{4})(\d{3})(\d{4})")) (Some (bs "$1 $2 $3")) [bs "9"] None None None]
  None None (Some true).

Definition md_QA : meta := Eval vm_compute in Build_meta
  (Some (Build_desc (Some (bs "800\d{4}|(?:2|800)\d{6}|(?:0080|[3-7])\d{7}")) [(7)%Z; (8)%Z; (9)%Z; (11)%Z] [] None))
  (Some (Build_desc (Some (bs "4(?:(?:[014]\d\d|999)\d|2022)\d{3}")) [(8)%Z] [] (Some (bs "44123456"))))
  (Some (Build_desc (Some (bs "[35-7]\d{7}")) [(8)%Z] [] (Some (bs "33123456"))))
  (Some (Build_desc (Some (bs "800\d{4}|(?:0080[01]|800)\d{6}")) [(7)%Z; (9)%Z; (11)%Z] [] (Some (bs "8001234"))))
  (Some (Build_desc None [(-1)%Z] [] None))
  (Some (Build_desc None [(-1)%Z] [] None))
  (Some (Build_desc None [(-1)%Z] [] None))
  (Some (Build_desc None [(-1)%Z] [] None))
  (Some (Build_desc (Some (bs "2[136]\d{5}")) [(7)%Z] [] (Some (bs "2123456"))))
  (Some (Build_desc None [(-1)%Z] [] None))
  None
  (Some (Build_desc None [(-1)%Z] [] None))
  None
  None
  None
  None
  (Some (Build_desc None [(-1)%Z] [] None))
  (Some (bs "QA")) (Some (974)%Z) (Some (bs "00")) None None
  None None None None
  [Build_nfmt (Some (bs "(\d{3})(\d{4})")) (Some (bs "$1 $2")) [bs "2[136]|8"] None None None;
    Build_nfmt (Some (bs "(\d{4})(\d{4})")) (Some (bs "$1 $2")) [bs "[3-7]"] None None None]
  []
  None None (Some true).

Definition md_RE : meta := Eval vm_compute in Build_meta
  (Some (Build_desc (Some (bs "709\d{6}|(?:26|[689]\d)\d{7}")) [(9)%Z] [] None))
  (Some (Build_desc (Some (bs "2631[0-6]\d{4}|26(?:2\d|30|88)\d{5}")) [] [] (Some (bs "262161234"))))
  (Some (Build_desc (Some (bs "(?:69(?:2\d\d|3(?:[06][0-6]|1[0-3]|2[0-2]|3[0-39]|4\d|5[0-5]|7[0-37]|8[0-8]|9[0-479]))|7092[0-3])\d{4}")) [] [] (Some (bs "692123456"))))
  (Some (Build_desc (Some (bs "80\d{7}")) [] [] (Some (bs "801234567"))))
  (Some (Build_desc (Some (bs "89[1-37-9]\d{6}")) [] [] (Some (bs "891123456"))))
  (Some (Build_desc (Some (bs "8(?:1[019]|2[0156]|84|90)\d{6}")) [] [] (Some (bs "810123456"))))
  (Some (Build_desc None [(-1)%Z] [] None))
  (Some (Build_desc (Some (bs "9(?:399[0-3]|479[0-6]|76(?:2[278]|3[0-37]))\d{4}")) [] [] (Some (bs "939901234"))))
  (Some (Build_desc None [(-1)%Z] [] None))
  (Some (Build_desc None [(-1)%Z] [] None))
  None
  (Some (Build_desc None [(-1)%Z] [] None))
  None
  None
  None
  None
  (Some (Build_desc None [(-1)%Z] [] None))
  (Some (bs "RE")) (Some (262)%Z) (Some (bs "00")) None (Some (bs "0"))
  None (Some (bs "0")) None None
  [Build_nfmt (Some (bs "(\d{3})(\d{2})(\d{2})(\d{2})")) (Some (bs "$1 $2 $3 $4")) [bs "[26-9]"] (Some (bs "0$1")) None None]
  []
  (Some true) None None.

Definition md_RO : meta := Eval vm_compute in Build_meta
  (Some (Build_desc (Some (bs "(?:[236-8]\d|90)\d{7}|[23]\d{5}")) [(6)%Z; (9)%Z] [] None))
  (Some (Build_desc (Some (bs "[23][13-6]\d{7}|(?:2(?:19\d|[3-6]\d9)|31\d\d)\d\d")) [] [] (Some (bs "211234567"))))
  (Some (Build_desc (Some (bs "(?:630|702)0\d{5}|(?:6(?:00|2\d)|7(?:0[013-9]|1[0-3]|[2-7]\d|8[03-8]|9[0-39]))\d{6}")) [(9)%Z] [] (Some (bs "712034567"))))
  (Some (Build_desc (Some (bs "800\d{6}")) [(9)%Z] [] (Some (bs "800123456"))))
  (Some (Build_desc (Some (bs "90[0136]\d{6}")) [(9)%Z] [] (Some (bs "900123456"))))
  (Some (Build_desc (Some (bs "801\d{6}")) [(9)%Z] [] (Some (bs "801123456"))))
  (Some (Build_desc None [(-1)%Z] [] None))
  (Some (Build_desc None [(-1)%Z] [] None))
  (Some (Build_desc None [(-1)%Z] [] None))
  (Some (Build_desc (Some (bs "(?:37\d|80[578])\d{6}")) [(9)%Z] [] (Some (bs "372123456"))))
  None
  (Some (Build_desc None [(-1)%Z] [] None))
  None
  None
  None
  None
  (Some (Build_desc None [(-1)%Z] [] None))
  (Some (bs "RO")) (Some (40)%Z) (Some (bs "00")) None (Some (bs "0"))
  (Some (bs " int ")) (Some (bs "0")) None None
  [Build_nfmt (Some (bs "(\d{3})(\d{3})")) (Some (bs "$1 $2")) [bs "2[3-6]"; bs "2[3-6]\d9"] (Some (bs "0$1")) None None;
    Build_nfmt (Some (bs "(\d{2})(\d{4})")) (Some (bs "$1 $2")) [bs "219|31"] (Some (bs "0$1")) None None;
    Build_nfmt (Some (bs "(\d{2})(\d{3})(\d{4})")) (Some (bs "$1 $2 $3")) [bs "[23]1"] (Some (bs "0$1")) None None;
    Build_nfmt (Some (bs "(\d{3})(\d{3})(\d{3})")) (Some (bs "$1 $2 $3")) [bs "[236-9]"] (Some (bs "0$1")) None None]
  []
  None None (Some true).

Definition md_RS : meta := Eval vm_compute in Build_meta
  (Some (Build_desc (Some (bs "38[02-9]\d{6,9}|6\d{7,9}|90\d{4,8}|38\d{5,6}|(?:7\d\d|800)\d{3,9}|(?:[12]\d|3[0-79])\d{5,10}")) [(6)%Z; (7)%Z; (8)%Z; (9)%Z; (10)%Z; (11)%Z; (12)%Z] [(4)%Z; (5)%Z] None))
  (Some (Build_desc (Some (bs "(?:11[1-9]\d|(?:2[389]|39)(?:0[2-9]|[2-9]\d))\d{3,8}|(?:1[02-9]|2[0-24-7]|3[0-8])[2-9]\d{4,9}")) [(7)%Z; (8)%Z; (9)%Z; (10)%Z; (11)%Z; (12)%Z] [(4)%Z; (5)%Z; (6)%Z] (Some (bs "10234567"))))
  (Some (Build_desc (Some (bs "6(?:[0-689]|7\d)\d{6,7}")) [(8)%Z; (9)%Z; (10)%Z] [] (Some (bs "601234567"))))
  (Some (Build_desc (Some (bs "800\d{3,9}")) [] [] (Some (bs "80012345"))))
  (Some (Build_desc (Some (bs "(?:78\d|90[0169])\d{3,7}")) [(6)%Z; (7)%Z; (8)%Z; (9)%Z; (10)%Z] [] (Some (bs "90012345"))))
  (Some (Build_desc None [(-1)%Z] [] None))
  (Some (Build_desc None [(-1)%Z] [] None))
  (Some (Build_desc None [(-1)%Z] [] None))
  (Some (Build_desc None [(-1)%Z] [] None))
  (Some (Build_desc (Some (bs "7[06]\d{4,10}")) [] [] (Some (bs "700123456"))))
  None
  (Some (Build_desc None [(-1)%Z] [] None))
  None
  None
  None
  None
  (Some (Build_desc None [(-1)%Z] [] None))
  (Some (bs "RS")) (Some (381)%Z) (Some (bs "00")) None (Some (bs "0"))
  None (Some (bs "0")) None None
  [Build_nfmt (Some (bs "(\d{3})(\d{3,9})")) (Some (bs "$1 $2")) [bs "(?:2[389]|39)0|[7-9]"] (Some (bs "0$1")) None None;
    Build_nfmt (Some (bs "(\d{2})(\d{5,10})")) (Some (bs "$1 $2")) [bs "[1-36]"] (Some (bs "0$1")) None None]
  []
  None None (Some true).

Definition md_RU : meta := Eval vm_compute in Build_meta
  (Some (Build_desc (Some (bs "8\d{13}|[347-9]\d{9}")) [(10)%Z; (14)%Z] [(7)%Z] None))
  (Some (Build_desc (Some (bs "(?:3(?:0[12]|36|4[1-35-79]|5[1-3]|65|8[1-58]|9[0145])|4(?:01|1[1356]|2[13467]|7[1-5]|8[1-7]|9[1-689])|8(?:1[1-8]|2[01]|3[13-6]|4[0-8]|5[15-7]|6[0-35-79]|7[1-37-9]))\d{7}")) [(10)%Z] [(7)%Z] (Some (bs "3011234567"))))
  (Some (Build_desc (Some (bs "9\d{9}")) [(10)%Z] [] (Some (bs "9123456789"))))
  (Some (Build_desc (Some (bs "8(?:0[04]|108\d{3})\d{7}")) [] [] (Some (bs "8001234567"))))
  (Some (Build_desc (Some (bs "80[39]\d{7}")) [(10)%Z] [] (Some (bs "8091234567"))))
  (Some (Build_desc None [(-1)%Z] [] None))
  (Some (Build_desc (Some (bs "808\d{7}")) [(10)%Z] [] (Some (bs "8081234567"))))
  (Some (Build_desc None [(-1)%Z] [] None))
  (Some (Build_desc None [(-1)%Z] [] None))
  (Some (Build_desc None [(-1)%Z] [] None))
  None
  (Some (Build_desc None [(-1)%Z] [] None))
  None
  None
  None
  None
  (Some (Build_desc None [(-1)%Z] [] None))
  (Some (bs "RU")) (Some (7)%Z) (Some (bs "810")) (Some (bs "8~10")) (Some (bs "8"))
  None (Some (bs "8")) None None
  [Build_nfmt (Some (bs "(\d{3})(\d{2})(\d{2})")) (Some (bs "$1-$2-$3")) [bs "[0-79]"] None None None;
    Build_nfmt (Some (bs "(\d{4})(\d{2})(\d{2})(\d{2})")) (Some (bs "$1 $2 $3 $4")) [bs "7(?:1[0-8]|2[1-9])"; bs "7(?:1(?:[0-356]2|4[29]|7|8[27])|2(?:1[23]|[2-9]2))"; bs "7(?:1(?:[0-356]2|4[29]|7|8[27])|2(?:13[03-69]|62[013-9]))|72[1-57-9]2"] (Some (bs "8 ($1)")) (Some true) None;
    Build_nfmt (Some (bs "(\d{5})(\d)(\d{2})(\d{2})")) (Some (bs "$1 $2 $3 $4")) [bs "7(?:1[0-68]|2[1-9])"; bs "7(?:1(?:[06][3-6]|[18]|2[35]|[3-5][3-5])|2(?:[13][3-5]|[24-689]|7[457]))"; bs "7(?:1(?:0(?:[356]|4[023])|[18]|2(?:3[013-9]|5)|3[45]|43[013-79]|5(?:3[1-8]|4[1-7]|5)|6(?:3[0-35-9]|[4-6]))|2(?:1(?:3[178]|[45])|[24-689]|3[35]|7[457]))|7(?:14|23)4[0-8]|71(?:33|45)[1-79]"] (Some (bs "8 ($1)")) (Some true) None;
    Build_nfmt (Some (bs "(\d{3})(\d{3})(\d{4})")) (Some (bs "$1 $2 $3")) [bs "7"] (Some (bs "8 ($1)")) (Some true) None;
    Build_nfmt (Some (bs "(\d{3})(\d{3})(\d{2})(\d{2})")) (Some (bs "$1 $2-$3-$4")) [bs "[349]|8(?:[02-7]|1[1-8])"] (Some (bs "8 ($1)")) (Some true) None;
    Build_nfmt (Some (bs "(\d{4})(\d{4})(\d{3})(\d{3})")) (Some (bs "$1 $2 $3 $4")) [bs "8"] (Some (bs "8 ($1)")) None None]
  [Build_nfmt (Some (bs "(\d{4})(\d{2})(\d{2})(\d{2})")) (Some (bs "$1 $2 $3 $4")) [bs "7(?:1[0-8]|2[1-9])"; bs "7(?:1(?:[0-356]2|4[29]|7|8[27])|2(?:1[23]|[2-9]2))"; bs "7(?:1(?:[0-356]2|4[29]|7|8[27])|2(?:13[03-69]|62[013-9]))|72[1-57-9]2"] (Some (bs "8 ($1)")) (Some true) None;
    Build_nfmt (Some (bs "(\d{5})(\d)(\d{2})(\d{2})")) (Some (bs "$1 $2 $3 $4")) [bs "7(?:1[0-68]|2[1-9])"; bs "7(?:1(?:[06][3-6]|[18]|2[35]|[3-5][3-5])|2(?:[13][3-5]|[24-689]|7[457]))"; bs "7(?:1(?:0(?:[356]|4[023])|[18]|2(?:3[013-9]|5)|3[45]|43[013-79]|5(?:3[1-8]|4[1-7]|5)|6(?:3[0-35-9]|[4-6]))|2(?:1(?:3[178]|[45])|[24-689]|3[35]|7[457]))|7(?:14|23)4[0-8]|71(?:33|45)[1-79]"] (Some (bs "8 ($1)")) (Some true) None;
    Build_nfmt (Some (bs "(\d{3})(\d{3})(\d{4})")) (Some (bs "$1 $2 $3")) [bs "7"] (Some (bs "8 ($1)")) (Some true) None;
    Build_nfmt (Some (bs "(\d{3})(\d{3})(\d{2})(\d{2})")) (Some (bs "$1 $2-$3-$4")) [bs "[349]|8(?:[02-7]|1[1-8])"] (Some (bs "8 ($1)")) (Some true) None;
    Build_nfmt (Some (bs "(\d{4})(\d{4})(\d{3})(\d{3})")) (Some (bs "$1 $2 $3 $4")) [bs "8"] (Some (bs "8 ($1)")) None None]
  (Some true) (Some (bs "[3489]")) (Some true).

Definition md_RW : meta := Eval vm_compute in Build_meta
  (Some (Build_desc (Some (bs "(?:06|[27]\d\d|[89]00)\d{6}")) [(8)%Z; (9)%Z] [] None))
  (Some (Build_desc (Some (bs "(?:06|2[23568]\d)\d{6}")) [] [] (Some (bs "250123456"))))
  (Some (Build_desc (Some (bs "7[237-9]\d{7}")) [(9)%Z] [] (Some (bs "720123456"))))
  (Some (Build_desc (Some (bs "800\d{6}")) [(9)%Z] [] (Some (bs "800123456"))))
  (Some (Build_desc (Some (bs "900\d{6}")) [(9)%Z] [] (Some (bs "900123456"))))
  (Some (Build_desc None [(-1)%Z] [] None))
  (Some (Build_desc None [(-1)%Z] [] None))
  (Some (Build_desc None [(-1)%Z] [] None))
  (Some (Build_desc None [(-1)%Z] [] None))
  (Some (Build_desc None [(-1)%Z] [] None))
  None
  (Some (Build_desc None [(-1)%Z] [] None))
  None
  None
  None
  None
  (Some (Build_desc None [(-1)%Z] [] None))
  (Some (bs "RW")) (Some (250)%Z) (Some (bs "00")) None (Some (bs "0"))
  None (Some (bs "0")) None None
  [Build_nfmt (Some (bs "(\d{2})(\d{2})(\d{2})(\d{2})")) (Some (bs "$1 $2 $3 $4")) [bs "0"] None None None;
    Build_nfmt (Some (bs "(\d{3})(\d{3})(\d{3})")) (Some (bs "$1 $2 $3")) [bs "2"] None None None;
    Build_nfmt (Some (bs "(\d{3})(\d{3})(\d{3})")) (Some (bs "$1 $2 $3")) [bs "[7-9]"] (Some (bs "0$1")) None None]
  []
  None None None.

Definition md_SA : meta := Eval vm_compute in Build_meta
  (Some (Build_desc (Some (bs "(?:[15]\d|800|92)\d{7}")) [(9)%Z; (10)%Z] [(7)%Z] None))
  (Some (Build_desc (Some (bs "1(?:1\d|2[24-8]|3[35-8]|4[3-68]|6[2-5]|7[235-7])\d{6}")) [(9)%Z] [(7)%Z] (Some (bs "112345678"))))
  (Some (Build_desc (Some (bs "579[0-8]\d{5}|5(?:[013-689]\d|7[0-8])\d{6}")) [(9)%Z] [] (Some (bs "512345678"))))
  (Some (Build_desc (Some (bs "800\d{7}")) [(10)%Z] [] (Some (bs "8001234567"))))
  (Some (Build_desc (Some (bs "925\d{6}")) [(9)%Z] [] (Some (bs "925012345"))))
  (Some (Build_desc (Some (bs "920\d{6}")) [(9)%Z] [] (Some (bs "920012345"))))
  (Some (Build_desc None [(-1)%Z] [] None))
  (Some (Build_desc None [(-1)%Z] [] None))
  (Some (Build_desc None [(-1)%Z] [] None))
  (Some (Build_desc None [(-1)%Z] [] None))
  None
  (Some (Build_desc None [(-1)%Z] [] None))
  None
  None
  None
  None
  (Some (Build_desc None [(-1)%Z] [] None))
  (Some (bs "SA")) (Some (966)%Z) (Some (bs "00")) None (Some (bs "0"))
  None (Some (bs "0")) None None
  [Build_nfmt (Some (bs "(\d{4})(\d{5})")) (Some (bs "$1 $2")) [bs "9"] None None None;
    Build_nfmt (Some (bs "(\d{2})(\d{3})(\d{4})")) (Some (bs "$1 $2 $3")) [bs "1"] (Some (bs "0$1")) None None;
    Build_nfmt (Some (bs "(\d{2})(\d{3})(\d{4})")) (Some (bs "$1 $2 $3")) [bs "5"] (Some (bs "0$1")) None None;
    Build_nfmt (Some (bs "(\d{3})(\d{3})(\d{4})")) (Some (bs "$1 $2 $3")) [bs "8"] None None None]
  []
  None None (Some true).

Definition md_SB : meta := Eval vm_compute in Build_meta
  (Some (Build_desc (Some (bs "[6-9]\d{6}|[1-6]\d{4}")) [(5)%Z; (7)%Z] [] None))
  (Some (Build_desc (Some (bs "(?:1[4-79]|[23]\d|4[0-2]|5[03]|6[0-37])\d{3}")) [(5)%Z] [] (Some (bs "40123"))))
  (Some (Build_desc (Some (bs "48\d{3}|(?:(?:6[89]|7[1-9]|8[4-9])\d|9(?:1[2-9]|2[013-9]|3[0-2]|[46]\d|5[0-46-9]|7[0-689]|8[0-79]|9[0-8]))\d{4}")) [] [] (Some (bs "7421234"))))
  (Some (Build_desc (Some (bs "1[38]\d{3}")) [(5)%Z] [] (Some (bs "18123"))))
  (Some (Build_desc None [(-1)%Z] [] None))
  (Some (Build_desc None [(-1)%Z] [] None))
  (Some (Build_desc None [(-1)%Z] [] None))
  (Some (Build_desc (Some (bs "5[12]\d{3}")) [(5)%Z] [] (Some (bs "51123"))))
  (Some (Build_desc None [(-1)%Z] [] None))
  (Some (Build_desc None [(-1)%Z] [] None))
  None
  (Some (Build_desc None [(-1)%Z] [] None))
  None
  None
  None
  None
  (Some (Build_desc None [(-1)%Z] [] None))
  (Some (bs "SB")) (Some (677)%Z) (Some (bs "0[01]")) None None
  None None None None
  [Build_nfmt (Some (bs "(\d{2})(\d{5})")) (Some (bs "$1 $2")) [bs "6[89]|7|8[4-9]|9(?:[1-8]|9[0-8])"] None None None]
  []
  None None None.

Definition md_SC : meta := Eval vm_compute in Build_meta
  (Some (Build_desc (Some (bs "(?:[2489]\d|64)\d{5}")) [(7)%Z] [] None))
  (Some (Build_desc (Some (bs "4[2-46]\d{5}")) [] [] (Some (bs "4217123"))))
  (Some (Build_desc (Some (bs "2[125-8]\d{5}")) [] [] (Some (bs "2510123"))))
  (Some (Build_desc (Some (bs "800[08]\d{3}")) [] [] (Some (bs "8000000"))))
  (Some (Build_desc (Some (bs "85\d{5}")) [] [] (Some (bs "8512345"))))
  (Some (Build_desc None [(-1)%Z] [] None))
  (Some (Build_desc None [(-1)%Z] [] None))
  (Some (Build_desc (Some (bs "971\d{4}|(?:64|95)\d{5}")) [] [] (Some (bs "6412345"))))
  (Some (Build_desc None [(-1)%Z] [] None))
  (Some (Build_desc None [(-1)%Z] [] None))
  None
  (Some (Build_desc None [(-1)%Z] [] None))
  None
  None
  None
  None
  (Some (Build_desc None [(-1)%Z] [] None))
  (Some (bs "SC")) (Some (248)%Z) (Some (bs "010|0[0-2]")) (Some (bs "00")) None
  None None None None
  [Build_nfmt (Some (bs "(\d)(\d{3})(\d{3})")) (Some (bs "$1 $2 $3")) [bs "[246]|9[57]"] None None None]
  []
  None None None.

Definition md_SD : meta := Eval vm_compute in Build_meta
  (Some (Build_desc (Some (bs "[19]\d{8}")) [(9)%Z] [] None))
  (Some (Build_desc (Some (bs "1(?:5\d|8[35-7])\d{6}")) [] [] (Some (bs "153123456"))))
  (Some (Build_desc (Some (bs "(?:1[0-2]|9[0-3569])\d{7}")) [] [] (Some (bs "911231234"))))
  (Some (Build_desc None [(-1)%Z] [] None))
  (Some (Build_desc None [(-1)%Z] [] None))
  (Some (Build_desc None [(-1)%Z] [] None))
  (Some (Build_desc None [(-1)%Z] [] None))
  (Some (Build_desc None [(-1)%Z] [] None))
  (Some (Build_desc None [(-1)%Z] [] None))
  (Some (Build_desc None [(-1)%Z] [] None))
  None
  (Some (Build_desc None [(-1)%Z] [] None))
  None
  None
  None
  None
  (Some (Build_desc None [(-1)%Z] [] None))
  (Some (bs "SD")) (Some (249)%Z) (Some (bs "00")) None (Some (bs "0"))
  None (Some (bs "0")) None None
  [Build_nfmt (Some (bs "(\d{2})(\d{3})(\d{4})")) (Some (bs "$1 $2 $3")) [bs "[19]"] (Some (bs "0$1")) None None]
  []
  None None None.

Definition md_SE : meta := Eval vm_compute in Build_meta
  (Some (Build_desc (Some (bs "(?:[26]\d\d|9)\d{9}|[1-9]\d{8}|[1-689]\d{7}|[1-4689]\d{6}|2\d{5}")) [(6)%Z; (7)%Z; (8)%Z; (9)%Z; (10)%Z; (12)%Z] [] None))
  (Some (Build_desc (Some (bs "(?:(?:[12][136]|3[356]|4[0246]|6[03]|8\d)\d|90[1-9])\d{4,6}|(?:1(?:2[0-35]|4[0-4]|5[0-25-9]|7[13-6]|[89]\d)|2(?:2[0-7]|4[0136-8]|5[0138]|7[018]|8[01]|9[0-57])|3(?:0[0-4]|1\d|2[0-25]|4[056]|7[0-2]|8[0-3]|9[023])|4(?:1[013-8]|3[0135]|5[14-79]|7[0-246-9]|8[0156]|9[0-689])|5(?:0[0-6]|[15][0-5]|2[0-68]|3[0-4]|4\d|6[03-5]|7[013]|8[0-79]|9[01])|6(?:1[1-3]|2[0-4]|4[02-57]|5[0-37]|6[0-3]|7[0-2]|8[0247]|9[0-356])|9(?:1[0-68]|2\d|3[02-5]|4[0-3]|5[0-4]|[68][01]|7[0135-8]))\d{5,6}")) [(7)%Z; (8)%Z; (9)%Z] [] (Some (bs "8123456"))))
  (Some (Build_desc (Some (bs "7[023689]\d{7}")) [(9)%Z] [] (Some (bs "701234567"))))
  (Some (Build_desc (Some (bs "20\d{4,7}")) [(6)%Z; (7)%Z; (8)%Z; (9)%Z] [] (Some (bs "20123456"))))
  (Some (Build_desc (Some (bs "649\d{6}|99[1-59]\d{4}(?:\d{3})?|9(?:00|39|44)[1-8]\d{3,6}")) [(7)%Z; (8)%Z; (9)%Z; (10)%Z] [] (Some (bs "9001234567"))))
  (Some (Build_desc (Some (bs "77[0-7]\d{6}")) [(9)%Z] [] (Some (bs "771234567"))))
  (Some (Build_desc (Some (bs "75[1-8]\d{6}")) [(9)%Z] [] (Some (bs "751234567"))))
  (Some (Build_desc None [(-1)%Z] [] None))
  (Some (Build_desc (Some (bs "74[02-9]\d{6}")) [(9)%Z] [] (Some (bs "740123456"))))
  (Some (Build_desc (Some (bs "10[1-8]\d{6}")) [(9)%Z] [] (Some (bs "102345678"))))
  None
  (Some (Build_desc (Some (bs "(?:25[245]|67[3-68])\d{9}")) [(12)%Z] [] (Some (bs "254123456789"))))
  None
  None
  None
  None
  (Some (Build_desc None [(-1)%Z] [] None))
  (Some (bs "SE")) (Some (46)%Z) (Some (bs "00")) None (Some (bs "0"))
  None (Some (bs "0")) None None
  [Build_nfmt (Some (bs "(\d{2})(\d{2,3})(\d{2})")) (Some (bs "$1-$2 $3")) [bs "20"] (Some (bs "0$1")) None None;
    Build_nfmt (Some (bs "(\d{3})(\d{4})")) (Some (bs "$1-$2")) [bs "9(?:00|39|44|9)"] (Some (bs "0$1")) None None;
    Build_nfmt (Some (bs "(\d{2})(\d{3})(\d{2})")) (Some (bs "$1-$2 $3")) [bs "[12][136]|3[356]|4[0246]|6[03]|90[1-9]"] (Some (bs "0$1")) None None;
    Build_nfmt (Some (bs "(\d)(\d{2,3})(\d{2})(\d{2})")) (Some (bs "$1-$2 $3 $4")) [bs "8"] (Some (bs "0$1")) None None;
    Build_nfmt (Some (bs "(\d{3})(\d{2,3})(\d{2})")) (Some (bs "$1-$2 $3")) [bs "1[2457]|2(?:[247-9]|5[0138])|3[0247-9]|4[1357-9]|5[0-35-9]|6(?:[125689]|4[02-57]|7[0-2])|9(?:[125-8]|3[02-5]|4[0-3])"] (Some (bs "0$1")) None None;
    Build_nfmt (Some (bs "(\d{3})(\d{2,3})(\d{3})")) (Some (bs "$1-$2 $3")) [bs "9(?:00|39|44)"] (Some (bs "0$1")) None None;
    Build_nfmt (Some (bs "(\d{2})(\d{2,3})(\d{2})(\d{2})")) (Some (bs "$1-$2 $3 $4")) [bs "1[13689]|2[0136]|3[1356]|4[0246]|54|6[03]|90[1-9]"] (Some (bs "0$1")) None None;
    Build_nfmt (Some (bs "(\d{2})(\d{3})(\d{2})(\d{2})")) (Some (bs "$1-$2 $3 $4")) [bs "10|7"] (Some (bs "0$1")) None None;
    Build_nfmt (Some (bs "(\d)(\d{3})(\d{3})(\d{2})")) (Some (bs "$1-$2 $3 $4")) [bs "8"] (Some (bs "0$1")) None None;
    Build_nfmt (Some (bs "(\d{3})(\d{2})(\d{2})(\d{2})")) (Some (bs "$1-$2 $3 $4")) [bs "[13-5]|2(?:[247-9]|5[0138])|6(?:[124-689]|7[0-2])|9(?:[125-8]|3[02-5]|4[0-3])"] (Some (bs "0$1")) None None;
    Build_nfmt (Some (bs "(\d{3})(\d{2})(\d{2})(\d{3})")) (Some (bs "$1-$2 $3 $4")) [bs "9"] (Some (bs "0$1")) None None;
    Build_nfmt (Some (bs "(\d{3})(\d{2})(\d{3})(\d{2})(\d{2})")) (Some (bs "$1-$2 $3 $4 $5")) [bs "[26]"] (Some (bs "0$1")) None None]
  [Build_nfmt (Some (bs "(\d{2})(\d{2,3})(\d{2})")) (Some (bs "$1 $2 $3")) [bs "20"] None None None;
    Build_nfmt (Some (bs "(\d{3})(\d{4})")) (Some (bs "$1 $2")) [bs "9(?:00|39|44|9)"] None None None;
    Build_nfmt (Some (bs "(\d{2})(\d{3})(\d{2})")) (Some (bs "$1 $2 $3")) [bs "[12][136]|3[356]|4[0246]|6[03]|90[1-9]"] None None None;
    Build_nfmt (Some (bs "(\d)(\d{2,3})(\d{2})(\d{2})")) (Some (bs "$1 $2 $3 $4")) [bs "8"] None None None;
    Build_nfmt (Some (bs "(\d{3})(\d{2,3})(\d{2})")) (Some (bs "$1 $2 $3")) [bs "1[2457]|2(?:[247-9]|5[0138])|3[0247-9]|4[1357-9]|5[0-35-9]|6(?:[125689]|4[02-57]|7[0-2])|9(?:[125-8]|3[02-5]|4[0-3])"] None None None;
    Build_nfmt (Some (bs "(\d{3})(\d{2,3})(\d{3})")) (Some (bs "$1 $2 $3")) [bs "9(?:00|39|44)"] None None None;
    Build_nfmt (Some (bs "(\d{2})(\d{2,3})(\d{2})(\d{2})")) (Some (bs "$1 $2 $3 $4")) [bs "1[13689]|2[0136]|3[1356]|4[0246]|54|6[03]|90[1-9]"] None None None;
    Build_nfmt (Some (bs "(\d{2})(\d{3})(\d{2})(\d{2})")) (Some (bs "$1 $2 $3 $4")) [bs "10|7"] None None None;
    Build_nfmt (Some (bs "(\d)(\d{3})(\d{3})(\d{2})")) (Some (bs "$1 $2 $3 $4")) [bs "8"] None None None;
    Build_nfmt (Some (bs "(\d{3})(\d{2})(\d{2})(\d{2})")) (Some (bs "$1 $2 $3 $4")) [bs "[13-5]|2(?:[247-9]|5[0138])|6(?:[124-689]|7[0-2])|9(?:[125-8]|3[02-5]|4[0-3])"] None None None;
    Build_nfmt (Some (bs "(\d{3})(\d{2})(\d{2})(\d{3})")) (Some (bs "$1 $2 $3 $4")) [bs "9"] None None None;
    Build_nfmt (Some (bs "(\d{3})(\d{2})(\d{3})(\d{2})(\d{2})")) (Some (bs "$1 $2 $3 $4 $5")) [bs "[26]"] None None None]
  None None (Some true).

Definition md_SG : meta := Eval vm_compute in Build_meta
  (Some (Build_desc (Some (bs "(?:(?:1\d|8)\d\d|7000)\d{7}|[3689]\d{7}")) [(8)%Z; (10)%Z; (11)%Z] [] None))
  (Some (Build_desc (Some (bs "662[0-24-9]\d{4}|6(?:[0-578]\d|6[013-57-9]|9[0-35-9])\d{5}")) [(8)%Z] [] (Some (bs "61234567"))))
  (Some (Build_desc (Some (bs "80[1-9]\d{5}|(?:8[1-9]|9[0-8])\d{6}")) [(8)%Z] [] (Some (bs "81234567"))))
  (Some (Build_desc (Some (bs "(?:18|8)00\d{7}")) [(10)%Z; (11)%Z] [] (Some (bs "18001234567"))))
  (Some (Build_desc (Some (bs "1900\d{7}")) [(11)%Z] [] (Some (bs "19001234567"))))
  (Some (Build_desc None [(-1)%Z] [] None))
  (Some (Build_desc None [(-1)%Z] [] None))
  (Some (Build_desc (Some (bs "(?:3[12]\d|666)\d{5}")) [(8)%Z] [] (Some (bs "31234567"))))
  (Some (Build_desc None [(-1)%Z] [] None))
  (Some (Build_desc (Some (bs "7000\d{7}")) [(11)%Z] [] (Some (bs "70001234567"))))
  None
  (Some (Build_desc None [(-1)%Z] [] None))
  None
  None
  None
  None
  (Some (Build_desc None [(-1)%Z] [] None))
  (Some (bs "SG")) (Some (65)%Z) (Some (bs "0[0-3]\d")) None None
  None None None None
  [Build_nfmt (Some (bs "(\d{4,5})")) (Some (bs "$1")) [bs "1[013-9]|77"; bs "1(?:[013-8]|9(?:0[1-9]|[1-9]))|77"] None None None;
    Build_nfmt (Some (bs "(\d{4})(\d{4})")) (Some (bs "$1 $2")) [bs "[369]|8(?:0[1-9]|[1-9])"] None None None;
    Build_nfmt (Some (bs "(\d{3})(\d{3})(\d{4})")) (Some (bs "$1 $2 $3")) [bs "8"] None None None;
    Build_nfmt (Some (bs "(\d{4})(\d{4})(\d{3})")) (Some (bs "$1 $2 $3")) [bs "7"] None None None;
    Build_nfmt (Some (bs "(\d{4})(\d{3})(\d{4})")) (Some (bs "$1 $2 $3")) [bs "1"] None None None]
  [Build_nfmt (Some (bs "(\d{4})(\d{4})")) (Some (bs "$1 $2")) [bs "[369]|8(?:0[1-9]|[1-9])"] None None None;
    Build_nfmt (Some (bs "(\d{3})(\d{3})(\d{4})")) (Some (bs "$1 $2 $3")) [bs "8"] None None None;
    Build_nfmt (Some (bs "(\d{4})(\d{4})(\d{3})")) (Some (bs "$1 $2 $3")) [bs "7"] None None None;
    Build_nfmt (Some (bs "(\d{4})(\d{3})(\d{4})")) (Some (bs "$1 $2 $3")) [bs "1"] None None None]
  None None (Some true).

Definition md_SH : meta := Eval vm_compute in Build_meta
  (Some (Build_desc (Some (bs "(?:[256]\d|8)\d{3}")) [(4)%Z; (5)%Z] [] None))
  (Some (Build_desc (Some (bs "2(?:[0-57-9]\d|6[4-9])\d\d")) [] [] (Some (bs "22158"))))
  (Some (Build_desc (Some (bs "[56]\d{4}")) [(5)%Z] [] (Some (bs "51234"))))
  (Some (Build_desc None [(-1)%Z] [] None))
  (Some (Build_desc None [(-1)%Z] [] None))
  (Some (Build_desc None [(-1)%Z] [] None))
  (Some (Build_desc None [(-1)%Z] [] None))
  (Some (Build_desc (Some (bs "262\d\d")) [(5)%Z] [] (Some (bs "26212"))))
  (Some (Build_desc None [(-1)%Z] [] None))
  (Some (Build_desc None [(-1)%Z] [] None))
  None
  (Some (Build_desc None [(-1)%Z] [] None))
  None
  None
  None
  None
  (Some (Build_desc None [(-1)%Z] [] None))
  (Some (bs "SH")) (Some (290)%Z) (Some (bs "00")) None None
  None None None None
  []
  []
  (Some true) (Some (bs "[256]")) None.

Definition md_SI : meta := Eval vm_compute in Build_meta
  (Some (Build_desc (Some (bs "[1-7]\d{7}|8\d{4,7}|90\d{4,6}")) [(5)%Z; (6)%Z; (7)%Z; (8)%Z] [] None))
  (Some (Build_desc (Some (bs "(?:[1-357][2-8]|4[24-8])\d{6}")) [(8)%Z] [(7)%Z] (Some (bs "12345678"))))
  (Some (Build_desc (Some (bs "65(?:[178]\d|5[56]|6[01])\d{4}|(?:[37][01]|4[013]|51|6[489])\d{6}")) [(8)%Z] [] (Some (bs "31234567"))))
  (Some (Build_desc (Some (bs "80\d{4,6}")) [(6)%Z; (7)%Z; (8)%Z] [] (Some (bs "80123456"))))
  (Some (Build_desc (Some (bs "89[1-3]\d{2,5}|90\d{4,6}")) [] [] (Some (bs "90123456"))))
  (Some (Build_desc None [(-1)%Z] [] None))
  (Some (Build_desc None [(-1)%Z] [] None))
  (Some (Build_desc (Some (bs "(?:59\d\d|8(?:1(?:[67]\d|8[0-589])|2(?:0\d|2[0-37-9]|8[0-2489])|3[389]\d))\d{4}")) [(8)%Z] [] (Some (bs "59012345"))))
  (Some (Build_desc None [(-1)%Z] [] None))
  (Some (Build_desc None [(-1)%Z] [] None))
  None
  (Some (Build_desc None [(-1)%Z] [] None))
  None
  None
  None
  None
  (Some (Build_desc None [(-1)%Z] [] None))
  (Some (bs "SI")) (Some (386)%Z) (Some (bs "00|10(?:22|66|88|99)")) (Some (bs "00")) (Some (bs "0"))
  None (Some (bs "0")) None None
  [Build_nfmt (Some (bs "(\d{2})(\d{3,6})")) (Some (bs "$1 $2")) [bs "8[09]|9"] (Some (bs "0$1")) None None;
    Build_nfmt (Some (bs "(\d{3})(\d{5})")) (Some (bs "$1 $2")) [bs "59|8"] (Some (bs "0$1")) None None;
    Build_nfmt (Some (bs "(\d{2})(\d{3})(\d{3})")) (Some (bs "$1 $2 $3")) [bs "[37][01]|4[013]|51|6"] (Some (bs "0$1")) None None;
    Build_nfmt (Some (bs "(\d)(\d{3})(\d{2})(\d{2})")) (Some (bs "$1 $2 $3 $4")) [bs "[1-57]"] (Some (bs "(0$1)")) None None]
  []
  None None (Some true).

Definition md_SJ : meta := Eval vm_compute in Build_meta
  (Some (Build_desc (Some (bs "0\d{4}|(?:[489]\d|79)\d{6}")) [(5)%Z; (8)%Z] [] None))
  (Some (Build_desc (Some (bs "79\d{6}")) [(8)%Z] [] (Some (bs "79123456"))))
  (Some (Build_desc (Some (bs "45(?:[0-24-9]\d|3[0-57-9])\d{4}|(?:4[016-8]|9\d)\d{6}")) [(8)%Z] [] (Some (bs "41234567"))))
  (Some (Build_desc (Some (bs "80[01]\d{5}")) [(8)%Z] [] (Some (bs "80012345"))))
  (Some (Build_desc (Some (bs "82[09]\d{5}")) [(8)%Z] [] (Some (bs "82012345"))))
  (Some (Build_desc (Some (bs "810(?:0[0-6]|[2-8]\d)\d{3}")) [(8)%Z] [] (Some (bs "81021234"))))
  (Some (Build_desc (Some (bs "880\d{5}")) [(8)%Z] [] (Some (bs "88012345"))))
  (Some (Build_desc (Some (bs "85[0-5]\d{5}")) [(8)%Z] [] (Some (bs "85012345"))))
  (Some (Build_desc None [(-1)%Z] [] None))
  (Some (Build_desc (Some (bs "(?:0[235-9]|81(?:0(?:0[7-9]|1\d)|5\d\d))\d{3}")) [] [] (Some (bs "02000"))))
  None
  (Some (Build_desc (Some (bs "81[23]\d{5}")) [(8)%Z] [] (Some (bs "81212345"))))
  None
  None
  None
  None
  (Some (Build_desc None [(-1)%Z] [] None))
  (Some (bs "SJ")) (Some (47)%Z) (Some (bs "00")) None None
  None None None None
  []
  []
  None (Some (bs "79")) None.

Definition md_SK : meta := Eval vm_compute in Build_meta
  (Some (Build_desc (Some (bs "[2-689]\d{8}|[2-59]\d{6}|[2-5]\d{5}")) [(6)%Z; (7)%Z; (9)%Z] [] None))
  (Some (Build_desc (Some (bs "(?:2(?:16|[2-9]\d{3})|(?:(?:[3-5][1-8]\d|819)\d|601[1-5])\d)\d{4}|(?:2|[3-5][1-8])1[67]\d{3}|[3-5][1-8]16\d\d")) [] [] (Some (bs "221234567"))))
  (Some (Build_desc (Some (bs "909[1-9]\d{5}|9(?:0[1-8]|1[0-24-9]|4[03-57-9]|5\d)\d{6}")) [(9)%Z] [] (Some (bs "912123456"))))
  (Some (Build_desc (Some (bs "800\d{6}")) [(9)%Z] [] (Some (bs "800123456"))))
  (Some (Build_desc (Some (bs "9(?:00|[78]\d)\d{6}")) [(9)%Z] [] (Some (bs "900123456"))))
  (Some (Build_desc (Some (bs "8[5-9]\d{7}")) [(9)%Z] [] (Some (bs "850123456"))))
  (Some (Build_desc None [(-1)%Z] [] None))
  (Some (Build_desc (Some (bs "6(?:02|5[0-4]|9[0-6])\d{6}")) [(9)%Z] [] (Some (bs "690123456"))))
  (Some (Build_desc (Some (bs "9090\d{3}")) [(7)%Z] [] (Some (bs "9090123"))))
  (Some (Build_desc (Some (bs "96\d{7}")) [(9)%Z] [] (Some (bs "961234567"))))
  None
  (Some (Build_desc None [(-1)%Z] [] None))
  None
  None
  None
  None
  (Some (Build_desc (Some (bs "9090\d{3}|(?:602|8(?:00|[5-9]\d)|9(?:00|[78]\d))\d{6}")) [(7)%Z; (9)%Z] [] None))
  (Some (bs "SK")) (Some (421)%Z) (Some (bs "00")) None (Some (bs "0"))
  None (Some (bs "0")) None None
  [Build_nfmt (Some (bs "(\d)(\d{2})(\d{3,4})")) (Some (bs "$1 $2 $3")) [bs "21"] (Some (bs "0$1")) None None;
    Build_nfmt (Some (bs "(\d{2})(\d{2})(\d{2,3})")) (Some (bs "$1 $2 $3")) [bs "[3-5][1-8]1"; bs "[3-5][1-8]1[67]"] (Some (bs "0$1")) None None;
    Build_nfmt (Some (bs "(\d{4})(\d{3})")) (Some (bs "$1 $2")) [bs "909"; bs "9090"] (Some (bs "0$1")) None None;
    Build_nfmt (Some (bs "(\d)(\d{3})(\d{3})(\d{2})")) (Some (bs "$1 $2 $3 $4")) [bs "2"] (Some (bs "0$1")) None None;
    Build_nfmt (Some (bs "(\d{3})(\d{3})(\d{3})")) (Some (bs "$1 $2 $3")) [bs "[689]"] (Some (bs "0$1")) None None;
    Build_nfmt (Some (bs "(\d{2})(\d{3})(\d{2})(\d{2})")) (Some (bs "$1 $2 $3 $4")) [bs "[3-5]"] (Some (bs "0$1")) None None]
  [Build_nfmt (Some (bs "(\d)(\d{2})(\d{3,4})")) (Some (bs "$1 $2 $3")) [bs "21"] (Some (bs "0$1")) None None;
    Build_nfmt (Some (bs "(\d{2})(\d{2})(\d{2,3})")) (Some (bs "$1 $2 $3")) [bs "[3-5][1-8]1"; bs "[3-5][1-8]1[67]"] (Some (bs "0$1")) None None;
    Build_nfmt (Some (bs "(\d)(\d{3})(\d{3})(\d{2})")) (Some (bs "$1 $2 $3 $4")) [bs "2"] (Some (bs "0$1")) None None;
    Build_nfmt (Some (bs "(\d{3})(\d{3})(\d{3})")) (Some (bs "$1 $2 $3")) [bs "[689]"] (Some (bs "0$1")) None None;
    Build_nfmt (Some (bs "(\d{2})(\d{3})(\d{2})(\d{2})")) (Some (bs "$1 $2 $3 $4")) [bs "[3-5]"] (Some (bs "0$1")) None None]
  None None (Some true).

Definition md_SL : meta := Eval vm_compute in Build_meta
  (Some (Build_desc (Some (bs "(?:[237-9]\d|66)\d{6}")) [(8)%Z] [(6)%Z] None))
  (Some (Build_desc (Some (bs "22[2-4][2-9]\d{4}")) [] [(6)%Z] (Some (bs "22221234"))))
  (Some (Build_desc (Some (bs "(?:25|3[0-5]|66|7\d|8[08]|9[09])\d{6}")) [] [] (Some (bs "25123456"))))
  (Some (Build_desc None [(-1)%Z] [] None))
  (Some (Build_desc None [(-1)%Z] [] None))
  (Some (Build_desc None [(-1)%Z] [] None))
  (Some (Build_desc None [(-1)%Z] [] None))
  (Some (Build_desc None [(-1)%Z] [] None))
  (Some (Build_desc None [(-1)%Z] [] None))
  (Some (Build_desc None [(-1)%Z] [] None))
  None
  (Some (Build_desc None [(-1)%Z] [] None))
  None
  None
  None
  None
  (Some (Build_desc None [(-1)%Z] [] None))
  (Some (bs "SL")) (Some (232)%Z) (Some (bs "00")) None (Some (bs "0"))
  None (Some (bs "0")) None None
  [Build_nfmt (Some (bs "(\d{2})(\d{6})")) (Some (bs "$1 $2")) [bs "[236-9]"] (Some (bs "(0$1)")) None None]
  []
  None None None.

Definition md_SM : meta := Eval vm_compute in Build_meta
  (Some (Build_desc (Some (bs "(?:0549|[5-7]\d)\d{6}")) [(8)%Z; (10)%Z] [(6)%Z] None))
  (Some (Build_desc (Some (bs "0549(?:8[0157-9]|9\d)\d{4}")) [(10)%Z] [(6)%Z] (Some (bs "0549886377"))))
  (Some (Build_desc (Some (bs "6[16]\d{6}")) [(8)%Z] [] (Some (bs "66661212"))))
  (Some (Build_desc None [(-1)%Z] [] None))
  (Some (Build_desc (Some (bs "7[178]\d{6}")) [(8)%Z] [] (Some (bs "71123456"))))
  (Some (Build_desc None [(-1)%Z] [] None))
  (Some (Build_desc None [(-1)%Z] [] None))
  (Some (Build_desc (Some (bs "5[158]\d{6}")) [(8)%Z] [] (Some (bs "58001110"))))
  (Some (Build_desc None [(-1)%Z] [] None))
  (Some (Build_desc None [(-1)%Z] [] None))
  None
  (Some (Build_desc None [(-1)%Z] [] None))
  None
  None
  None
  None
  (Some (Build_desc None [(-1)%Z] [] None))
  (Some (bs "SM")) (Some (378)%Z) (Some (bs "00")) None None
  None (Some (bs "([89]\d{5})$")) (Some (bs "0549$1")) None
  [Build_nfmt (Some (bs "(\d{6})")) (Some (bs "$1")) [bs "[89]"] None None None;
    Build_nfmt (Some (bs "(\d{2})(\d{2})(\d{2})(\d{2})")) (Some (bs "$1 $2 $3 $4")) [bs "[5-7]"] None None None;
    Build_nfmt (Some (bs "(\d{4})(\d{6})")) (Some (bs "$1 $2")) [bs "0"] None None None]
  [Build_nfmt (Some (bs "(\d{2})(\d{2})(\d{2})(\d{2})")) (Some (bs "$1 $2 $3 $4")) [bs "[5-7]"] None None None;
    Build_nfmt (Some (bs "(\d{4})(\d{6})")) (Some (bs "$1 $2")) [bs "0"] None None None]
  None None None.

Definition md_SN : meta := Eval vm_compute in Build_meta
  (Some (Build_desc (Some (bs "(?:[378]\d|93)\d{7}")) [(9)%Z] [] None))
  (Some (Build_desc (Some (bs "3(?:0(?:1[0-2]|80)|282|3(?:8[1-9]|9[3-9])|611)\d{5}")) [] [] (Some (bs "301012345"))))
  (Some (Build_desc (Some (bs "7(?:[015-8]\d|21|90)\d{6}")) [] [] (Some (bs "701234567"))))
  (Some (Build_desc (Some (bs "800\d{6}")) [] [] (Some (bs "800123456"))))
  (Some (Build_desc (Some (bs "88[4689]\d{6}")) [] [] (Some (bs "884123456"))))
  (Some (Build_desc (Some (bs "81[02468]\d{6}")) [] [] (Some (bs "810123456"))))
  (Some (Build_desc None [(-1)%Z] [] None))
  (Some (Build_desc (Some (bs "(?:3(?:392|9[01]\d)\d|93(?:3[13]0|929))\d{4}")) [] [] (Some (bs "933301234"))))
  (Some (Build_desc None [(-1)%Z] [] None))
  (Some (Build_desc None [(-1)%Z] [] None))
  None
  (Some (Build_desc None [(-1)%Z] [] None))
  None
  None
  None
  None
  (Some (Build_desc None [(-1)%Z] [] None))
  (Some (bs "SN")) (Some (221)%Z) (Some (bs "00")) None None
  None None None None
  [Build_nfmt (Some (bs "(\d{3})(\d{2})(\d{2})(\d{2})")) (Some (bs "$1 $2 $3 $4")) [bs "8"] None None None;
    Build_nfmt (Some (bs "(\d{2})(\d{3})(\d{2})(\d{2})")) (Some (bs "$1 $2 $3 $4")) [bs "[379]"] None None None]
  []
  None None None.

Definition md_SO : meta := Eval vm_compute in Build_meta
  (Some (Build_desc (Some (bs "[346-9]\d{8}|[12679]\d{7}|[1-5]\d{6}|[1348]\d{5}")) [(6)%Z; (7)%Z; (8)%Z; (9)%Z] [] None))
  (Some (Build_desc (Some (bs "(?:1\d|2[0-79]|3[0-46-8]|4[0-7]|5[57-9])\d{5}|(?:[134]\d|8[125])\d{4}")) [(6)%Z; (7)%Z] [] (Some (bs "4012345"))))
  (Some (Build_desc (Some (bs "(?:(?:15|(?:3[59]|4[89]|6\d|7[0-35-9]|8[08])\d|9(?:0\d|[2-9]))\d|2(?:4\d|8))\d{5}|(?:[67]\d\d|904)\d{5}")) [(7)%Z; (8)%Z; (9)%Z] [] (Some (bs "71123456"))))
  (Some (Build_desc None [(-1)%Z] [] None))
  (Some (Build_desc None [(-1)%Z] [] None))
  (Some (Build_desc None [(-1)%Z] [] None))
  (Some (Build_desc None [(-1)%Z] [] None))
  (Some (Build_desc None [(-1)%Z] [] None))
  (Some (Build_desc None [(-1)%Z] [] None))
  (Some (Build_desc None [(-1)%Z] [] None))
  None
  (Some (Build_desc None [(-1)%Z] [] None))
  None
  None
  None
  None
  (Some (Build_desc None [(-1)%Z] [] None))
  (Some (bs "SO")) (Some (252)%Z) (Some (bs "00")) None (Some (bs "0"))
  None (Some (bs "0")) None None
  [Build_nfmt (Some (bs "(\d{2})(\d{4})")) (Some (bs "$1 $2")) [bs "8[125]"] None None None;
    Build_nfmt (Some (bs "(\d{6})")) (Some (bs "$1")) [bs "[134]"] None None None;
    Build_nfmt (Some (bs "(\d)(\d{6})")) (Some (bs "$1 $2")) [bs "[15]|2[0-79]|3[0-46-8]|4[0-7]"] None None None;
    Build_nfmt (Some (bs "(\d{2})(\d{5,7})")) (Some (bs "$1 $2")) [bs "1|28|9[2-9]"] None None None;
    Build_nfmt (Some (bs "(\d)(\d{7})")) (Some (bs "$1 $2")) [bs "[267]|904"] None None None;
    Build_nfmt (Some (bs "(\d{2})(\d{3})(\d{4})")) (Some (bs "$1 $2 $3")) [bs "[346-9]"] None None None]
  []
  None None None.

Definition md_SR : meta := Eval vm_compute in Build_meta
  (Some (Build_desc (Some (bs "(?:[2-5]|[6-9]\d)\d{5}")) [(6)%Z; (7)%Z] [] None))
  (Some (Build_desc (Some (bs "(?:2[1-3]|3[0-7]|4\d|5[2-578])\d{4}")) [(6)%Z] [] (Some (bs "211234"))))
  (Some (Build_desc (Some (bs "(?:6[08]|7[1-7]|8[1-9])\d{5}")) [(7)%Z] [] (Some (bs "7412345"))))
  (Some (Build_desc (Some (bs "80\d{5}")) [(7)%Z] [] (Some (bs "8012345"))))
  (Some (Build_desc (Some (bs "90\d{5}")) [(7)%Z] [] (Some (bs "9012345"))))
  (Some (Build_desc None [(-1)%Z] [] None))
  (Some (Build_desc None [(-1)%Z] [] None))
  (Some (Build_desc (Some (bs "(?:56|91\d)\d{4}")) [] [] (Some (bs "561234"))))
  (Some (Build_desc None [(-1)%Z] [] None))
  (Some (Build_desc None [(-1)%Z] [] None))
  None
  (Some (Build_desc None [(-1)%Z] [] None))
  None
  None
  None
  None
  (Some (Build_desc None [(-1)%Z] [] None))
  (Some (bs "SR")) (Some (597)%Z) (Some (bs "00")) None None
  None None None None
  [Build_nfmt (Some (bs "(\d{2})(\d{2})(\d{2})")) (Some (bs "$1-$2-$3")) [bs "56"] None None None;
    Build_nfmt (Some (bs "(\d{3})(\d{3})")) (Some (bs "$1-$2")) [bs "[2-5]"] None None None;
    Build_nfmt (Some (bs "(\d{3})(\d{4})")) (Some (bs "$1-$2")) [bs "[6-9]"] None None None]
  []
  None None None.

Definition md_SS : meta := Eval vm_compute in Build_meta
  (Some (Build_desc (Some (bs "[19]\d{8}")) [(9)%Z] [] None))
  (Some (Build_desc (Some (bs "1[89]\d{7}")) [] [] (Some (bs "181234567"))))
  (Some (Build_desc (Some (bs "(?:12|9[1257-9])\d{7}")) [] [] (Some (bs "977123456"))))
  (Some (Build_desc None [(-1)%Z] [] None))
  (Some (Build_desc None [(-1)%Z] [] None))
  (Some (Build_desc None [(-1)%Z] [] None))
  (Some (Build_desc None [(-1)%Z] [] None))
  (Some (Build_desc None [(-1)%Z] [] None))
  (Some (Build_desc None [(-1)%Z] [] None))
  (Some (Build_desc None [(-1)%Z] [] None))
  None
  (Some (Build_desc None [(-1)%Z] [] None))
  None
  None
  None
  None
  (Some (Build_desc None [(-1)%Z] [] None))
  (Some (bs "SS")) (Some (211)%Z) (Some (bs "00")) None (Some (bs "0"))
  None (Some (bs "0")) None None
  [Build_nfmt (Some (bs "(\d{3})(\d{3})(\d{3})")) (Some (bs "$1 $2 $3")) [bs "[19]"] (Some (bs "0$1")) None None]
  []
  None None None.

Definition md_ST : meta := Eval vm_compute in Build_meta
  (Some (Build_desc (Some (bs "(?:22|9\d)\d{5}")) [(7)%Z] [] None))
  (Some (Build_desc (Some (bs "22\d{5}")) [] [] (Some (bs "2221234"))))
  (Some (Build_desc (Some (bs "900[5-9]\d{3}|9(?:0[1-9]|[89]\d)\d{4}")) [] [] (Some (bs "9812345"))))
  (Some (Build_desc None [(-1)%Z] [] None))
  (Some (Build_desc None [(-1)%Z] [] None))
  (Some (Build_desc None [(-1)%Z] [] None))
  (Some (Build_desc None [(-1)%Z] [] None))
  (Some (Build_desc None [(-1)%Z] [] None))
  (Some (Build_desc None [(-1)%Z] [] None))
  (Some (Build_desc None [(-1)%Z] [] None))
  None
  (Some (Build_desc None [(-1)%Z] [] None))
  None
  None
  None
  None
  (Some (Build_desc None [(-1)%Z] [] None))
  (Some (bs "ST")) (Some (239)%Z) (Some (bs "00")) None None
  None None None None
  [Build_nfmt (Some (bs "(\d{3})(\d{4})")) (Some (bs "$1 $2")) [bs "[29]"] None None None]
  []
  None None None.

Definition md_SV : meta := Eval vm_compute in Build_meta
  (Some (Build_desc (Some (bs "[25-7]\d{7}|(?:80\d|900)\d{4}(?:\d{4})?")) [(7)%Z; (8)%Z; (11)%Z] [] None))
  (Some (Build_desc (Some (bs "2(?:79(?:0[0347-9]|[1-9]\d)|89(?:0[024589]|[1-9]\d))\d{3}|2(?:[1-69]\d|[78][0-8])\d{5}")) [(8)%Z] [] (Some (bs "21234567"))))
  (Some (Build_desc (Some (bs "[5-7]\d{7}")) [(8)%Z] [] (Some (bs "70123456"))))
  (Some (Build_desc (Some (bs "800\d{8}|80[01]\d{4}")) [(7)%Z; (11)%Z] [] (Some (bs "8001234"))))
  (Some (Build_desc (Some (bs "900\d{4}(?:\d{4})?")) [(7)%Z; (11)%Z] [] (Some (bs "9001234"))))
  (Some (Build_desc None [(-1)%Z] [] None))
  (Some (Build_desc None [(-1)%Z] [] None))
  (Some (Build_desc None [(-1)%Z] [] None))
  (Some (Build_desc None [(-1)%Z] [] None))
  (Some (Build_desc None [(-1)%Z] [] None))
  None
  (Some (Build_desc None [(-1)%Z] [] None))
  None
  None
  None
  None
  (Some (Build_desc None [(-1)%Z] [] None))
  (Some (bs "SV")) (Some (503)%Z) (Some (bs "00")) None None
  None None None None
  [Build_nfmt (Some (bs "(\d{3})(\d{4})")) (Some (bs "$1 $2")) [bs "[89]"] None None None;
    Build_nfmt (Some (bs "(\d{4})(\d{4})")) (Some (bs "$1 $2")) [bs "[25-7]"] None None None;
    Build_nfmt (Some (bs "(\d{3})(\d{4})(\d{4})")) (Some (bs "$1 $2 $3")) [bs "[89]"] None None None]
  []
  None None None.

Definition md_SX : meta := Eval vm_compute in Build_meta
  (Some (Build_desc (Some (bs "7215\d{6}|(?:[58]\d\d|900)\d{7}")) [(10)%Z] [(7)%Z] None))
  (Some (Build_desc (Some (bs "7215(?:4[2-8]|8[39]|9[056])\d{4}")) [] [(7)%Z] (Some (bs "7215425678"))))
  (Some (Build_desc (Some (bs "7215(?:1[02]|2\d|5[034679]|8[0-24-8])\d{4}")) [] [(7)%Z] (Some (bs "7215205678"))))
  (Some (Build_desc (Some (bs "8(?:00|33|44|55|66|77|88)[2-9]\d{6}")) [] [] (Some (bs "8002123456"))))
  (Some (Build_desc (Some (bs "900[2-9]\d{6}")) [] [] (Some (bs "9002123456"))))
  (Some (Build_desc None [(-1)%Z] [] None))
  (Some (Build_desc (Some (bs "52(?:3(?:[2-46-9][02-9]\d|5(?:[02-46-9]\d|5[0-46-9]))|4(?:[2-478][02-9]\d|5(?:[034]\d|2[024-9]|5[0-46-9])|6(?:0[1-9]|[2-9]\d)|9(?:[05-9]\d|2[0-5]|49)))\d{4}|52[34][2-9]1[02-9]\d{4}|5(?:00|2[125-9]|3[23]|44|66|77|88)[2-9]\d{6}")) [] [] (Some (bs "5002345678"))))
  (Some (Build_desc None [(-1)%Z] [] None))
  (Some (Build_desc None [(-1)%Z] [] None))
  (Some (Build_desc None [(-1)%Z] [] None))
  None
  (Some (Build_desc None [(-1)%Z] [] None))
  None
  None
  None
  None
  (Some (Build_desc None [(-1)%Z] [] None))
  (Some (bs "SX")) (Some (1)%Z) (Some (bs "011")) None (Some (bs "1"))
  None (Some (bs "(5\d{6})$|1")) (Some (bs "721$1")) None
  []
  []
  None (Some (bs "721")) (Some true).

Definition md_SY : meta := Eval vm_compute in Build_meta
  (Some (Build_desc (Some (bs "[1-359]\d{8}|[1-5]\d{7}")) [(8)%Z; (9)%Z] [(6)%Z; (7)%Z] None))
  (Some (Build_desc (Some (bs "(?:1(?:[1478]\d|[2356])|21\d|3(?:[13]\d|4)|4[134]|5[1-3])\d{6}|2[1-5]\d{6}")) [] [(6)%Z; (7)%Z] (Some (bs "112345678"))))
  (Some (Build_desc (Some (bs "(?:50|9[03-689])\d{7}")) [(9)%Z] [] (Some (bs "944567890"))))
  (Some (Build_desc None [(-1)%Z] [] None))
  (Some (Build_desc None [(-1)%Z] [] None))
  (Some (Build_desc None [(-1)%Z] [] None))
  (Some (Build_desc None [(-1)%Z] [] None))
  (Some (Build_desc None [(-1)%Z] [] None))
  (Some (Build_desc None [(-1)%Z] [] None))
  (Some (Build_desc None [(-1)%Z] [] None))
  None
  (Some (Build_desc None [(-1)%Z] [] None))
  None
  None
  None
  None
  (Some (Build_desc None [(-1)%Z] [] None))
  (Some (bs "SY")) (Some (963)%Z) (Some (bs "00")) None (Some (bs "0"))
  None (Some (bs "0")) None None
  [Build_nfmt (Some (bs "(\d{2})(\d{3})(\d{3,4})")) (Some (bs "$1 $2 $3")) [bs "[1-4]|5[1-3]"] (Some (bs "0$1")) (Some true) None;
    Build_nfmt (Some (bs "(\d{3})(\d{3})(\d{3})")) (Some (bs "$1 $2 $3")) [bs "[59]"] (Some (bs "0$1")) (Some true) None]
  []
  None None None.

Definition md_SZ : meta := Eval vm_compute in Build_meta
  (Some (Build_desc (Some (bs "0800\d{4}|(?:[237]\d|900)\d{6}")) [(8)%Z; (9)%Z] [] None))
  (Some (Build_desc (Some (bs "[23][2-5]\d{6}")) [(8)%Z] [] (Some (bs "22171234"))))
  (Some (Build_desc (Some (bs "7[5-9]\d{6}")) [(8)%Z] [] (Some (bs "76123456"))))
  (Some (Build_desc (Some (bs "0800\d{4}")) [(8)%Z] [] (Some (bs "08001234"))))
  (Some (Build_desc (Some (bs "900\d{6}")) [(9)%Z] [] (Some (bs "900012345"))))
  (Some (Build_desc None [(-1)%Z] [] None))
  (Some (Build_desc None [(-1)%Z] [] None))
  (Some (Build_desc (Some (bs "70\d{6}")) [(8)%Z] [] (Some (bs "70012345"))))
  (Some (Build_desc None [(-1)%Z] [] None))
  (Some (Build_desc None [(-1)%Z] [] None))
  None
  (Some (Build_desc None [(-1)%Z] [] None))
  None
  None
  None
  None
  (Some (Build_desc (Some (bs "0800\d{4}")) [(8)%Z] [] None))
  (Some (bs "SZ")) (Some (268)%Z) (Some (bs "00")) None None
  None None None None
  [Build_nfmt (Some (bs "(\d{4})(\d{4})")) (Some (bs "$1 $2")) [bs "[0237]"] None None None;
    Build_nfmt (Some (bs "(\d{5})(\d{4})")) (Some (bs "$1 $2")) [bs "9"] None None None]
  []
  None None None.

Definition md_TA : meta := Eval vm_compute in Build_meta
  (Some (Build_desc (Some (bs "8\d{3}")) [(4)%Z] [] None))
  (Some (Build_desc (Some (bs "8\d{3}")) [] [] (Some (bs "8999"))))
  (Some (Build_desc None [(-1)%Z] [] None))
  (Some (Build_desc None [(-1)%Z] [] None))
  (Some (Build_desc None [(-1)%Z] [] None))
  (Some (Build_desc None [(-1)%Z] [] None))
  (Some (Build_desc None [(-1)%Z] [] None))
  (Some (Build_desc None [(-1)%Z] [] None))
  (Some (Build_desc None [(-1)%Z] [] None))
  (Some (Build_desc None [(-1)%Z] [] None))
  None
  (Some (Build_desc None [(-1)%Z] [] None))
  None
  None
  None
  None
  (Some (Build_desc None [(-1)%Z] [] None))
  (Some (bs "TA")) (Some (290)%Z) (Some (bs "00")) None None
  None None None None
  []
  []
  None (Some (bs "8")) None.

Definition md_TC : meta := Eval vm_compute in Build_meta
  (Some (Build_desc (Some (bs "(?:[58]\d\d|649|900)\d{7}")) [(10)%Z] [(7)%Z] None))
  (Some (Build_desc (Some (bs "649(?:266|712|9(?:4\d|50))\d{4}")) [] [(7)%Z] (Some (bs "6497121234"))))
  (Some (Build_desc (Some (bs "649(?:2(?:3[129]|4[1-79])|3\d\d|4[34][1-3])\d{4}")) [] [(7)%Z] (Some (bs "6492311234"))))
  (Some (Build_desc (Some (bs "8(?:00|33|44|55|66|77|88)[2-9]\d{6}")) [] [] (Some (bs "8002345678"))))
  (Some (Build_desc (Some (bs "900[2-9]\d{6}")) [] [] (Some (bs "9002345678"))))
  (Some (Build_desc None [(-1)%Z] [] None))
  (Some (Build_desc (Some (bs "52(?:3(?:[2-46-9][02-9]\d|5(?:[02-46-9]\d|5[0-46-9]))|4(?:[2-478][02-9]\d|5(?:[034]\d|2[024-9]|5[0-46-9])|6(?:0[1-9]|[2-9]\d)|9(?:[05-9]\d|2[0-5]|49)))\d{4}|52[34][2-9]1[02-9]\d{4}|5(?:00|2[125-9]|3[23]|44|66|77|88)[2-9]\d{6}")) [] [] (Some (bs "5002345678"))))
  (Some (Build_desc (Some (bs "649(?:71[01]|966)\d{4}")) [] [(7)%Z] (Some (bs "6497101234"))))
  (Some (Build_desc None [(-1)%Z] [] None))
  (Some (Build_desc None [(-1)%Z] [] None))
  None
  (Some (Build_desc None [(-1)%Z] [] None))
  None
  None
  None
  None
  (Some (Build_desc None [(-1)%Z] [] None))
  (Some (bs "TC")) (Some (1)%Z) (Some (bs "011")) None (Some (bs "1"))
  None (Some (bs "([2-479]\d{6})$|1")) (Some (bs "649$1")) None
  []
  []
  None (Some (bs "649")) (Some true).

Definition md_TD : meta := Eval vm_compute in Build_meta
  (Some (Build_desc (Some (bs "(?:22|[3689]\d|77)\d{6}")) [(8)%Z] [] None))
  (Some (Build_desc (Some (bs "22(?:[37-9]0|5[0-5]|6[89])\d{4}")) [] [] (Some (bs "22501234"))))
  (Some (Build_desc (Some (bs "(?:3[01]|[69]\d|77|8[5-7])\d{6}")) [] [] (Some (bs "63012345"))))
  (Some (Build_desc None [(-1)%Z] [] None))
  (Some (Build_desc None [(-1)%Z] [] None))
  (Some (Build_desc None [(-1)%Z] [] None))
  (Some (Build_desc None [(-1)%Z] [] None))
  (Some (Build_desc None [(-1)%Z] [] None))
  (Some (Build_desc None [(-1)%Z] [] None))
  (Some (Build_desc None [(-1)%Z] [] None))
  None
  (Some (Build_desc None [(-1)%Z] [] None))
  None
  None
  None
  None
  (Some (Build_desc None [(-1)%Z] [] None))
  (Some (bs "TD")) (Some (235)%Z) (Some (bs "00|16")) (Some (bs "00")) None
  None None None None
  [Build_nfmt (Some (bs "(\d{2})(\d{2})(\d{2})(\d{2})")) (Some (bs "$1 $2 $3 $4")) [bs "[236-9]"] None None None]
  []
  None None None.

Definition md_TG : meta := Eval vm_compute in Build_meta
  (Some (Build_desc (Some (bs "[279]\d{7}")) [(8)%Z] [] None))
  (Some (Build_desc (Some (bs "2(?:2[2-7]|3[23]|4[45]|55|6[67]|77)\d{5}")) [] [] (Some (bs "22212345"))))
  (Some (Build_desc (Some (bs "(?:7[0-389]|9[0-36-9])\d{6}")) [] [] (Some (bs "90112345"))))
  (Some (Build_desc None [(-1)%Z] [] None))
  (Some (Build_desc None [(-1)%Z] [] None))
  (Some (Build_desc None [(-1)%Z] [] None))
  (Some (Build_desc None [(-1)%Z] [] None))
  (Some (Build_desc None [(-1)%Z] [] None))
  (Some (Build_desc None [(-1)%Z] [] None))
  (Some (Build_desc None [(-1)%Z] [] None))
  None
  (Some (Build_desc None [(-1)%Z] [] None))
  None
  None
  None
  None
  (Some (Build_desc None [(-1)%Z] [] None))
  (Some (bs "TG")) (Some (228)%Z) (Some (bs "00")) None None
  None None None None
  [Build_nfmt (Some (bs "(\d{2})(\d{2})(\d{2})(\d{2})")) (Some (bs "$1 $2 $3 $4")) [bs "[279]"] None None None]
  []
  None None None.

Definition md_TH : meta := Eval vm_compute in Build_meta
  (Some (Build_desc (Some (bs "(?:001800|[2-57]|[689]\d)\d{7}|1\d{7,9}")) [(8)%Z; (9)%Z; (10)%Z; (13)%Z] [] None))
  (Some (Build_desc (Some (bs "(?:1[0689]|2\d|3[2-9]|4[2-5]|5[2-6]|7[3-7])\d{6}")) [(8)%Z] [] (Some (bs "21234567"))))
  (Some (Build_desc (Some (bs "(?:(?:14|[89]\d)\d\d|6(?:[1-6]\d\d|7(?:1[0-8]|2[4-7]|3[1-6])))\d{5}")) [(9)%Z] [] (Some (bs "812345678"))))
  (Some (Build_desc (Some (bs "(?:001800\d|1800)\d{6}")) [(10)%Z; (13)%Z] [] (Some (bs "1800123456"))))
  (Some (Build_desc (Some (bs "1900\d{6}")) [(10)%Z] [] (Some (bs "1900123456"))))
  (Some (Build_desc None [(-1)%Z] [] None))
  (Some (Build_desc None [(-1)%Z] [] None))
  (Some (Build_desc (Some (bs "6[08]\d{7}")) [(9)%Z] [] (Some (bs "601234567"))))
  (Some (Build_desc None [(-1)%Z] [] None))
  (Some (Build_desc None [(-1)%Z] [] None))
  None
  (Some (Build_desc None [(-1)%Z] [] None))
  None
  None
  None
  None
  (Some (Build_desc None [(-1)%Z] [] None))
  (Some (bs "TH")) (Some (66)%Z) (Some (bs "00[1-9]")) None (Some (bs "0"))
  None (Some (bs "0")) None None
  [Build_nfmt (Some (bs "(\d)(\d{3})(\d{4})")) (Some (bs "$1 $2 $3")) [bs "2"] (Some (bs "0$1")) None None;
    Build_nfmt (Some (bs "(\d{2})(\d{3})(\d{3,4})")) (Some (bs "$1 $2 $3")) [bs "[13-9]"] (Some (bs "0$1")) None None;
    Build_nfmt (Some (bs "(\d{4})(\d{3})(\d{3})")) (Some (bs "$1 $2 $3")) [bs "1"] None None None]
  []
  None None (Some true).

Definition md_TJ : meta := Eval vm_compute in Build_meta
  (Some (Build_desc (Some (bs "(?:[0-57-9]\d|66)\d{7}")) [(9)%Z] [(3)%Z; (5)%Z; (6)%Z; (7)%Z] None))
  (Some (Build_desc (Some (bs "(?:3(?:1[3-5]|2[245]|3[12]|4[24-7]|5[25]|72)|4(?:46|74|87))\d{6}")) [] [(3)%Z; (5)%Z; (6)%Z; (7)%Z] (Some (bs "372123456"))))
  (Some (Build_desc (Some (bs "(?:33[03-9]|4(?:1[18]|4[02-479])|81[1-9])\d{6}|(?:[09]\d|1[0-27-9]|2[0-27]|3[08]|40|5[05]|66|7[0157-9]|8[07-9])\d{7}")) [] [] (Some (bs "917123456"))))
  (Some (Build_desc None [(-1)%Z] [] None))
  (Some (Build_desc None [(-1)%Z] [] None))
  (Some (Build_desc None [(-1)%Z] [] None))
  (Some (Build_desc None [(-1)%Z] [] None))
  (Some (Build_desc None [(-1)%Z] [] None))
  (Some (Build_desc None [(-1)%Z] [] None))
  (Some (Build_desc None [(-1)%Z] [] None))
  None
  (Some (Build_desc None [(-1)%Z] [] None))
  None
  None
  None
  None
  (Some (Build_desc None [(-1)%Z] [] None))
  (Some (bs "TJ")) (Some (992)%Z) (Some (bs "810")) (Some (bs "8~10")) None
  None None None None
  [Build_nfmt (Some (bs "(\d{6})(\d)(\d{2})")) (Some (bs "$1 $2 $3")) [bs "331"; bs "3317"] None None None;
    Build_nfmt (Some (bs "(\d{3})(\d{2})(\d{4})")) (Some (bs "$1 $2 $3")) [bs "44[02-479]|[34]7"] None None None;
    Build_nfmt (Some (bs "(\d{4})(\d)(\d{4})")) (Some (bs "$1 $2 $3")) [bs "3(?:[1245]|3[12])"] None None None;
    Build_nfmt (Some (bs "(\d{2})(\d{3})(\d{4})")) (Some (bs "$1 $2 $3")) [bs "\d"] None None None]
  []
  None None None.

Definition md_TK : meta := Eval vm_compute in Build_meta
  (Some (Build_desc (Some (bs "[2-47]\d{3,6}")) [(4)%Z; (5)%Z; (6)%Z; (7)%Z] [] None))
  (Some (Build_desc (Some (bs "(?:2[2-4]|[34]\d)\d{2,5}")) [] [] (Some (bs "3101"))))
  (Some (Build_desc (Some (bs "7[2-4]\d{2,5}")) [] [] (Some (bs "7290"))))
  (Some (Build_desc None [(-1)%Z] [] None))
  (Some (Build_desc None [(-1)%Z] [] None))
  (Some (Build_desc None [(-1)%Z] [] None))
  (Some (Build_desc None [(-1)%Z] [] None))
  (Some (Build_desc None [(-1)%Z] [] None))
  (Some (Build_desc None [(-1)%Z] [] None))
  (Some (Build_desc None [(-1)%Z] [] None))
  None
  (Some (Build_desc None [(-1)%Z] [] None))
  None
  None
  None
  None
  (Some (Build_desc None [(-1)%Z] [] None))
  (Some (bs "TK")) (Some (690)%Z) (Some (bs "00")) None None
  None None None None
  []
  []
  None None None.

Definition md_TL : meta := Eval vm_compute in Build_meta
  (Some (Build_desc (Some (bs "7\d{7}|(?:[2-47]\d|[89]0)\d{5}")) [(7)%Z; (8)%Z] [] None))
  (Some (Build_desc (Some (bs "(?:2[1-5]|3[1-9]|4[1-4])\d{5}")) [(7)%Z] [] (Some (bs "2112345"))))
  (Some (Build_desc (Some (bs "7[2-8]\d{6}")) [(8)%Z] [] (Some (bs "77212345"))))
  (Some (Build_desc (Some (bs "80\d{5}")) [(7)%Z] [] (Some (bs "8012345"))))
  (Some (Build_desc (Some (bs "90\d{5}")) [(7)%Z] [] (Some (bs "9012345"))))
  (Some (Build_desc None [(-1)%Z] [] None))
  (Some (Build_desc (Some (bs "70\d{5}")) [(7)%Z] [] (Some (bs "7012345"))))
  (Some (Build_desc None [(-1)%Z] [] None))
  (Some (Build_desc None [(-1)%Z] [] None))
  (Some (Build_desc None [(-1)%Z] [] None))
  None
  (Some (Build_desc None [(-1)%Z] [] None))
  None
  None
  None
  None
  (Some (Build_desc None [(-1)%Z] [] None))
  (Some (bs "TL")) (Some (670)%Z) (Some (bs "00")) None None
  None None None None
  [Build_nfmt (Some (bs "(\d{3})(\d{4})")) (Some (bs "$1 $2")) [bs "[2-489]|70"] None None None;
    Build_nfmt (Some (bs "(\d{4})(\d{4})")) (Some (bs "$1 $2")) [bs "7"] None None None]
  []
  None None None.

Definition md_TM : meta := Eval vm_compute in Build_meta
  (Some (Build_desc (Some (bs "[1-7]\d{7}")) [(8)%Z] [] None))
  (Some (Build_desc (Some (bs "(?:1(?:2\d|3[1-9])|2(?:22|4[0-35-8])|3(?:22|4[03-9])|4(?:22|3[128]|4\d|6[15])|5(?:22|5[7-9]|6[014-689]))\d{5}")) [] [] (Some (bs "12345678"))))
  (Some (Build_desc (Some (bs "(?:6\d|7[12])\d{6}")) [] [] (Some (bs "66123456"))))
  (Some (Build_desc None [(-1)%Z] [] None))
  (Some (Build_desc None [(-1)%Z] [] None))
  (Some (Build_desc None [(-1)%Z] [] None))
  (Some (Build_desc None [(-1)%Z] [] None))
  (Some (Build_desc None [(-1)%Z] [] None))
  (Some (Build_desc None [(-1)%Z] [] None))
  (Some (Build_desc None [(-1)%Z] [] None))
  None
  (Some (Build_desc None [(-1)%Z] [] None))
  None
  None
  None
  None
  (Some (Build_desc None [(-1)%Z] [] None))
  (Some (bs "TM")) (Some (993)%Z) (Some (bs "810")) (Some (bs "8~10")) (Some (bs "8"))
  None (Some (bs "8")) None None
  [Build_nfmt (Some (bs "(\d{2})(\d{2})(\d{2})(\d{2})")) (Some (bs "$1 $2-$3-$4")) [bs "12"] (Some (bs "(8 $1)")) None None;
    Build_nfmt (Some (bs "(\d{3})(\d)(\d{2})(\d{2})")) (Some (bs "$1 $2-$3-$4")) [bs "[1-5]"] (Some (bs "(8 $1)")) None None;
    Build_nfmt (Some (bs "(\d{2})(\d{6})")) (Some (bs "$1 $2")) [bs "[67]"] (Some (bs "8 $1")) None None]
  []
  None None None.

Definition md_TN : meta := Eval vm_compute in Build_meta
  (Some (Build_desc (Some (bs "[2-57-9]\d{7}")) [(8)%Z] [] None))
  (Some (Build_desc (Some (bs "81200\d{3}|(?:3[0-2]|7\d)\d{6}")) [] [] (Some (bs "30010123"))))
  (Some (Build_desc (Some (bs "3(?:001|[12]40)\d{4}|(?:(?:[259]\d|4[0-8])\d|3(?:1[1-35]|6[0-4]|91))\d{5}")) [] [] (Some (bs "20123456"))))
  (Some (Build_desc (Some (bs "8010\d{4}")) [] [] (Some (bs "80101234"))))
  (Some (Build_desc (Some (bs "88\d{6}")) [] [] (Some (bs "88123456"))))
  (Some (Build_desc (Some (bs "8[12]10\d{4}")) [] [] (Some (bs "81101234"))))
  (Some (Build_desc None [(-1)%Z] [] None))
  (Some (Build_desc None [(-1)%Z] [] None))
  (Some (Build_desc None [(-1)%Z] [] None))
  (Some (Build_desc None [(-1)%Z] [] None))
  None
  (Some (Build_desc None [(-1)%Z] [] None))
  None
  None
  None
  None
  (Some (Build_desc None [(-1)%Z] [] None))
  (Some (bs "TN")) (Some (216)%Z) (Some (bs "00")) None None
  None None None None
  [Build_nfmt (Some (bs "(\d{2})(\d{3})(\d{3})")) (Some (bs "$1 $2 $3")) [bs "[2-57-9]"] None None None]
  []
  None None None.

Definition md_TO : meta := Eval vm_compute in Build_meta
  (Some (Build_desc (Some (bs "(?:0800|(?:[5-8]\d\d|999)\d)\d{3}|[2-8]\d{4}")) [(5)%Z; (7)%Z] [] None))
  (Some (Build_desc (Some (bs "(?:2\d|3[0-8]|4[0-4]|50|6[09]|7[0-24-69]|8[05])\d{3}")) [(5)%Z] [] (Some (bs "20123"))))
  (Some (Build_desc (Some (bs "(?:5(?:4[0-5]|5[4-6])|6(?:[09]\d|3[02]|8[15-9])|(?:7\d|8[46-9])\d|999)\d{4}")) [(7)%Z] [] (Some (bs "7715123"))))
  (Some (Build_desc (Some (bs "0800\d{3}")) [(7)%Z] [] (Some (bs "0800222"))))
  (Some (Build_desc None [(-1)%Z] [] None))
  (Some (Build_desc None [(-1)%Z] [] None))
  (Some (Build_desc None [(-1)%Z] [] None))
  (Some (Build_desc (Some (bs "55[0-37-9]\d{4}")) [(7)%Z] [] (Some (bs "5510123"))))
  (Some (Build_desc None [(-1)%Z] [] None))
  (Some (Build_desc None [(-1)%Z] [] None))
  None
  (Some (Build_desc None [(-1)%Z] [] None))
  None
  None
  None
  None
  (Some (Build_desc None [(-1)%Z] [] None))
  (Some (bs "TO")) (Some (676)%Z) (Some (bs "00")) None None
  None None None None
  [Build_nfmt (Some (bs "(\d{2})(\d{3})")) (Some (bs "$1-$2")) [bs "[2-4]|50|6[09]|7[0-24-69]|8[05]"] None None None;
    Build_nfmt (Some (bs "(\d{4})(\d{3})")) (Some (bs "$1 $2")) [bs "0"] None None None;
    Build_nfmt (Some (bs "(\d{3})(\d{4})")) (Some (bs "$1 $2")) [bs "[5-9]"] None None None]
  []
  None None None.

Definition md_TR : meta := Eval vm_compute in Build_meta
  (Some (Build_desc (Some (bs "4\d{6}|8\d{11,12}|(?:[2-58]\d\d|900)\d{7}")) [(7)%Z; (10)%Z; (12)%Z; (13)%Z] [] None))
  (Some (Build_desc (Some (bs "(?:2(?:1[26]|[28][2468]|[3-5][268]|[67][246])|3(?:[13][28]|[24-6][2468]|[78][02468]|92)|4(?:[16][246]|[23578][2468]|4[26]))\d{7}")) [(10)%Z] [] (Some (bs "2123456789"))))
  (Some (Build_desc (Some (bs "5(?:61(?:011|61\d)|82[2-4]\d\d)\d{4}|5(?:[03-5]\d|1[06]|24|6[24]|7[245]|9[46])\d{7}")) [(10)%Z] [] (Some (bs "5012345678"))))
  (Some (Build_desc (Some (bs "8(?:00\d{7}(?:\d{2,3})?|11\d{7})")) [(10)%Z; (12)%Z; (13)%Z] [] (Some (bs "8001234567"))))
  (Some (Build_desc (Some (bs "(?:8[89]8|900)\d{7}")) [(10)%Z] [] (Some (bs "9001234567"))))
  (Some (Build_desc None [(-1)%Z] [] None))
  (Some (Build_desc (Some (bs "592(?:21[12]|461)\d{4}")) [(10)%Z] [] (Some (bs "5922121234"))))
  (Some (Build_desc (Some (bs "850\d{7}")) [(10)%Z] [] (Some (bs "8500123456"))))
  (Some (Build_desc (Some (bs "512\d{7}")) [(10)%Z] [] (Some (bs "5123456789"))))
  (Some (Build_desc (Some (bs "444\d{4}")) [(7)%Z] [] (Some (bs "4441444"))))
  None
  (Some (Build_desc None [(-1)%Z] [] None))
  None
  None
  None
  None
  (Some (Build_desc (Some (bs "(?:444|811\d{3})\d{4}")) [(7)%Z; (10)%Z] [] None))
  (Some (bs "TR")) (Some (90)%Z) (Some (bs "00")) None (Some (bs "0"))
  None (Some (bs "0")) None None
  [Build_nfmt (Some (bs "(\d{3})(\d)(\d{3})")) (Some (bs "$1 $2 $3")) [bs "444"] None (Some true) None;
    Build_nfmt (Some (bs "(\d{3})(\d{3})(\d{4})")) (Some (bs "$1 $2 $3")) [bs "512|8[01589]|90"] (Some (bs "0$1")) (Some true) None;
    Build_nfmt (Some (bs "(\d{3})(\d{3})(\d{2})(\d{2})")) (Some (bs "$1 $2 $3 $4")) [bs "5"] (Some (bs "0$1")) (Some true) None;
    Build_nfmt (Some (bs "(\d{3})(\d{3})(\d{2})(\d{2})")) (Some (bs "$1 $2 $3 $4")) [bs "[24][1-8]|3[1-9]"] (Some (bs "(0$1)")) (Some true) None;
    Build_nfmt (Some (bs "(\d{3})(\d{3})(\d{6,7})")) (Some (bs "$1 $2 $3")) [bs "80"] (Some (bs "0$1")) (Some true) None]
  [Build_nfmt (Some (bs "(\d{3})(\d{3})(\d{4})")) (Some (bs "$1 $2 $3")) [bs "512|8[01589]|90"] (Some (bs "0$1")) (Some true) None;
    Build_nfmt (Some (bs "(\d{3})(\d{3})(\d{2})(\d{2})")) (Some (bs "$1 $2 $3 $4")) [bs "5"] (Some (bs "0$1")) (Some true) None;
    Build_nfmt (Some (bs "(\d{3})(\d{3})(\d{2})(\d{2})")) (Some (bs "$1 $2 $3 $4")) [bs "[24][1-8]|3[1-9]"] (Some (bs "(0$1)")) (Some true) None;
    Build_nfmt (Some (bs "(\d{3})(\d{3})(\d{6,7})")) (Some (bs "$1 $2 $3")) [bs "80"] (Some (bs "0$1")) (Some true) None]
  None None (Some true).

Definition md_TT : meta := Eval vm_compute in Build_meta
  (Some (Build_desc (Some (bs "(?:[58]\d\d|900)\d{7}")) [(10)%Z] [(7)%Z] None))
  (Some (Build_desc (Some (bs "868(?:2(?:01|1[5-9]|[23]\d|4[0-2])|6(?:0[7-9]|1[02-8]|2[1-9]|[3-69]\d|7[0-79])|82[124])\d{4}")) [] [(7)%Z] (Some (bs "8682211234"))))
  (Some (Build_desc (Some (bs "868(?:(?:2[5-9]|3\d)\d|4(?:3[0-6]|[6-9]\d)|6(?:20|78|8\d)|7(?:0[1-9]|1[02-9]|[2-9]\d))\d{4}")) [] [(7)%Z] (Some (bs "8682911234"))))
  (Some (Build_desc (Some (bs "868800\d{4}|8(?:00|33|44|55|66|77|88)[2-9]\d{6}")) [] [] (Some (bs "8002345678"))))
  (Some (Build_desc (Some (bs "900[2-9]\d{6}")) [] [] (Some (bs "9002345678"))))
  (Some (Build_desc None [(-1)%Z] [] None))
  (Some (Build_desc (Some (bs "52(?:3(?:[2-46-9][02-9]\d|5(?:[02-46-9]\d|5[0-46-9]))|4(?:[2-478][02-9]\d|5(?:[034]\d|2[024-9]|5[0-46-9])|6(?:0[1-9]|[2-9]\d)|9(?:[05-9]\d|2[0-5]|49)))\d{4}|52[34][2-9]1[02-9]\d{4}|5(?:00|2[125-9]|3[23]|44|66|77|88)[2-9]\d{6}")) [] [] (Some (bs "5002345678"))))
  (Some (Build_desc None [(-1)%Z] [] None))
  (Some (Build_desc None [(-1)%Z] [] None))
  (Some (Build_desc None [(-1)%Z] [] None))
  None
  (Some (Build_desc (Some (bs "868619\d{4}")) [] [(7)%Z] (Some (bs "8686191234"))))
  None
  None
  None
  None
  (Some (Build_desc None [(-1)%Z] [] None))
  (Some (bs "TT")) (Some (1)%Z) (Some (bs "011")) None (Some (bs "1"))
  None (Some (bs "([2-46-8]\d{6})$|1")) (Some (bs "868$1")) None
  []
  []
  None (Some (bs "868")) (Some true).

Definition md_TV : meta := Eval vm_compute in Build_meta
  (Some (Build_desc (Some (bs "(?:2|7\d\d|90)\d{4}")) [(5)%Z; (6)%Z; (7)%Z] [] None))
  (Some (Build_desc (Some (bs "2[02-9]\d{3}")) [(5)%Z] [] (Some (bs "20123"))))
  (Some (Build_desc (Some (bs "(?:7[01]\d|90)\d{4}")) [(6)%Z; (7)%Z] [] (Some (bs "901234"))))
  (Some (Build_desc None [(-1)%Z] [] None))
  (Some (Build_desc None [(-1)%Z] [] None))
  (Some (Build_desc None [(-1)%Z] [] None))
  (Some (Build_desc None [(-1)%Z] [] None))
  (Some (Build_desc None [(-1)%Z] [] None))
  (Some (Build_desc None [(-1)%Z] [] None))
  (Some (Build_desc None [(-1)%Z] [] None))
  None
  (Some (Build_desc None [(-1)%Z] [] None))
  None
  None
  None
  None
  (Some (Build_desc None [(-1)%Z] [] None))
  (Some (bs "TV")) (Some (688)%Z) (Some (bs "00")) None None
  None None None None
  [Build_nfmt (Some (bs "(\d{2})(\d{3})")) (Some (bs "$1 $2")) [bs "2"] None None None;
    Build_nfmt (Some (bs "(\d{2})(\d{4})")) (Some (bs "$1 $2")) [bs "90"] None None None;
    Build_nfmt (Some (bs "(\d{2})(\d{5})")) (Some (bs "$1 $2")) [bs "7"] None None None]
  []
  None None None.

Definition md_TW : meta := Eval vm_compute in Build_meta
  (Some (Build_desc (Some (bs "[2-689]\d{8}|7\d{9,10}|[2-8]\d{7}|2\d{6}")) [(7)%Z; (8)%Z; (9)%Z; (10)%Z; (11)%Z] [] None))
  (Some (Build_desc (Some (bs "(?:2[2-8]\d|370|55[01]|7[1-9])\d{6}|4(?:(?:0(?:0[1-9]|[2-48]\d)|1[023]\d)\d{4,5}|(?:[239]\d\d|4(?:0[56]|12|49))\d{5})|6(?:[01]\d{7}|4(?:0[56]|12|24|4[09])\d{4,5})|8(?:(?:2(?:3\d|4[0-269]|[578]0|66)|36[24-9]|90\d\d)\d{4}|4(?:0[56]|12|24|4[09])\d{4,5})|(?:2(?:2(?:0\d\d|4(?:0[68]|[249]0|3[0-467]|5[0-25-9]|6[0235689]))|(?:3(?:[09]\d|1[0-4])|(?:4\d|5[0-49]|6[0-29]|7[0-5])\d)\d)|(?:(?:3[2-9]|5[2-8]|6[0-35-79]|8[7-9])\d\d|4(?:2(?:[089]\d|7[1-9])|(?:3[0-4]|[78]\d|9[01])\d))\d)\d{3}")) [(8)%Z; (9)%Z] [] (Some (bs "221234567"))))
  (Some (Build_desc (Some (bs "(?:40001[0-2]|9[0-8]\d{4})\d{3}")) [(9)%Z] [] (Some (bs "912345678"))))
  (Some (Build_desc (Some (bs "80[0-79]\d{6}|800\d{5}")) [(8)%Z; (9)%Z] [] (Some (bs "800123456"))))
  (Some (Build_desc (Some (bs "20(?:[013-9]\d\d|2)\d{4}")) [(7)%Z; (9)%Z] [] (Some (bs "203123456"))))
  (Some (Build_desc None [(-1)%Z] [] None))
  (Some (Build_desc (Some (bs "99\d{7}")) [(9)%Z] [] (Some (bs "990123456"))))
  (Some (Build_desc (Some (bs "7010(?:[0-2679]\d|3[0-7]|8[0-5])\d{5}|70\d{8}")) [(10)%Z; (11)%Z] [] (Some (bs "7012345678"))))
  (Some (Build_desc None [(-1)%Z] [] None))
  (Some (Build_desc (Some (bs "50[0-46-9]\d{6}")) [(9)%Z] [] (Some (bs "500123456"))))
  None
  (Some (Build_desc None [(-1)%Z] [] None))
  None
  None
  None
  None
  (Some (Build_desc None [(-1)%Z] [] None))
  (Some (bs "TW")) (Some (886)%Z) (Some (bs "0(?:0[25-79]|19)")) None (Some (bs "0"))
  (Some (bs "#")) (Some (bs "0")) None None
  [Build_nfmt (Some (bs "(\d{2})(\d)(\d{4})")) (Some (bs "$1 $2 $3")) [bs "202"] (Some (bs "0$1")) None None;
    Build_nfmt (Some (bs "(\d{3})(\d{5})")) (Some (bs "$1 $2")) [bs "826"] (Some (bs "0$1")) None None;
    Build_nfmt (Some (bs "(\d{3})(\d{2})(\d{3})")) (Some (bs "$1 $2 $3")) [bs "83"] (Some (bs "0$1")) None None;
    Build_nfmt (Some (bs "(\d{2})(\d{2})(\d{4})")) (Some (bs "$1 $2 $3")) [bs "82"] (Some (bs "0$1")) None None;
    Build_nfmt (Some (bs "(\d{2})(\d{3})(\d{3,4})")) (Some (bs "$1 $2 $3")) [bs "[25]0|37|49|8[09]"] (Some (bs "0$1")) None None;
    Build_nfmt (Some (bs "(\d)(\d{3,4})(\d{4})")) (Some (bs "$1 $2 $3")) [bs "[23568]|4(?:0[02-48]|[1-478])|7[1-9]"; bs "[23568]|4(?:0[2-48]|[1-478])|(?:400|7)[1-9]"] (Some (bs "0$1")) None None;
    Build_nfmt (Some (bs "(\d{3})(\d{3})(\d{3})")) (Some (bs "$1 $2 $3")) [bs "[49]"] (Some (bs "0$1")) None None;
    Build_nfmt (Some (bs "(\d{2})(\d{4})(\d{4,5})")) (Some (bs "$1 $2 $3")) [bs "7"] (Some (bs "0$1")) None None]
  []
  None None (Some true).

Definition md_TZ : meta := Eval vm_compute in Build_meta
  (Some (Build_desc (Some (bs "(?:[25-8]\d|41|90)\d{7}")) [(9)%Z] [] None))
  (Some (Build_desc (Some (bs "2[2-8]\d{7}")) [] [] (Some (bs "222345678"))))
  (Some (Build_desc (Some (bs "(?:6[1-35-9]|7\d)\d{7}")) [] [] (Some (bs "621234567"))))
  (Some (Build_desc (Some (bs "80[08]\d{6}")) [] [] (Some (bs "800123456"))))
  (Some (Build_desc (Some (bs "90\d{7}")) [] [] (Some (bs "900123456"))))
  (Some (Build_desc (Some (bs "8(?:40|6[01])\d{6}")) [] [] (Some (bs "840123456"))))
  (Some (Build_desc None [(-1)%Z] [] None))
  (Some (Build_desc (Some (bs "41\d{7}")) [] [] (Some (bs "412345678"))))
  (Some (Build_desc None [(-1)%Z] [] None))
  (Some (Build_desc None [(-1)%Z] [] None))
  None
  (Some (Build_desc None [(-1)%Z] [] None))
  None
  None
  None
  None
  (Some (Build_desc (Some (bs "(?:8(?:[04]0|6[01])|90\d)\d{6}")) [] [] None))
  (Some (bs "TZ")) (Some (255)%Z) (Some (bs "00[056]")) None (Some (bs "0"))
  None (Some (bs "0")) None None
  [Build_nfmt (Some (bs "(\d{3})(\d{2})(\d{4})")) (Some (bs "$1 $2 $3")) [bs "[89]"] (Some (bs "0$1")) None None;
    Build_nfmt (Some (bs "(\d{2})(\d{3})(\d{4})")) (Some (bs "$1 $2 $3")) [bs "[24]"] (Some (bs "0$1")) None None;
    Build_nfmt (Some (bs "(\d{2})(\d{7})")) (Some (bs "$1 $2")) [bs "5"] None None None;
    Build_nfmt (Some (bs "(\d{3})(\d{3})(\d{3})")) (Some (bs "$1 $2 $3")) [bs "[67]"] (Some (bs "0$1")) None None]
  []
  None None None.

Definition md_UA : meta := Eval vm_compute in Build_meta
  (Some (Build_desc (Some (bs "[89]\d{9}|[3-9]\d{8}")) [(9)%Z; (10)%Z] [(5)%Z; (6)%Z; (7)%Z] None))
  (Some (Build_desc (Some (bs "(?:3[1-8]|4[13-8]|5[1-7]|6[12459])\d{7}")) [(9)%Z] [(5)%Z; (6)%Z; (7)%Z] (Some (bs "311234567"))))
  (Some (Build_desc (Some (bs "790\d{6}|(?:39|50|6[36-8]|7[1-357]|9[1-9])\d{7}")) [(9)%Z] [] (Some (bs "501234567"))))
  (Some (Build_desc (Some (bs "800[1-8]\d{5,6}")) [] [] (Some (bs "800123456"))))
  (Some (Build_desc (Some (bs "900[239]\d{5,6}")) [] [] (Some (bs "900212345"))))
  (Some (Build_desc None [(-1)%Z] [] None))
  (Some (Build_desc None [(-1)%Z] [] None))
  (Some (Build_desc (Some (bs "89[1-579]\d{6}")) [(9)%Z] [] (Some (bs "891234567"))))
  (Some (Build_desc None [(-1)%Z] [] None))
  (Some (Build_desc None [(-1)%Z] [] None))
  None
  (Some (Build_desc None [(-1)%Z] [] None))
  None
  None
  None
  None
  (Some (Build_desc None [(-1)%Z] [] None))
  (Some (bs "UA")) (Some (380)%Z) (Some (bs "00")) (Some (bs "0~0")) (Some (bs "0"))
  None (Some (bs "0")) None None
  [Build_nfmt (Some (bs "(\d{3})(\d{3})(\d{3})")) (Some (bs "$1 $2 $3")) [bs "6[12][29]|(?:3[1-8]|4[136-8]|5[12457]|6[49])2|(?:56|65)[24]"; bs "6[12][29]|(?:35|4[1378]|5[12457]|6[49])2|(?:56|65)[24]|(?:3[1-46-8]|46)2[013-9]"] (Some (bs "0$1")) None None;
    Build_nfmt (Some (bs "(\d{4})(\d{5})")) (Some (bs "$1 $2")) [bs "3[1-8]|4(?:[1367]|[45][6-9]|8[4-6])|5(?:[1-5]|6[0135689]|7[4-6])|6(?:[12][3-7]|[459])"; bs "3[1-8]|4(?:[1367]|[45][6-9]|8[4-6])|5(?:[1-5]|6(?:[015689]|3[02389])|7[4-6])|6(?:[12][3-7]|[459])"] (Some (bs "0$1")) None None;
    Build_nfmt (Some (bs "(\d{2})(\d{3})(\d{4})")) (Some (bs "$1 $2 $3")) [bs "[3-7]|89|9[1-9]"] (Some (bs "0$1")) None None;
    Build_nfmt (Some (bs "(\d{3})(\d{3})(\d{3,4})")) (Some (bs "$1 $2 $3")) [bs "[89]"] (Some (bs "0$1")) None None]
  []
  None None None.

Definition md_UG : meta := Eval vm_compute in Build_meta
  (Some (Build_desc (Some (bs "800\d{6}|(?:[29]0|[347]\d)\d{7}")) [(9)%Z] [(5)%Z; (6)%Z; (7)%Z] None))
  (Some (Build_desc (Some (bs "20(?:(?:24[09]|30[67])\d|6(?:00[0-2]|30[0-4]))\d{3}|(?:20(?:[017]\d|2[5-9]|3[1-4]|5[0-4]|6[15-9])|[34]\d{3})\d{5}")) [] [(5)%Z; (6)%Z; (7)%Z] (Some (bs "312345678"))))
  (Some (Build_desc (Some (bs "7(?:28|34)0\d{5}|7(?:[014-8]\d|2[01467]|3[0167]|9[0-589])\d{6}")) [] [] (Some (bs "712345678"))))
  (Some (Build_desc (Some (bs "800[1-3]\d{5}")) [] [] (Some (bs "800123456"))))
  (Some (Build_desc (Some (bs "90[1-3]\d{6}")) [] [] (Some (bs "901123456"))))
  (Some (Build_desc None [(-1)%Z] [] None))
  (Some (Build_desc None [(-1)%Z] [] None))
  (Some (Build_desc None [(-1)%Z] [] None))
  (Some (Build_desc None [(-1)%Z] [] None))
  (Some (Build_desc None [(-1)%Z] [] None))
  None
  (Some (Build_desc None [(-1)%Z] [] None))
  None
  None
  None
  None
  (Some (Build_desc None [(-1)%Z] [] None))
  (Some (bs "UG")) (Some (256)%Z) (Some (bs "00[057]")) None (Some (bs "0"))
  None (Some (bs "0")) None None
  [Build_nfmt (Some (bs "(\d{4})(\d{5})")) (Some (bs "$1 $2")) [bs "202"; bs "2024"; bs "20240"] (Some (bs "0$1")) None None;
    Build_nfmt (Some (bs "(\d{3})(\d{6})")) (Some (bs "$1 $2")) [bs "20[0-35-7]|4(?:6[45]|[7-9])|[7-9]"; bs "20(?:[0135-7]|2[5-9])|4(?:6[45]|[7-9])|[7-9]"] (Some (bs "0$1")) None None;
    Build_nfmt (Some (bs "(\d{2})(\d{7})")) (Some (bs "$1 $2")) [bs "[2-4]"] (Some (bs "0$1")) None None]
  []
  None None None.

Definition md_US : meta := Eval vm_compute in Build_meta
  (Some (Build_desc (Some (bs "[2-9]\d{9}|3\d{6}")) [(10)%Z] [(7)%Z] None))
  (Some (Build_desc (Some (bs "(?:472[2-47-9]|983[2-57-9])\d{6}|(?:2(?:0[1-35-9]|1[02-9]|2[03-57-9]|3[1459]|4[08]|5[1-46]|6[0279]|7[02469]|8[13])|3(?:0[1-57-9]|1[02-9]|2[013-79]|3[0-24679]|4[167]|5[0-3]|6[01349]|8[056])|4(?:0[124-9]|1[02-579]|2[3-5]|3[0245]|4[023578]|58|6[349]|7[0589]|8[04])|5(?:0[1-57-9]|1[0235-8]|20|3[0149]|4[01]|5[179]|6[1-47]|7[0-5]|8[0256])|6(?:0[1-35-9]|1[024-9]|2[03689]|3[016]|4[0156]|5[01679]|6[0-279]|78|8[0-269])|7(?:0[1-46-8]|1[2-9]|2[04-8]|3[0-2478]|4[0378]|5[47]|6[02359]|7[0-59]|8[156])|8(?:0[1-68]|1[02-8]|2[0168]|3[0-2589]|4[03578]|5[046-9]|6[02-5]|7[028])|9(?:0[1346-9]|1[02-9]|2[0589]|3[0146-8]|4[01357-9]|5[12469]|7[0-3589]|8[04-69]))[2-9]\d{6}")) [] [(7)%Z] (Some (bs "2015550123"))))
  (Some (Build_desc (Some (bs "(?:472[2-47-9]|983[2-57-9])\d{6}|(?:2(?:0[1-35-9]|1[02-9]|2[03-57-9]|3[1459]|4[08]|5[1-46]|6[0279]|7[02469]|8[13])|3(?:0[1-57-9]|1[02-9]|2[013-79]|3[0-24679]|4[167]|5[0-3]|6[01349]|8[056])|4(?:0[124-9]|1[02-579]|2[3-5]|3[0245]|4[023578]|58|6[349]|7[0589]|8[04])|5(?:0[1-57-9]|1[0235-8]|20|3[0149]|4[01]|5[179]|6[1-47]|7[0-5]|8[0256])|6(?:0[1-35-9]|1[024-9]|2[03689]|3[016]|4[0156]|5[01679]|6[0-279]|78|8[0-269])|7(?:0[1-46-8]|1[2-9]|2[04-8]|3[0-2478]|4[0378]|5[47]|6[02359]|7[0-59]|8[156])|8(?:0[1-68]|1[02-8]|2[0168]|3[0-2589]|4[03578]|5[046-9]|6[02-5]|7[028])|9(?:0[1346-9]|1[02-9]|2[0589]|3[0146-8]|4[01357-9]|5[12469]|7[0-3589]|8[04-69]))[2-9]\d{6}")) [] [(7)%Z] (Some (bs "2015550123"))))
  (Some (Build_desc (Some (bs "8(?:00|33|44|55|66|77|88)[2-9]\d{6}")) [] [] (Some (bs "8002345678"))))
  (Some (Build_desc (Some (bs "900[2-9]\d{6}")) [] [] (Some (bs "9002345678"))))
  (Some (Build_desc None [(-1)%Z] [] None))
  (Some (Build_desc (Some (bs "52(?:3(?:[2-46-9][02-9]\d|5(?:[02-46-9]\d|5[0-46-9]))|4(?:[2-478][02-9]\d|5(?:[034]\d|2[024-9]|5[0-46-9])|6(?:0[1-9]|[2-9]\d)|9(?:[05-9]\d|2[0-5]|49)))\d{4}|52[34][2-9]1[02-9]\d{4}|5(?:00|2[125-9]|3[23]|44|66|77|88)[2-9]\d{6}")) [] [] (Some (bs "5002345678"))))
  (Some (Build_desc None [(-1)%Z] [] None))
  (Some (Build_desc None [(-1)%Z] [] None))
  (Some (Build_desc None [(-1)%Z] [] None))
  None
  (Some (Build_desc None [(-1)%Z] [] None))
  None
  None
  None
  None
  (Some (Build_desc None [(-1)%Z] [] None))
  (Some (bs "US")) (Some (1)%Z) (Some (bs "011")) None (Some (bs "1"))
  None (Some (bs "1")) None (Some true)
  [Build_nfmt (Some (bs "(\d{3})(\d{4})")) (Some (bs "$1-$2")) [bs "310"] None (Some true) None;
    Build_nfmt (Some (bs "(\d{3})(\d{4})")) (Some (bs "$1-$2")) [bs "[24-9]|3(?:[02-9]|1[1-9])"] None None None;
    Build_nfmt (Some (bs "(\d{3})(\d{3})(\d{4})")) (Some (bs "($1) $2-$3")) [bs "[2-9]"] None (Some true) None]
  [Build_nfmt (Some (bs "(\d{3})(\d{4})")) (Some (bs "$1-$2")) [bs "310"] None (Some true) None;
    Build_nfmt (Some (bs "(\d{3})(\d{3})(\d{4})")) (Some (bs "$1-$2-$3")) [bs "[2-9]"] None None None]
  (Some true) None (Some true).

Definition md_UY : meta := Eval vm_compute in Build_meta
  (Some (Build_desc (Some (bs "0004\d{2,9}|[1249]\d{7}|2\d{3,4}|(?:[49]\d|80)\d{5}")) [(4)%Z; (5)%Z; (6)%Z; (7)%Z; (8)%Z; (9)%Z; (10)%Z; (11)%Z; (12)%Z; (13)%Z] [] None))
  (Some (Build_desc (Some (bs "(?:1(?:770|9(?:20|[89]7))|(?:2\d|4[2-7])\d\d)\d{4}")) [(8)%Z] [(7)%Z] (Some (bs "21231234"))))
  (Some (Build_desc (Some (bs "9[1-9]\d{6}")) [(8)%Z] [] (Some (bs "94231234"))))
  (Some (Build_desc (Some (bs "0004\d{2,9}|(?:405|80[05])\d{4}")) [(6)%Z; (7)%Z; (8)%Z; (9)%Z; (10)%Z; (11)%Z; (12)%Z; (13)%Z] [] (Some (bs "8001234"))))
  (Some (Build_desc (Some (bs "90[0-8]\d{4}")) [(7)%Z] [] (Some (bs "9001234"))))
  (Some (Build_desc None [(-1)%Z] [] None))
  (Some (Build_desc None [(-1)%Z] [] None))
  (Some (Build_desc None [(-1)%Z] [] None))
  (Some (Build_desc None [(-1)%Z] [] None))
  (Some (Build_desc (Some (bs "21\d{2,3}")) [(4)%Z; (5)%Z] [] (Some (bs "21123"))))
  None
  (Some (Build_desc None [(-1)%Z] [] None))
  None
  None
  None
  None
  (Some (Build_desc None [(-1)%Z] [] None))
  (Some (bs "UY")) (Some (598)%Z) (Some (bs "0(?:0|1[3-9]\d)")) (Some (bs "00")) (Some (bs "0"))
  (Some (bs " int. ")) (Some (bs "0")) None None
  [Build_nfmt (Some (bs "(\d{4,5})")) (Some (bs "$1")) [bs "21"] None None None;
    Build_nfmt (Some (bs "(\d{3})(\d{3,4})")) (Some (bs "$1 $2")) [bs "0"] None None None;
    Build_nfmt (Some (bs "(\d{3})(\d{4})")) (Some (bs "$1 $2")) [bs "[49]0|8"] (Some (bs "0$1")) None None;
    Build_nfmt (Some (bs "(\d{2})(\d{3})(\d{3})")) (Some (bs "$1 $2 $3")) [bs "9"] (Some (bs "0$1")) None None;
    Build_nfmt (Some (bs "(\d{4})(\d{4})")) (Some (bs "$1 $2")) [bs "[124]"] None None None;
    Build_nfmt (Some (bs "(\d{3})(\d{3})(\d{2,4})")) (Some (bs "$1 $2 $3")) [bs "0"] None None None;
    Build_nfmt (Some (bs "(\d{3})(\d{3})(\d{3})(\d{2,4})")) (Some (bs "$1 $2 $3 $4")) [bs "0"] None None None]
  []
  None None None.

Definition md_UZ : meta := Eval vm_compute in Build_meta
  (Some (Build_desc (Some (bs "(?:20|33|[5-9]\d)\d{7}")) [(9)%Z] [] None))
  (Some (Build_desc (Some (bs "(?:55\d\d|6(?:1(?:22|3[124]|4[1-4]|5[1-3578]|64)|2(?:22|3[0-57-9]|41)|5(?:22|3[3-7]|5[024-8])|[69]\d\d|7(?:[23]\d|7[69]))|7(?:[168]\d\d|2(?:22|3[13-57-9]|4[1-3579]|5[14])|3(?:2\d|3[1578]|4[1-35-7]|5[1-57]|61)|4(?:2\d|3[1-579]|7[1-79])|5(?:22|5[1-9]|6[1457])|9(?:22|5[1-9])))\d{5}")) [] [] (Some (bs "669050123"))))
  (Some (Build_desc (Some (bs "(?:(?:[25]0|33|8[078]|9[0-57-9])\d{3}|6(?:1(?:2(?:2[01]|98)|35[0-4]|50\d|61[23]|7(?:[01][017]|4\d|55|9[5-9]))|2(?:(?:11|7\d)\d|2(?:[12]1|9[01379])|5(?:[126]\d|3[0-4]))|5(?:19[01]|2(?:27|9[26])|(?:30|59|7\d)\d)|6(?:2(?:1[5-9]|2[0367]|38|41|52|60)|(?:3[79]|9[0-3])\d|4(?:56|83)|7(?:[07]\d|1[017]|3[07]|4[047]|5[057]|67|8[0178]|9[79]))|7(?:2(?:24|3[237]|4[5-9]|7[15-8])|5(?:7[12]|8[0589])|7(?:0\d|[39][07])|9(?:0\d|7[079])))|7(?:[07]\d{3}|2(?:2(?:2[79]|95)|3(?:2[5-9]|6[0-6])|57\d|7(?:0\d|1[17]|2[27]|3[37]|44|5[057]|66|88))|3(?:2(?:1[0-6]|21|3[469]|7[159])|(?:33|9[4-6])\d|5(?:0[0-4]|5[579]|9\d)|7(?:[0-3579]\d|4[0467]|6[67]|8[078]))|4(?:2(?:29|5[0257]|6[0-7]|7[1-57])|5(?:1[0-4]|8\d|9[5-9])|7(?:0\d|1[024589]|2[0-27]|3[0137]|[46][07]|5[01]|7[5-9]|9[079])|9(?:7[015-9]|[89]\d))|5(?:112|2(?:0\d|2[29]|[49]4)|3[1568]\d|52[6-9]|7(?:0[01578]|1[017]|[23]7|4[047]|[5-7]\d|8[78]|9[079]))|9(?:22[128]|3(?:2[0-4]|7\d)|57[02569]|7(?:2[05-9]|3[37]|4\d|60|7[2579]|87|9[07]))))\d{4}")) [] [] (Some (bs "912345678"))))
  (Some (Build_desc None [(-1)%Z] [] None))
  (Some (Build_desc None [(-1)%Z] [] None))
  (Some (Build_desc None [(-1)%Z] [] None))
  (Some (Build_desc None [(-1)%Z] [] None))
  (Some (Build_desc None [(-1)%Z] [] None))
  (Some (Build_desc None [(-1)%Z] [] None))
  (Some (Build_desc None [(-1)%Z] [] None))
  None
  (Some (Build_desc None [(-1)%Z] [] None))
  None
  None
  None
  None
  (Some (Build_desc None [(-1)%Z] [] None))
  (Some (bs "UZ")) (Some (998)%Z) (Some (bs "00")) None None
  None None None None
  [Build_nfmt (Some (bs "(\d{2})(\d{3})(\d{2})(\d{2})")) (Some (bs "$1 $2 $3 $4")) [bs "[235-9]"] None None None]
  []
  None None None.

Definition md_VA : meta := Eval vm_compute in Build_meta
  (Some (Build_desc (Some (bs "0\d{5,10}|3[0-8]\d{7,10}|55\d{8}|8\d{5}(?:\d{2,4})?|(?:1\d|39)\d{7,8}")) [(6)%Z; (7)%Z; (8)%Z; (9)%Z; (10)%Z; (11)%Z; (12)%Z] [] None))
  (Some (Build_desc (Some (bs "06698\d{1,6}")) [(6)%Z; (7)%Z; (8)%Z; (9)%Z; (10)%Z; (11)%Z] [] (Some (bs "0669812345"))))
  (Some (Build_desc (Some (bs "3[1-9]\d{8}|3[2-9]\d{7}")) [(9)%Z; (10)%Z] [] (Some (bs "3123456789"))))
  (Some (Build_desc (Some (bs "80(?:0\d{3}|3)\d{3}")) [(6)%Z; (9)%Z] [] (Some (bs "800123456"))))
  (Some (Build_desc (Some (bs "(?:0878\d{3}|89(?:2\d|3[04]|4(?:[0-4]|[5-9]\d\d)|5[0-4]))\d\d|(?:1(?:44|6[346])|89(?:38|5[5-9]|9))\d{6}")) [(6)%Z; (8)%Z; (9)%Z; (10)%Z] [] (Some (bs "899123456"))))
  (Some (Build_desc (Some (bs "84(?:[08]\d{3}|[17])\d{3}")) [(6)%Z; (9)%Z] [] (Some (bs "848123456"))))
  (Some (Build_desc (Some (bs "1(?:78\d|99)\d{6}")) [(9)%Z; (10)%Z] [] (Some (bs "1781234567"))))
  (Some (Build_desc (Some (bs "55\d{8}")) [(10)%Z] [] (Some (bs "5512345678"))))
  (Some (Build_desc None [(-1)%Z] [] None))
  (Some (Build_desc None [(-1)%Z] [] None))
  None
  (Some (Build_desc (Some (bs "3[2-8]\d{9,10}")) [(11)%Z; (12)%Z] [] (Some (bs "33101234501"))))
  None
  None
  None
  None
  (Some (Build_desc None [(-1)%Z] [] None))
  (Some (bs "VA")) (Some (39)%Z) (Some (bs "00")) None None
  None None None None
  []
  []
  None (Some (bs "06698")) (Some true).

Definition md_VC : meta := Eval vm_compute in Build_meta
  (Some (Build_desc (Some (bs "(?:[58]\d\d|784|900)\d{7}")) [(10)%Z] [(7)%Z] None))
  (Some (Build_desc (Some (bs "784(?:266|3(?:6[6-9]|7\d|8[0-6])|4(?:38|5[0-36-8]|8[0-8])|5(?:55|7[0-2]|93)|638|784)\d{4}")) [] [(7)%Z] (Some (bs "7842661234"))))
  (Some (Build_desc (Some (bs "784(?:4(?:3[0-5]|5[45]|89|9[0-8])|5(?:2[6-9]|3[0-4])|720)\d{4}")) [] [(7)%Z] (Some (bs "7844301234"))))
  (Some (Build_desc (Some (bs "8(?:00|33|44|55|66|77|88)[2-9]\d{6}")) [] [] (Some (bs "8002345678"))))
  (Some (Build_desc (Some (bs "900[2-9]\d{6}")) [] [] (Some (bs "9002345678"))))
  (Some (Build_desc None [(-1)%Z] [] None))
  (Some (Build_desc (Some (bs "52(?:3(?:[2-46-9][02-9]\d|5(?:[02-46-9]\d|5[0-46-9]))|4(?:[2-478][02-9]\d|5(?:[034]\d|2[024-9]|5[0-46-9])|6(?:0[1-9]|[2-9]\d)|9(?:[05-9]\d|2[0-5]|49)))\d{4}|52[34][2-9]1[02-9]\d{4}|5(?:00|2[125-9]|3[23]|44|66|77|88)[2-9]\d{6}")) [] [] (Some (bs "5002345678"))))
  (Some (Build_desc (Some (bs "78451[0-2]\d{4}")) [] [(7)%Z] (Some (bs "7845101234"))))
  (Some (Build_desc None [(-1)%Z] [] None))
  (Some (Build_desc None [(-1)%Z] [] None))
  None
  (Some (Build_desc None [(-1)%Z] [] None))
  None
  None
  None
  None
  (Some (Build_desc None [(-1)%Z] [] None))
  (Some (bs "VC")) (Some (1)%Z) (Some (bs "011")) None (Some (bs "1"))
  None (Some (bs "([2-7]\d{6})$|1")) (Some (bs "784$1")) None
  []
  []
  None (Some (bs "784")) (Some true).

Definition md_VE : meta := Eval vm_compute in Build_meta
  (Some (Build_desc (Some (bs "[68]00\d{7}|(?:[24]\d|[59]0)\d{8}")) [(10)%Z] [(7)%Z] None))
  (Some (Build_desc (Some (bs "(?:2(?:12|3[457-9]|[467]\d|[58][1-9]|9[1-6])|[4-6]00)\d{7}")) [] [(7)%Z] (Some (bs "2121234567"))))
  (Some (Build_desc (Some (bs "4(?:1[24-8]|2[246])\d{7}")) [] [] (Some (bs "4121234567"))))
  (Some (Build_desc (Some (bs "800\d{7}")) [] [] (Some (bs "8001234567"))))
  (Some (Build_desc (Some (bs "90[01]\d{7}")) [] [] (Some (bs "9001234567"))))
  (Some (Build_desc None [(-1)%Z] [] None))
  (Some (Build_desc None [(-1)%Z] [] None))
  (Some (Build_desc None [(-1)%Z] [] None))
  (Some (Build_desc None [(-1)%Z] [] None))
  (Some (Build_desc (Some (bs "501\d{7}")) [] [(7)%Z] (Some (bs "5010123456"))))
  None
  (Some (Build_desc None [(-1)%Z] [] None))
  None
  None
  None
  None
  (Some (Build_desc None [(-1)%Z] [] None))
  (Some (bs "VE")) (Some (58)%Z) (Some (bs "00")) None (Some (bs "0"))
  None (Some (bs "0")) None None
  [Build_nfmt (Some (bs "(\d{3})(\d{7})")) (Some (bs "$1-$2")) [bs "[24-689]"] (Some (bs "0$1")) None (Some (bs "$CC $1"))]
  []
  None None None.

Definition md_VG : meta := Eval vm_compute in Build_meta
  (Some (Build_desc (Some (bs "(?:284|[58]\d\d|900)\d{7}")) [(10)%Z] [(7)%Z] None))
  (Some (Build_desc (Some (bs "284(?:229|4(?:22|9[45])|774|8(?:52|6[459]))\d{4}")) [] [(7)%Z] (Some (bs "2842291234"))))
  (Some (Build_desc (Some (bs "284(?:245|3(?:0[0-3]|4[0-7]|68|9[34])|4(?:4[0-6]|68|9[69])|5(?:4[0-7]|68|9[69]))\d{4}")) [] [(7)%Z] (Some (bs "2843001234"))))
  (Some (Build_desc (Some (bs "8(?:00|33|44|55|66|77|88)[2-9]\d{6}")) [] [] (Some (bs "8002345678"))))
  (Some (Build_desc (Some (bs "900[2-9]\d{6}")) [] [] (Some (bs "9002345678"))))
  (Some (Build_desc None [(-1)%Z] [] None))
  (Some (Build_desc (Some (bs "52(?:3(?:[2-46-9][02-9]\d|5(?:[02-46-9]\d|5[0-46-9]))|4(?:[2-478][02-9]\d|5(?:[034]\d|2[024-9]|5[0-46-9])|6(?:0[1-9]|[2-9]\d)|9(?:[05-9]\d|2[0-5]|49)))\d{4}|52[34][2-9]1[02-9]\d{4}|5(?:00|2[125-9]|3[23]|44|66|77|88)[2-9]\d{6}")) [] [] (Some (bs "5002345678"))))
  (Some (Build_desc None [(-1)%Z] [] None))
  (Some (Build_desc None [(-1)%Z] [] None))
  (Some (Build_desc None [(-1)%Z] [] None))
  None
  (Some (Build_desc None [(-1)%Z] [] None))
  None
  None
  None
  None
  (Some (Build_desc None [(-1)%Z] [] None))
  (Some (bs "VG")) (Some (1)%Z) (Some (bs "011")) None (Some (bs "1"))
  None (Some (bs "([2-578]\d{6})$|1")) (Some (bs "284$1")) None
  []
  []
  None (Some (bs "284")) (Some true).

Definition md_VI : meta := Eval vm_compute in Build_meta
  (Some (Build_desc (Some (bs "[58]\d{9}|(?:34|90)0\d{7}")) [(10)%Z] [(7)%Z] None))
  (Some (Build_desc (Some (bs "340(?:2(?:0\d|10|2[06-8]|4[49]|77)|3(?:32|44)|4(?:2[23]|44|7[34]|89)|5(?:1[34]|55)|6(?:2[56]|4[23]|77|9[023])|7(?:1[2-57-9]|2[57]|7\d)|884|998)\d{4}")) [] [(7)%Z] (Some (bs "3406421234"))))
  (Some (Build_desc (Some (bs "340(?:2(?:0\d|10|2[06-8]|4[49]|77)|3(?:32|44)|4(?:2[23]|44|7[34]|89)|5(?:1[34]|55)|6(?:2[56]|4[23]|77|9[023])|7(?:1[2-57-9]|2[57]|7\d)|884|998)\d{4}")) [] [(7)%Z] (Some (bs "3406421234"))))
  (Some (Build_desc (Some (bs "8(?:00|33|44|55|66|77|88)[2-9]\d{6}")) [] [] (Some (bs "8002345678"))))
  (Some (Build_desc (Some (bs "900[2-9]\d{6}")) [] [] (Some (bs "9002345678"))))
  (Some (Build_desc None [(-1)%Z] [] None))
  (Some (Build_desc (Some (bs "52(?:3(?:[2-46-9][02-9]\d|5(?:[02-46-9]\d|5[0-46-9]))|4(?:[2-478][02-9]\d|5(?:[034]\d|2[024-9]|5[0-46-9])|6(?:0[1-9]|[2-9]\d)|9(?:[05-9]\d|2[0-5]|49)))\d{4}|52[34][2-9]1[02-9]\d{4}|5(?:00|2[125-9]|3[23]|44|66|77|88)[2-9]\d{6}")) [] [] (Some (bs "5002345678"))))
  (Some (Build_desc None [(-1)%Z] [] None))
  (Some (Build_desc None [(-1)%Z] [] None))
  (Some (Build_desc None [(-1)%Z] [] None))
  None
  (Some (Build_desc None [(-1)%Z] [] None))
  None
  None
  None
  None
  (Some (Build_desc None [(-1)%Z] [] None))
  (Some (bs "VI")) (Some (1)%Z) (Some (bs "011")) None (Some (bs "1"))
  None (Some (bs "([2-9]\d{6})$|1")) (Some (bs "340$1")) (Some true)
  []
  []
  None (Some (bs "340")) None.

Definition md_VN : meta := Eval vm_compute in Build_meta
  (Some (Build_desc (Some (bs "[12]\d{9}|[135-9]\d{8}|[16]\d{6,7}|7\d{6}")) [(7)%Z; (8)%Z; (9)%Z; (10)%Z] [] None))
  (Some (Build_desc (Some (bs "2(?:0[3-9]|1[0-689]|2[0-25-9]|[38][2-9]|4[2-8]|5[124-9]|6[0-39]|7[0-7]|9[0-4679])\d{7}")) [(10)%Z] [] (Some (bs "2101234567"))))
  (Some (Build_desc (Some (bs "121[0-3]\d{5}|(?:160|(?:3\d|7[06-9])\d|5(?:[1689]\d|2[238]|59)|8(?:[1-8]\d|9[6-9])|9(?:[0-8]\d|9[013-9]))\d{6}")) [(9)%Z] [] (Some (bs "912345678"))))
  (Some (Build_desc (Some (bs "1800\d{4,6}|12(?:0[13]|28)\d{4}")) [(8)%Z; (9)%Z; (10)%Z] [] (Some (bs "1800123456"))))
  (Some (Build_desc (Some (bs "1900\d{4,6}")) [(8)%Z; (9)%Z; (10)%Z] [] (Some (bs "1900123456"))))
  (Some (Build_desc None [(-1)%Z] [] None))
  (Some (Build_desc None [(-1)%Z] [] None))
  (Some (Build_desc (Some (bs "672\d{6}")) [(9)%Z] [] (Some (bs "672012345"))))
  (Some (Build_desc None [(-1)%Z] [] None))
  (Some (Build_desc (Some (bs "[17]99\d{4}|69\d{5,6}")) [(7)%Z; (8)%Z] [] (Some (bs "1992000"))))
  None
  (Some (Build_desc None [(-1)%Z] [] None))
  None
  None
  None
  None
  (Some (Build_desc (Some (bs "[17]99\d{4}|69\d{5,6}")) [(7)%Z; (8)%Z] [] None))
  (Some (bs "VN")) (Some (84)%Z) (Some (bs "00")) None (Some (bs "0"))
  None (Some (bs "0")) None None
  [Build_nfmt (Some (bs "(\d{3})(\d{4})")) (Some (bs "$1 $2")) [bs "[17]99"] (Some (bs "0$1")) (Some true) None;
    Build_nfmt (Some (bs "(\d{3})(\d{4,5})")) (Some (bs "$1 $2")) [bs "69"] (Some (bs "0$1")) (Some true) None;
    Build_nfmt (Some (bs "(\d{4})(\d{4,6})")) (Some (bs "$1 $2")) [bs "1(?:2[02]|[89])"] None (Some true) None;
    Build_nfmt (Some (bs "(\d{2})(\d{3})(\d{2})(\d{2})")) (Some (bs "$1 $2 $3 $4")) [bs "1[26]|6"] (Some (bs "0$1")) (Some true) None;
    Build_nfmt (Some (bs "(\d{3})(\d{3})(\d{3})")) (Some (bs "$1 $2 $3")) [bs "[357-9]"] (Some (bs "0$1")) (Some true) None;
    Build_nfmt (Some (bs "(\d{2})(\d{4})(\d{4})")) (Some (bs "$1 $2 $3")) [bs "2[48]"] (Some (bs "0$1")) (Some true) None;
    Build_nfmt (Some (bs "(\d{3})(\d{4})(\d{3})")) (Some (bs "$1 $2 $3")) [bs "2"] (Some (bs "0$1")) (Some true) None]
  [Build_nfmt (Some (bs "(\d{4})(\d{4,6})")) (Some (bs "$1 $2")) [bs "1(?:2[02]|[89])"] None (Some true) None;
    Build_nfmt (Some (bs "(\d{2})(\d{3})(\d{2})(\d{2})")) (Some (bs "$1 $2 $3 $4")) [bs "1[26]|6"] (Some (bs "0$1")) (Some true) None;
    Build_nfmt (Some (bs "(\d{3})(\d{3})(\d{3})")) (Some (bs "$1 $2 $3")) [bs "[357-9]"] (Some (bs "0$1")) (Some true) None;
    Build_nfmt (Some (bs "(\d{2})(\d{4})(\d{4})")) (Some (bs "$1 $2 $3")) [bs "2[48]"] (Some (bs "0$1")) (Some true) None;
    Build_nfmt (Some (bs "(\d{3})(\d{4})(\d{3})")) (Some (bs "$1 $2 $3")) [bs "2"] (Some (bs "0$1")) (Some true) None]
  None None None.

Definition md_VU : meta := Eval vm_compute in Build_meta
  (Some (Build_desc (Some (bs "[57-9]\d{6}|(?:[238]\d|48)\d{3}")) [(5)%Z; (7)%Z] [] None))
  (Some (Build_desc (Some (bs "(?:38[0-8]|48[4-9])\d\d|(?:2[02-9]|3[4-7]|88)\d{3}")) [(5)%Z] [] (Some (bs "22123"))))
  (Some (Build_desc (Some (bs "(?:[58]\d|7[0-7])\d{5}")) [(7)%Z] [] (Some (bs "5912345"))))
  (Some (Build_desc (Some (bs "81[18]\d\d")) [(5)%Z] [] (Some (bs "81123"))))
  (Some (Build_desc None [(-1)%Z] [] None))
  (Some (Build_desc None [(-1)%Z] [] None))
  (Some (Build_desc None [(-1)%Z] [] None))
  (Some (Build_desc (Some (bs "9(?:0[1-9]|1[01])\d{4}")) [(7)%Z] [] (Some (bs "9010123"))))
  (Some (Build_desc None [(-1)%Z] [] None))
  (Some (Build_desc (Some (bs "(?:3[03]|900\d)\d{3}")) [] [] (Some (bs "30123"))))
  None
  (Some (Build_desc None [(-1)%Z] [] None))
  None
  None
  None
  None
  (Some (Build_desc None [(-1)%Z] [] None))
  (Some (bs "VU")) (Some (678)%Z) (Some (bs "00")) None None
  None None None None
  [Build_nfmt (Some (bs "(\d{3})(\d{4})")) (Some (bs "$1 $2")) [bs "[57-9]"] None None None]
  []
  None None None.

Definition md_WF : meta := Eval vm_compute in Build_meta
  (Some (Build_desc (Some (bs "(?:40|72|8\d{4})\d{4}|[89]\d{5}")) [(6)%Z; (9)%Z] [] None))
  (Some (Build_desc (Some (bs "72\d{4}")) [(6)%Z] [] (Some (bs "721234"))))
  (Some (Build_desc (Some (bs "(?:72|8[23])\d{4}")) [(6)%Z] [] (Some (bs "821234"))))
  (Some (Build_desc (Some (bs "80[0-5]\d{6}")) [(9)%Z] [] (Some (bs "800012345"))))
  (Some (Build_desc None [(-1)%Z] [] None))
  (Some (Build_desc None [(-1)%Z] [] None))
  (Some (Build_desc None [(-1)%Z] [] None))
  (Some (Build_desc (Some (bs "9[23]\d{4}")) [(6)%Z] [] (Some (bs "921234"))))
  (Some (Build_desc None [(-1)%Z] [] None))
  (Some (Build_desc None [(-1)%Z] [] None))
  None
  (Some (Build_desc (Some (bs "[48]0\d{4}")) [(6)%Z] [] (Some (bs "401234"))))
  None
  None
  None
  None
  (Some (Build_desc None [(-1)%Z] [] None))
  (Some (bs "WF")) (Some (681)%Z) (Some (bs "00")) None None
  None None None None
  [Build_nfmt (Some (bs "(\d{2})(\d{2})(\d{2})")) (Some (bs "$1 $2 $3")) [bs "[47-9]"] None None None;
    Build_nfmt (Some (bs "(\d{3})(\d{2})(\d{2})(\d{2})")) (Some (bs "$1 $2 $3 $4")) [bs "8"] None None None]
  []
  None None None.

Definition md_WS : meta := Eval vm_compute in Build_meta
  (Some (Build_desc (Some (bs "(?:[2-6]|8\d{5})\d{4}|[78]\d{6}|[68]\d{5}")) [(5)%Z; (6)%Z; (7)%Z; (10)%Z] [] None))
  (Some (Build_desc (Some (bs "6[1-9]\d{3}|(?:[2-5]|60)\d{4}")) [(5)%Z; (6)%Z] [] (Some (bs "22123"))))
  (Some (Build_desc (Some (bs "(?:7[1-35-8]|8(?:[3-7]|9\d{3}))\d{5}")) [(7)%Z; (10)%Z] [] (Some (bs "7212345"))))
  (Some (Build_desc (Some (bs "800\d{3}")) [(6)%Z] [] (Some (bs "800123"))))
  (Some (Build_desc None [(-1)%Z] [] None))
  (Some (Build_desc None [(-1)%Z] [] None))
  (Some (Build_desc None [(-1)%Z] [] None))
  (Some (Build_desc None [(-1)%Z] [] None))
  (Some (Build_desc None [(-1)%Z] [] None))
  (Some (Build_desc None [(-1)%Z] [] None))
  None
  (Some (Build_desc None [(-1)%Z] [] None))
  None
  None
  None
  None
  (Some (Build_desc None [(-1)%Z] [] None))
  (Some (bs "WS")) (Some (685)%Z) (Some (bs "0")) None None
  None None None None
  [Build_nfmt (Some (bs "(\d{5})")) (Some (bs "$1")) [bs "[2-5]|6[1-9]"] None None None;
    Build_nfmt (Some (bs "(\d{3})(\d{3,7})")) (Some (bs "$1 $2")) [bs "[68]"] None None None;
    Build_nfmt (Some (bs "(\d{2})(\d{5})")) (Some (bs "$1 $2")) [bs "7"] None None None]
  []
  None None None.

Definition md_XK : meta := Eval vm_compute in Build_meta
  (Some (Build_desc (Some (bs "2\d{7,8}|3\d{7,11}|(?:4\d\d|[89]00)\d{5}")) [(8)%Z; (9)%Z; (10)%Z; (11)%Z; (12)%Z] [] None))
  (Some (Build_desc (Some (bs "38\d{6,10}|(?:2[89]|39)(?:0\d{5,6}|[1-9]\d{5})")) [] [] (Some (bs "28012345"))))
  (Some (Build_desc (Some (bs "4[3-9]\d{6}")) [(8)%Z] [] (Some (bs "43201234"))))
  (Some (Build_desc (Some (bs "800\d{5}")) [(8)%Z] [] (Some (bs "80001234"))))
  (Some (Build_desc (Some (bs "900\d{5}")) [(8)%Z] [] (Some (bs "90001234"))))
  (Some (Build_desc None [(-1)%Z] [] None))
  (Some (Build_desc None [(-1)%Z] [] None))
  (Some (Build_desc None [(-1)%Z] [] None))
  (Some (Build_desc None [(-1)%Z] [] None))
  (Some (Build_desc None [(-1)%Z] [] None))
  None
  (Some (Build_desc None [(-1)%Z] [] None))
  None
  None
  None
  None
  (Some (Build_desc None [(-1)%Z] [] None))
  (Some (bs "XK")) (Some (383)%Z) (Some (bs "00")) None (Some (bs "0"))
  None (Some (bs "0")) None None
  [Build_nfmt (Some (bs "(\d{3})(\d{5})")) (Some (bs "$1 $2")) [bs "[89]"] (Some (bs "0$1")) None None;
    Build_nfmt (Some (bs "(\d{2})(\d{3})(\d{3})")) (Some (bs "$1 $2 $3")) [bs "[2-4]"] (Some (bs "0$1")) None None;
    Build_nfmt (Some (bs "(\d{3})(\d{3})(\d{3})")) (Some (bs "$1 $2 $3")) [bs "2|39"] (Some (bs "0$1")) None None;
    Build_nfmt (Some (bs "(\d{2})(\d{7,10})")) (Some (bs "$1 $2")) [bs "3"] (Some (bs "0$1")) None None]
  []
  None None None.

Definition md_YE : meta := Eval vm_compute in Build_meta
  (Some (Build_desc (Some (bs "(?:1|7\d)\d{7}|[1-7]\d{6}")) [(7)%Z; (8)%Z; (9)%Z] [(6)%Z] None))
  (Some (Build_desc (Some (bs "78[0-7]\d{4}|17\d{6}|(?:[12][2-68]|3[2358]|4[2-58]|5[2-6]|6[3-58]|7[24-6])\d{5}")) [(7)%Z; (8)%Z] [(6)%Z] (Some (bs "1234567"))))
  (Some (Build_desc (Some (bs "7[01378]\d{7}")) [(9)%Z] [] (Some (bs "712345678"))))
  (Some (Build_desc None [(-1)%Z] [] None))
  (Some (Build_desc None [(-1)%Z] [] None))
  (Some (Build_desc None [(-1)%Z] [] None))
  (Some (Build_desc None [(-1)%Z] [] None))
  (Some (Build_desc None [(-1)%Z] [] None))
  (Some (Build_desc None [(-1)%Z] [] None))
  (Some (Build_desc None [(-1)%Z] [] None))
  None
  (Some (Build_desc None [(-1)%Z] [] None))
  None
  None
  None
  None
  (Some (Build_desc None [(-1)%Z] [] None))
  (Some (bs "YE")) (Some (967)%Z) (Some (bs "00")) None (Some (bs "0"))
  None (Some (bs "0")) None None
  [Build_nfmt (Some (bs "(\d)(\d{3})(\d{3,4})")) (Some (bs "$1 $2 $3")) [bs "[1-6]|7(?:[24-6]|8[0-7])"] (Some (bs "0$1")) None None;
    Build_nfmt (Some (bs "(\d{3})(\d{3})(\d{3})")) (Some (bs "$1 $2 $3")) [bs "7"] (Some (bs "0$1")) None None]
  []
  None None None.

Definition md_YT : meta := Eval vm_compute in Build_meta
  (Some (Build_desc (Some (bs "(?:639\d|7093)\d{5}|(?:26|80|9\d)\d{7}")) [(9)%Z] [] None))
  (Some (Build_desc (Some (bs "26(?:89\d|9(?:0[0-467]|15|5[0-4]|6\d|[78]0))\d{4}")) [] [] (Some (bs "269601234"))))
  (Some (Build_desc (Some (bs "(?:639(?:0[0-79]|1[019]|[267]\d|3[09]|40|5[05-9]|9[04-79])|7093[5-7])\d{4}")) [] [] (Some (bs "639012345"))))
  (Some (Build_desc (Some (bs "80\d{7}")) [] [] (Some (bs "801234567"))))
  (Some (Build_desc None [(-1)%Z] [] None))
  (Some (Build_desc None [(-1)%Z] [] None))
  (Some (Build_desc None [(-1)%Z] [] None))
  (Some (Build_desc (Some (bs "9(?:(?:39|47)8[01]|769\d)\d{4}")) [] [] (Some (bs "939801234"))))
  (Some (Build_desc None [(-1)%Z] [] None))
  (Some (Build_desc None [(-1)%Z] [] None))
  None
  (Some (Build_desc None [(-1)%Z] [] None))
  None
  None
  None
  None
  (Some (Build_desc None [(-1)%Z] [] None))
  (Some (bs "YT")) (Some (262)%Z) (Some (bs "00")) None (Some (bs "0"))
  None (Some (bs "0")) None None
  []
  []
  None None None.

Definition md_ZA : meta := Eval vm_compute in Build_meta
  (Some (Build_desc (Some (bs "[1-79]\d{8}|8\d{4,9}")) [(5)%Z; (6)%Z; (7)%Z; (8)%Z; (9)%Z; (10)%Z] [] None))
  (Some (Build_desc (Some (bs "(?:2(?:0330|4302)|52087)0\d{3}|(?:1[0-8]|2[1-378]|3[1-69]|4\d|5[1346-8])\d{7}")) [(9)%Z] [] (Some (bs "101234567"))))
  (Some (Build_desc (Some (bs "(?:1(?:3492[0-25]|4495[0235]|549(?:20|5[01]))|4[34]492[01])\d{3}|8[1-4]\d{3,7}|(?:2[27]|47|54)4950\d{3}|(?:1(?:049[2-4]|9[12]\d\d)|(?:50[0-2]|[67]\d\d)\d\d|8(?:5\d{3}|7(?:08[67]|158|28[5-9]|310)))\d{4}|(?:1[6-8]|28|3[2-69]|4[025689]|5[36-8])4920\d{3}|(?:12|[2-5]1)492\d{4}")) [(5)%Z; (6)%Z; (7)%Z; (8)%Z; (9)%Z] [] (Some (bs "711234567"))))
  (Some (Build_desc (Some (bs "80\d{7}")) [(9)%Z] [] (Some (bs "801234567"))))
  (Some (Build_desc (Some (bs "(?:86[2-9]|9[0-2]\d)\d{6}")) [(9)%Z] [] (Some (bs "862345678"))))
  (Some (Build_desc (Some (bs "860\d{6}")) [(9)%Z] [] (Some (bs "860123456"))))
  (Some (Build_desc None [(-1)%Z] [] None))
  (Some (Build_desc (Some (bs "87(?:08[0-589]|15[0-79]|28[0-4]|31[1-9])\d{4}|87(?:[02][0-79]|1[0-46-9]|3[02-9]|[4-9]\d)\d{5}")) [(9)%Z] [] (Some (bs "871234567"))))
  (Some (Build_desc None [(-1)%Z] [] None))
  (Some (Build_desc (Some (bs "861\d{6,7}")) [(9)%Z; (10)%Z] [] (Some (bs "861123456"))))
  None
  (Some (Build_desc None [(-1)%Z] [] None))
  None
  None
  None
  None
  (Some (Build_desc None [(-1)%Z] [] None))
  (Some (bs "ZA")) (Some (27)%Z) (Some (bs "00")) None (Some (bs "0"))
  None (Some (bs "0")) None None
  [Build_nfmt (Some (bs "(\d{2})(\d{3,4})")) (Some (bs "$1 $2")) [bs "8[1-4]"] (Some (bs "0$1")) None None;
    Build_nfmt (Some (bs "(\d{2})(\d{3})(\d{2,3})")) (Some (bs "$1 $2 $3")) [bs "8[1-4]"] (Some (bs "0$1")) None None;
    Build_nfmt (Some (bs "(\d{3})(\d{3})(\d{3})")) (Some (bs "$1 $2 $3")) [bs "860"] (Some (bs "0$1")) None None;
    Build_nfmt (Some (bs "(\d{2})(\d{3})(\d{4})")) (Some (bs "$1 $2 $3")) [bs "[1-9]"] (Some (bs "0$1")) None None;
    Build_nfmt (Some (bs "(\d{3})(\d{3})(\d{4})")) (Some (bs "$1 $2 $3")) [bs "8"] (Some (bs "0$1")) None None]
  []
  None None (Some true).

Definition md_ZM : meta := Eval vm_compute in Build_meta
  (Some (Build_desc (Some (bs "800\d{6}|(?:21|[579]\d|63)\d{7}")) [(9)%Z] [(6)%Z] None))
  (Some (Build_desc (Some (bs "21[1-8]\d{6}")) [] [(6)%Z] (Some (bs "211234567"))))
  (Some (Build_desc (Some (bs "(?:[59][5-8]|7[5-9])\d{7}")) [] [] (Some (bs "955123456"))))
  (Some (Build_desc (Some (bs "800\d{6}")) [] [] (Some (bs "800123456"))))
  (Some (Build_desc None [(-1)%Z] [] None))
  (Some (Build_desc None [(-1)%Z] [] None))
  (Some (Build_desc None [(-1)%Z] [] None))
  (Some (Build_desc (Some (bs "63\d{7}")) [] [] (Some (bs "630123456"))))
  (Some (Build_desc None [(-1)%Z] [] None))
  (Some (Build_desc None [(-1)%Z] [] None))
  None
  (Some (Build_desc None [(-1)%Z] [] None))
  None
  None
  None
  None
  (Some (Build_desc None [(-1)%Z] [] None))
  (Some (bs "ZM")) (Some (260)%Z) (Some (bs "00")) None (Some (bs "0"))
  None (Some (bs "0")) None None
  [Build_nfmt (Some (bs "(\d{3})(\d{3})")) (Some (bs "$1 $2")) [bs "[1-9]"] None None None;
    Build_nfmt (Some (bs "(\d{3})(\d{3})(\d{3})")) (Some (bs "$1 $2 $3")) [bs "[28]"] (Some (bs "0$1")) None None;
    Build_nfmt (Some (bs "(\d{2})(\d{7})")) (Some (bs "$1 $2")) [bs "[579]"] (Some (bs "0$1")) None None]
  [Build_nfmt (Some (bs "(\d{3})(\d{3})(\d{3})")) (Some (bs "$1 $2 $3")) [bs "[28]"] (Some (bs "0$1")) None None;
    Build_nfmt (Some (bs "(\d{2})(\d{7})")) (Some (bs "$1 $2")) [bs "[579]"] (Some (bs "0$1")) None None]
  None None None.

Definition md_ZW : meta := Eval vm_compute in Build_meta
  (Some (Build_desc (Some (bs "2(?:[0-57-9]\d{6,8}|6[0-24-9]\d{6,7})|[38]\d{9}|[35-8]\d{8}|[3-6]\d{7}|[1-689]\d{6}|[1-3569]\d{5}|[1356]\d{4}")) [(5)%Z; (6)%Z; (7)%Z; (8)%Z; (9)%Z; (10)%Z] [(3)%Z; (4)%Z] None))
  (Some (Build_desc (Some (bs "(?:1(?:(?:3\d|9)\d|[4-8])|2(?:(?:(?:0(?:2[014]|5)|(?:2[0157]|31|84|9)\d\d|[56](?:[14]\d\d|20)|7(?:[089]|2[03]|[35]\d\d))\d|4(?:2\d\d|8))\d|1(?:2|[39]\d{4}))|3(?:(?:123|(?:29\d|92)\d)\d\d|7(?:[19]|[56]\d))|5(?:0|1[2-478]|26|[37]2|4(?:2\d{3}|83)|5(?:25\d\d|[78])|[689]\d)|6(?:(?:[16-8]21|28|52[013])\d\d|[39])|8(?:[1349]28|523)\d\d)\d{3}|(?:4\d\d|9[2-9])\d{4,5}|(?:(?:2(?:(?:(?:0|8[146])\d|7[1-7])\d|2(?:[278]\d|92)|58(?:2\d|3))|3(?:[26]|9\d{3})|5(?:4\d|5)\d\d)\d|6(?:(?:(?:[0-246]|[78]\d)\d|37)\d|5[2-8]))\d\d|(?:2(?:[569]\d|8[2-57-9])|3(?:[013-59]\d|8[37])|6[89]8)\d{3}")) [] [(3)%Z; (4)%Z] (Some (bs "1312345"))))
  (Some (Build_desc (Some (bs "7(?:[1278]\d|3[1-9]|9[01])\d{6}")) [(9)%Z] [] (Some (bs "712345678"))))
  (Some (Build_desc (Some (bs "80(?:[01]\d|20|8[0-8])\d{3}")) [(7)%Z] [] (Some (bs "8001234"))))
  (Some (Build_desc None [(-1)%Z] [] None))
  (Some (Build_desc None [(-1)%Z] [] None))
  (Some (Build_desc None [(-1)%Z] [] None))
  (Some (Build_desc (Some (bs "86(?:1[12]|22|30|44|55|77|8[368])\d{6}")) [(10)%Z] [] (Some (bs "8686123456"))))
  (Some (Build_desc None [(-1)%Z] [] None))
  (Some (Build_desc None [(-1)%Z] [] None))
  None
  (Some (Build_desc None [(-1)%Z] [] None))
  None
  None
  None
  None
  (Some (Build_desc None [(-1)%Z] [] None))
  (Some (bs "ZW")) (Some (263)%Z) (Some (bs "00")) None (Some (bs "0"))
  None (Some (bs "0")) None None
  [Build_nfmt (Some (bs "(\d{3})(\d{3,5})")) (Some (bs "$1 $2")) [bs "2(?:0[45]|2[278]|[49]8)|3(?:[09]8|17)|6(?:[29]8|37|75)|[23][78]|(?:33|5[15]|6[68])[78]"] (Some (bs "0$1")) None None;
    Build_nfmt (Some (bs "(\d)(\d{3})(\d{2,4})")) (Some (bs "$1 $2 $3")) [bs "[49]"] (Some (bs "0$1")) None None;
    Build_nfmt (Some (bs "(\d{3})(\d{4})")) (Some (bs "$1 $2")) [bs "80"] (Some (bs "0$1")) None None;
    Build_nfmt (Some (bs "(\d{2})(\d{7})")) (Some (bs "$1 $2")) [bs "24|8[13-59]|(?:2[05-79]|39|5[45]|6[15-8])2"; bs "2(?:02[014]|4|[56]20|[79]2)|392|5(?:42|525)|6(?:[16-8]21|52[013])|8[13-59]"] (Some (bs "(0$1)")) None None;
    Build_nfmt (Some (bs "(\d{2})(\d{3})(\d{4})")) (Some (bs "$1 $2 $3")) [bs "7"] (Some (bs "0$1")) None None;
    Build_nfmt (Some (bs "(\d{3})(\d{3})(\d{3,4})")) (Some (bs "$1 $2 $3")) [bs "2(?:1[39]|2[0157]|[378]|[56][14])|3(?:12|29)"; bs "2(?:1[39]|2[0157]|[378]|[56][14])|3(?:123|29)"] (Some (bs "0$1")) None None;
    Build_nfmt (Some (bs "(\d{4})(\d{6})")) (Some (bs "$1 $2")) [bs "8"] (Some (bs "0$1")) None None;
    Build_nfmt (Some (bs "(\d{2})(\d{3,5})")) (Some (bs "$1 $2")) [bs "1|2(?:0[0-36-9]|12|29|[56])|3(?:1[0-689]|[24-6])|5(?:[0236-9]|1[2-4])|6(?:[013-59]|7[0-46-9])|(?:33|55|6[68])[0-69]|(?:29|3[09]|62)[0-79]"] (Some (bs "0$1")) None None;
    Build_nfmt (Some (bs "(\d{2})(\d{3})(\d{3,4})")) (Some (bs "$1 $2 $3")) [bs "29[013-9]|39|54"] (Some (bs "0$1")) None None;
    Build_nfmt (Some (bs "(\d{4})(\d{3,5})")) (Some (bs "$1 $2")) [bs "(?:25|54)8"; bs "258|5483"] (Some (bs "0$1")) None None]
  []
  None None None.

Definition md_001_800 : meta := Eval vm_compute in Build_meta
  (Some (Build_desc (Some (bs "(?:00|[1-9]\d)\d{6}")) [(8)%Z] [] None))
  (Some (Build_desc None [(-1)%Z] [] None))
  (Some (Build_desc None [(-1)%Z] [] None))
  (Some (Build_desc (Some (bs "(?:00|[1-9]\d)\d{6}")) [] [] (Some (bs "12345678"))))
  (Some (Build_desc None [(-1)%Z] [] None))
  (Some (Build_desc None [(-1)%Z] [] None))
  (Some (Build_desc None [(-1)%Z] [] None))
  (Some (Build_desc None [(-1)%Z] [] None))
  (Some (Build_desc None [(-1)%Z] [] None))
  (Some (Build_desc None [(-1)%Z] [] None))
  None
  (Some (Build_desc None [(-1)%Z] [] None))
  None
  None
  None
  None
  (Some (Build_desc None [(-1)%Z] [] None))
  (Some (bs "001")) (Some (800)%Z) None None None
  None None None (Some true)
  [Build_nfmt (Some (bs "(\d{4})(\d{4})")) (Some (bs "$1 $2")) [bs "\d"] None None None]
  []
  None None None.

Definition md_001_808 : meta := Eval vm_compute in Build_meta
  (Some (Build_desc (Some (bs "[1-9]\d{7}")) [(8)%Z] [] None))
  (Some (Build_desc None [(-1)%Z] [] None))
  (Some (Build_desc None [(-1)%Z] [] None))
  (Some (Build_desc None [(-1)%Z] [] None))
  (Some (Build_desc None [(-1)%Z] [] None))
  (Some (Build_desc (Some (bs "[1-9]\d{7}")) [] [] (Some (bs "12345678"))))
  (Some (Build_desc None [(-1)%Z] [] None))
  (Some (Build_desc None [(-1)%Z] [] None))
  (Some (Build_desc None [(-1)%Z] [] None))
  (Some (Build_desc None [(-1)%Z] [] None))
  None
  (Some (Build_desc None [(-1)%Z] [] None))
  None
  None
  None
  None
  (Some (Build_desc None [(-1)%Z] [] None))
  (Some (bs "001")) (Some (808)%Z) None None None
  None None None (Some true)
  [Build_nfmt (Some (bs "(\d{4})(\d{4})")) (Some (bs "$1 $2")) [bs "[1-9]"] None None None]
  []
  None None None.

Definition md_001_870 : meta := Eval vm_compute in Build_meta
  (Some (Build_desc (Some (bs "7\d{11}|[235-7]\d{8}")) [(9)%Z; (12)%Z] [] None))
  (Some (Build_desc None [(-1)%Z] [] None))
  (Some (Build_desc (Some (bs "(?:[356]|774[45])\d{8}|7[6-8]\d{7}")) [] [] (Some (bs "301234567"))))
  (Some (Build_desc None [(-1)%Z] [] None))
  (Some (Build_desc None [(-1)%Z] [] None))
  (Some (Build_desc None [(-1)%Z] [] None))
  (Some (Build_desc None [(-1)%Z] [] None))
  (Some (Build_desc (Some (bs "2\d{8}")) [(9)%Z] [] (Some (bs "201234567"))))
  (Some (Build_desc None [(-1)%Z] [] None))
  (Some (Build_desc None [(-1)%Z] [] None))
  None
  (Some (Build_desc None [(-1)%Z] [] None))
  None
  None
  None
  None
  (Some (Build_desc None [(-1)%Z] [] None))
  (Some (bs "001")) (Some (870)%Z) None None None
  None None None None
  [Build_nfmt (Some (bs "(\d{3})(\d{3})(\d{3})")) (Some (bs "$1 $2 $3")) [bs "[235-7]"] None None None]
  []
  None None None.

Definition md_001_878 : meta := Eval vm_compute in Build_meta
  (Some (Build_desc (Some (bs "10\d{10}")) [(12)%Z] [] None))
  (Some (Build_desc None [(-1)%Z] [] None))
  (Some (Build_desc None [(-1)%Z] [] None))
  (Some (Build_desc None [(-1)%Z] [] None))
  (Some (Build_desc None [(-1)%Z] [] None))
  (Some (Build_desc None [(-1)%Z] [] None))
  (Some (Build_desc None [(-1)%Z] [] None))
  (Some (Build_desc (Some (bs "10\d{10}")) [] [] (Some (bs "101234567890"))))
  (Some (Build_desc None [(-1)%Z] [] None))
  (Some (Build_desc None [(-1)%Z] [] None))
  None
  (Some (Build_desc None [(-1)%Z] [] None))
  None
  None
  None
  None
  (Some (Build_desc None [(-1)%Z] [] None))
  (Some (bs "001")) (Some (878)%Z) None None None
  None None None (Some true)
  [Build_nfmt (Some (bs "(\d{2})(\d{5})(\d{5})")) (Some (bs "$1 $2 $3")) [bs "1"] None None None]
  []
  None None None.

Definition md_001_881 : meta := Eval vm_compute in Build_meta
  (Some (Build_desc (Some (bs "6\d{9}|[0-36-9]\d{8}")) [(9)%Z; (10)%Z] [] None))
  (Some (Build_desc None [(-1)%Z] [] None))
  (Some (Build_desc (Some (bs "6\d{9}|[0-36-9]\d{8}")) [] [] (Some (bs "612345678"))))
  (Some (Build_desc None [(-1)%Z] [] None))
  (Some (Build_desc None [(-1)%Z] [] None))
  (Some (Build_desc None [(-1)%Z] [] None))
  (Some (Build_desc None [(-1)%Z] [] None))
  (Some (Build_desc None [(-1)%Z] [] None))
  (Some (Build_desc None [(-1)%Z] [] None))
  (Some (Build_desc None [(-1)%Z] [] None))
  None
  (Some (Build_desc None [(-1)%Z] [] None))
  None
  None
  None
  None
  (Some (Build_desc None [(-1)%Z] [] None))
  (Some (bs "001")) (Some (881)%Z) None None None
  None None None None
  [Build_nfmt (Some (bs "(\d)(\d{3})(\d{5})")) (Some (bs "$1 $2 $3")) [bs "[0-37-9]"] None None None;
    Build_nfmt (Some (bs "(\d)(\d{3})(\d{5,6})")) (Some (bs "$1 $2 $3")) [bs "6"] None None None]
  []
  None None None.

Definition md_001_882 : meta := Eval vm_compute in Build_meta
  (Some (Build_desc (Some (bs "[13]\d{6}(?:\d{2,5})?|[19]\d{7}|(?:[25]\d\d|4)\d{7}(?:\d{2})?")) [(7)%Z; (8)%Z; (9)%Z; (10)%Z; (11)%Z; (12)%Z] [] None))
  (Some (Build_desc None [(-1)%Z] [] None))
  (Some (Build_desc (Some (bs "342\d{4}|(?:337|49)\d{6}|(?:3(?:2|47|7\d{3})|5(?:0\d{3}|2[0-2]))\d{7}")) [(7)%Z; (8)%Z; (9)%Z; (10)%Z; (12)%Z] [] (Some (bs "3421234"))))
  (Some (Build_desc None [(-1)%Z] [] None))
  (Some (Build_desc None [(-1)%Z] [] None))
  (Some (Build_desc None [(-1)%Z] [] None))
  (Some (Build_desc None [(-1)%Z] [] None))
  (Some (Build_desc (Some (bs "1(?:3(?:0[0347]|[13][0139]|2[035]|4[013568]|6[0459]|7[06]|8[15-8]|9[0689])\d{4}|6\d{5,10})|(?:345\d|9[89])\d{6}|(?:10|2(?:3|85\d)|3(?:[15]|[69]\d\d)|4[15-8]|51)\d{8}")) [] [] (Some (bs "390123456789"))))
  (Some (Build_desc None [(-1)%Z] [] None))
  (Some (Build_desc None [(-1)%Z] [] None))
  None
  (Some (Build_desc (Some (bs "348[57]\d{7}")) [(11)%Z] [] (Some (bs "34851234567"))))
  None
  None
  None
  None
  (Some (Build_desc None [(-1)%Z] [] None))
  (Some (bs "001")) (Some (882)%Z) None None None
  None None None None
  [Build_nfmt (Some (bs "(\d{2})(\d{5})")) (Some (bs "$1 $2")) [bs "16|342"] None None None;
    Build_nfmt (Some (bs "(\d{2})(\d{6})")) (Some (bs "$1 $2")) [bs "49"] None None None;
    Build_nfmt (Some (bs "(\d{2})(\d{2})(\d{4})")) (Some (bs "$1 $2 $3")) [bs "1[36]|9"] None None None;
    Build_nfmt (Some (bs "(\d{2})(\d{4})(\d{3})")) (Some (bs "$1 $2 $3")) [bs "3[23]"] None None None;
    Build_nfmt (Some (bs "(\d{2})(\d{3,4})(\d{4})")) (Some (bs "$1 $2 $3")) [bs "16"] None None None;
    Build_nfmt (Some (bs "(\d{2})(\d{4})(\d{4})")) (Some (bs "$1 $2 $3")) [bs "10|23|3(?:[15]|4[57])|4|5[12]"] None None None;
    Build_nfmt (Some (bs "(\d{3})(\d{4})(\d{4})")) (Some (bs "$1 $2 $3")) [bs "34"] None None None;
    Build_nfmt (Some (bs "(\d{2})(\d{4,5})(\d{5})")) (Some (bs "$1 $2 $3")) [bs "[1-35]"] None None None]
  []
  None None None.

Definition md_001_883 : meta := Eval vm_compute in Build_meta
  (Some (Build_desc (Some (bs "(?:[1-4]\d|51)\d{6,10}")) [(8)%Z; (9)%Z; (10)%Z; (11)%Z; (12)%Z] [] None))
  (Some (Build_desc None [(-1)%Z] [] None))
  (Some (Build_desc None [(-1)%Z] [] None))
  (Some (Build_desc None [(-1)%Z] [] None))
  (Some (Build_desc None [(-1)%Z] [] None))
  (Some (Build_desc None [(-1)%Z] [] None))
  (Some (Build_desc None [(-1)%Z] [] None))
  (Some (Build_desc (Some (bs "(?:2(?:00\d\d|10)|(?:370[1-9]|51\d0)\d)\d{7}|51(?:00\d{5}|[24-9]0\d{4,7})|(?:1[0-79]|2[24-689]|3[02-689]|4[0-4])0\d{5,9}")) [] [] (Some (bs "510012345"))))
  (Some (Build_desc None [(-1)%Z] [] None))
  (Some (Build_desc None [(-1)%Z] [] None))
  None
  (Some (Build_desc None [(-1)%Z] [] None))
  None
  None
  None
  None
  (Some (Build_desc None [(-1)%Z] [] None))
  (Some (bs "001")) (Some (883)%Z) None None None
  None None None (Some true)
  [Build_nfmt (Some (bs "(\d{3})(\d{3})(\d{2,8})")) (Some (bs "$1 $2 $3")) [bs "[14]|2[24-689]|3[02-689]|51[24-9]"] None None None;
    Build_nfmt (Some (bs "(\d{3})(\d{3})(\d{3})")) (Some (bs "$1 $2 $3")) [bs "510"] None None None;
    Build_nfmt (Some (bs "(\d{3})(\d{3})(\d{4})")) (Some (bs "$1 $2 $3")) [bs "21"] None None None;
    Build_nfmt (Some (bs "(\d{4})(\d{4})(\d{4})")) (Some (bs "$1 $2 $3")) [bs "51[13]"] None None None;
    Build_nfmt (Some (bs "(\d{3})(\d{3})(\d{3})(\d{3})")) (Some (bs "$1 $2 $3 $4")) [bs "[235]"] None None None]
  []
  None None None.

Definition md_001_888 : meta := Eval vm_compute in Build_meta
  (Some (Build_desc (Some (bs "\d{11}")) [(11)%Z] [] None))
  (Some (Build_desc None [(-1)%Z] [] None))
  (Some (Build_desc None [(-1)%Z] [] None))
  (Some (Build_desc None [(-1)%Z] [] None))
  (Some (Build_desc None [(-1)%Z] [] None))
  (Some (Build_desc None [(-1)%Z] [] None))
  (Some (Build_desc None [(-1)%Z] [] None))
  (Some (Build_desc None [(-1)%Z] [] None))
  (Some (Build_desc None [(-1)%Z] [] None))
  (Some (Build_desc (Some (bs "\d{11}")) [] [] (Some (bs "12345678901"))))
  None
  (Some (Build_desc None [(-1)%Z] [] None))
  None
  None
  None
  None
  (Some (Build_desc None [(-1)%Z] [] None))
  (Some (bs "001")) (Some (888)%Z) None None None
  None None None (Some true)
  [Build_nfmt (Some (bs "(\d{3})(\d{3})(\d{5})")) (Some (bs "$1 $2 $3")) [] None None None]
  []
  None None None.

Definition md_001_979 : meta := Eval vm_compute in Build_meta
  (Some (Build_desc (Some (bs "[1359]\d{8}")) [(9)%Z] [(8)%Z] None))
  (Some (Build_desc None [(-1)%Z] [] None))
  (Some (Build_desc None [(-1)%Z] [] None))
  (Some (Build_desc None [(-1)%Z] [] None))
  (Some (Build_desc (Some (bs "[1359]\d{8}")) [] [(8)%Z] (Some (bs "123456789"))))
  (Some (Build_desc None [(-1)%Z] [] None))
  (Some (Build_desc None [(-1)%Z] [] None))
  (Some (Build_desc None [(-1)%Z] [] None))
  (Some (Build_desc None [(-1)%Z] [] None))
  (Some (Build_desc None [(-1)%Z] [] None))
  None
  (Some (Build_desc None [(-1)%Z] [] None))
  None
  None
  None
  None
  (Some (Build_desc None [(-1)%Z] [] None))
  (Some (bs "001")) (Some (979)%Z) None None None
  None None None (Some true)
  [Build_nfmt (Some (bs "(\d)(\d{4})(\d{4})")) (Some (bs "$1 $2 $3")) [bs "[1359]"] None None None]
  []
  None None None.

(** The metadata collection, in file order. *)
Definition shipped_collection : list meta :=
  [md_AC;
   md_AD;
   md_AE;
   md_AF;
   md_AG;
   md_AI;
   md_AL;
   md_AM;
   md_AO;
   md_AR;
   md_AS;
   md_AT;
   md_AU;
   md_AW;
   md_AX;
   md_AZ;
   md_BA;
   md_BB;
   md_BD;
   md_BE;
   md_BF;
   md_BG;
   md_BH;
   md_BI;
   md_BJ;
   md_BL;
   md_BM;
   md_BN;
   md_BO;
   md_BQ;
   md_BR;
   md_BS;
   md_BT;
   md_BW;
   md_BY;
   md_BZ;
   md_CA;
   md_CC;
   md_CD;
   md_CF;
   md_CG;
   md_CH;
   md_CI;
   md_CK;
   md_CL;
   md_CM;
   md_CN;
   md_CO;
   md_CR;
   md_CU;
   md_CV;
   md_CW;
   md_CX;
   md_CY;
   md_CZ;
   md_DE;
   md_DJ;
   md_DK;
   md_DM;
   md_DO;
   md_DZ;
   md_EC;
   md_EE;
   md_EG;
   md_EH;
   md_ER;
   md_ES;
   md_ET;
   md_FI;
   md_FJ;
   md_FK;
   md_FM;
   md_FO;
   md_FR;
   md_GA;
   md_GB;
   md_GD;
   md_GE;
   md_GF;
   md_GG;
   md_GH;
   md_GI;
   md_GL;
   md_GM;
   md_GN;
   md_GP;
   md_GQ;
   md_GR;
   md_GT;
   md_GU;
   md_GW;
   md_GY;
   md_HK;
   md_HN;
   md_HR;
   md_HT;
   md_HU;
   md_ID;
   md_IE;
   md_IL;
   md_IM;
   md_IN;
   md_IO;
   md_IQ;
   md_IR;
   md_IS;
   md_IT;
   md_JE;
   md_JM;
   md_JO;
   md_JP;
   md_KE;
   md_KG;
   md_KH;
   md_KI;
   md_KM;
   md_KN;
   md_KP;
   md_KR;
   md_KW;
   md_KY;
   md_KZ;
   md_LA;
   md_LB;
   md_LC;
   md_LI;
   md_LK;
   md_LR;
   md_LS;
   md_LT;
   md_LU;
   md_LV;
   md_LY;
   md_MA;
   md_MC;
   md_MD;
   md_ME;
   md_MF;
   md_MG;
   md_MH;
   md_MK;
   md_ML;
   md_MM;
   md_MN;
   md_MO;
   md_MP;
   md_MQ;
   md_MR;
   md_MS;
   md_MT;
   md_MU;
   md_MV;
   md_MW;
   md_MX;
   md_MY;
   md_MZ;
   md_NA;
   md_NC;
   md_NE;
   md_NF;
   md_NG;
   md_NI;
   md_NL;
   md_NO;
   md_NP;
   md_NR;
   md_NU;
   md_NZ;
   md_OM;
   md_PA;
   md_PE;
   md_PF;
   md_PG;
   md_PH;
   md_PK;
   md_PL;
   md_PM;
   md_PR;
   md_PS;
   md_PT;
   md_PW;
   md_PY;
   md_QA;
   md_RE;
   md_RO;
   md_RS;
   md_RU;
   md_RW;
   md_SA;
   md_SB;
   md_SC;
   md_SD;
   md_SE;
   md_SG;
   md_SH;
   md_SI;
   md_SJ;
   md_SK;
   md_SL;
   md_SM;
   md_SN;
   md_SO;
   md_SR;
   md_SS;
   md_ST;
   md_SV;
   md_SX;
   md_SY;
   md_SZ;
   md_TA;
   md_TC;
   md_TD;
   md_TG;
   md_TH;
   md_TJ;
   md_TK;
   md_TL;
   md_TM;
   md_TN;
   md_TO;
   md_TR;
   md_TT;
   md_TV;
   md_TW;
   md_TZ;
   md_UA;
   md_UG;
   md_US;
   md_UY;
   md_UZ;
   md_VA;
   md_VC;
   md_VE;
   md_VG;
   md_VI;
   md_VN;
   md_VU;
   md_WF;
   md_WS;
   md_XK;
   md_YE;
   md_YT;
   md_ZA;
   md_ZM;
   md_ZW;
   md_001_800;
   md_001_808;
   md_001_870;
   md_001_878;
   md_001_881;
   md_001_882;
   md_001_883;
   md_001_888;
   md_001_979].

(** The decoded country-calling-code map, in file order. *)
Definition shipped_cc2region : list (Z * list bytes) := Eval vm_compute in
  [(1%Z, [bs "US"; bs "AG"; bs "AI"; bs "AS"; bs "BB"; bs "BM"; bs "BS"; bs "CA"; bs "DM"; bs "DO"; bs "GD"; bs "GU"; bs "JM"; bs "KN"; bs "KY"; bs "LC"; bs "MP"; bs "MS"; bs "PR"; bs "SX"; bs "TC"; bs "TT"; bs "VC"; bs "VG"; bs "VI"]);
   (7%Z, [bs "RU"; bs "KZ"]);
   (20%Z, [bs "EG"]);
   (27%Z, [bs "ZA"]);
   (30%Z, [bs "GR"]);
   (31%Z, [bs "NL"]);
   (32%Z, [bs "BE"]);
   (33%Z, [bs "FR"]);
   (34%Z, [bs "ES"]);
   (36%Z, [bs "HU"]);
   (39%Z, [bs "IT"; bs "VA"]);
   (40%Z, [bs "RO"]);
   (41%Z, [bs "CH"]);
   (43%Z, [bs "AT"]);
   (44%Z, [bs "GB"; bs "GG"; bs "IM"; bs "JE"]);
   (45%Z, [bs "DK"]);
   (46%Z, [bs "SE"]);
   (47%Z, [bs "NO"; bs "SJ"]);
   (48%Z, [bs "PL"]);
   (49%Z, [bs "DE"]);
   (51%Z, [bs "PE"]);
   (52%Z, [bs "MX"]);
   (53%Z, [bs "CU"]);
   (54%Z, [bs "AR"]);
   (55%Z, [bs "BR"]);
   (56%Z, [bs "CL"]);
   (57%Z, [bs "CO"]);
   (58%Z, [bs "VE"]);
   (60%Z, [bs "MY"]);
   (61%Z, [bs "AU"; bs "CC"; bs "CX"]);
   (62%Z, [bs "ID"]);
   (63%Z, [bs "PH"]);
   (64%Z, [bs "NZ"]);
   (65%Z, [bs "SG"]);
   (66%Z, [bs "TH"]);
   (81%Z, [bs "JP"]);
   (82%Z, [bs "KR"]);
   (84%Z, [bs "VN"]);
   (86%Z, [bs "CN"]);
   (90%Z, [bs "TR"]);
   (91%Z, [bs "IN"]);
   (92%Z, [bs "PK"]);
   (93%Z, [bs "AF"]);
   (94%Z, [bs "LK"]);
   (95%Z, [bs "MM"]);
   (98%Z, [bs "IR"]);
   (211%Z, [bs "SS"]);
   (212%Z, [bs "MA"; bs "EH"]);
   (213%Z, [bs "DZ"]);
   (216%Z, [bs "TN"]);
   (218%Z, [bs "LY"]);
   (220%Z, [bs "GM"]);
   (221%Z, [bs "SN"]);
   (222%Z, [bs "MR"]);
   (223%Z, [bs "ML"]);
   (224%Z, [bs "GN"]);
   (225%Z, [bs "CI"]);
   (226%Z, [bs "BF"]);
   (227%Z, [bs "NE"]);
   (228%Z, [bs "TG"]);
   (229%Z, [bs "BJ"]);
   (230%Z, [bs "MU"]);
   (231%Z, [bs "LR"]);
   (232%Z, [bs "SL"]);
   (233%Z, [bs "GH"]);
   (234%Z, [bs "NG"]);
   (235%Z, [bs "TD"]);
   (236%Z, [bs "CF"]);
   (237%Z, [bs "CM"]);
   (238%Z, [bs "CV"]);
   (239%Z, [bs "ST"]);
   (240%Z, [bs "GQ"]);
   (241%Z, [bs "GA"]);
   (242%Z, [bs "CG"]);
   (243%Z, [bs "CD"]);
   (244%Z, [bs "AO"]);
   (245%Z, [bs "GW"]);
   (246%Z, [bs "IO"]);
   (247%Z, [bs "AC"]);
   (248%Z, [bs "SC"]);
   (249%Z, [bs "SD"]);
   (250%Z, [bs "RW"]);
   (251%Z, [bs "ET"]);
   (252%Z, [bs "SO"]);
   (253%Z, [bs "DJ"]);
   (254%Z, [bs "KE"]);
   (255%Z, [bs "TZ"]);
   (256%Z, [bs "UG"]);
   (257%Z, [bs "BI"]);
   (258%Z, [bs "MZ"]);
   (260%Z, [bs "ZM"]);
   (261%Z, [bs "MG"]);
   (262%Z, [bs "RE"; bs "YT"]);
   (263%Z, [bs "ZW"]);
   (264%Z, [bs "NA"]);
   (265%Z, [bs "MW"]);
   (266%Z, [bs "LS"]);
   (267%Z, [bs "BW"]);
   (268%Z, [bs "SZ"]);
   (269%Z, [bs "KM"]);
   (290%Z, [bs "SH"; bs "TA"]);
   (291%Z, [bs "ER"]);
   (297%Z, [bs "AW"]);
   (298%Z, [bs "FO"]);
   (299%Z, [bs "GL"]);
   (350%Z, [bs "GI"]);
   (351%Z, [bs "PT"]);
   (352%Z, [bs "LU"]);
   (353%Z, [bs "IE"]);
   (354%Z, [bs "IS"]);
   (355%Z, [bs "AL"]);
   (356%Z, [bs "MT"]);
   (357%Z, [bs "CY"]);
   (358%Z, [bs "FI"; bs "AX"]);
   (359%Z, [bs "BG"]);
   (370%Z, [bs "LT"]);
   (371%Z, [bs "LV"]);
   (372%Z, [bs "EE"]);
   (373%Z, [bs "MD"]);
   (374%Z, [bs "AM"]);
   (375%Z, [bs "BY"]);
   (376%Z, [bs "AD"]);
   (377%Z, [bs "MC"]);
   (378%Z, [bs "SM"]);
   (380%Z, [bs "UA"]);
   (381%Z, [bs "RS"]);
   (382%Z, [bs "ME"]);
   (383%Z, [bs "XK"]);
   (385%Z, [bs "HR"]);
   (386%Z, [bs "SI"]);
   (387%Z, [bs "BA"]);
   (389%Z, [bs "MK"]);
   (420%Z, [bs "CZ"]);
   (421%Z, [bs "SK"]);
   (423%Z, [bs "LI"]);
   (500%Z, [bs "FK"]);
   (501%Z, [bs "BZ"]);
   (502%Z, [bs "GT"]);
   (503%Z, [bs "SV"]);
   (504%Z, [bs "HN"]);
   (505%Z, [bs "NI"]);
   (506%Z, [bs "CR"]);
   (507%Z, [bs "PA"]);
   (508%Z, [bs "PM"]);
   (509%Z, [bs "HT"]);
   (590%Z, [bs "GP"; bs "BL"; bs "MF"]);
   (591%Z, [bs "BO"]);
   (592%Z, [bs "GY"]);
   (593%Z, [bs "EC"]);
   (594%Z, [bs "GF"]);
   (595%Z, [bs "PY"]);
   (596%Z, [bs "MQ"]);
   (597%Z, [bs "SR"]);
   (598%Z, [bs "UY"]);
   (599%Z, [bs "CW"; bs "BQ"]);
   (670%Z, [bs "TL"]);
   (672%Z, [bs "NF"]);
   (673%Z, [bs "BN"]);
   (674%Z, [bs "NR"]);
   (675%Z, [bs "PG"]);
   (676%Z, [bs "TO"]);
   (677%Z, [bs "SB"]);
   (678%Z, [bs "VU"]);
   (679%Z, [bs "FJ"]);
   (680%Z, [bs "PW"]);
   (681%Z, [bs "WF"]);
   (682%Z, [bs "CK"]);
   (683%Z, [bs "NU"]);
   (685%Z, [bs "WS"]);
   (686%Z, [bs "KI"]);
   (687%Z, [bs "NC"]);
   (688%Z, [bs "TV"]);
   (689%Z, [bs "PF"]);
   (690%Z, [bs "TK"]);
   (691%Z, [bs "FM"]);
   (692%Z, [bs "MH"]);
   (800%Z, [bs "001"]);
   (808%Z, [bs "001"]);
   (850%Z, [bs "KP"]);
   (852%Z, [bs "HK"]);
   (853%Z, [bs "MO"]);
   (855%Z, [bs "KH"]);
   (856%Z, [bs "LA"]);
   (870%Z, [bs "001"]);
   (878%Z, [bs "001"]);
   (880%Z, [bs "BD"]);
   (881%Z, [bs "001"]);
   (882%Z, [bs "001"]);
   (883%Z, [bs "001"]);
   (886%Z, [bs "TW"]);
   (888%Z, [bs "001"]);
   (960%Z, [bs "MV"]);
   (961%Z, [bs "LB"]);
   (962%Z, [bs "JO"]);
   (963%Z, [bs "SY"]);
   (964%Z, [bs "IQ"]);
   (965%Z, [bs "KW"]);
   (966%Z, [bs "SA"]);
   (967%Z, [bs "YE"]);
   (968%Z, [bs "OM"]);
   (970%Z, [bs "PS"]);
   (971%Z, [bs "AE"]);
   (972%Z, [bs "IL"]);
   (973%Z, [bs "BH"]);
   (974%Z, [bs "QA"]);
   (975%Z, [bs "BT"]);
   (976%Z, [bs "MN"]);
   (977%Z, [bs "NP"]);
   (979%Z, [bs "001"]);
   (992%Z, [bs "TJ"]);
   (993%Z, [bs "TM"]);
   (994%Z, [bs "AZ"]);
   (995%Z, [bs "GE"]);
   (996%Z, [bs "KG"]);
   (998%Z, [bs "UZ"])].

(** The gunzipped bytes of countrycode_to_region.xml.gz. *)
Definition shipped_region_blob : bytes :=
  [226; 2; 0; 0; 48; 48; 49; 10; 65; 67; 10; 65; 68; 10; 65; 69; 10; 65; 70; 10; 65; 71; 10; 65; 73; 10; 65; 76; 10; 65; 77; 10; 65; 79; 10; 65; 82; 10; 65; 83; 10; 65; 84; 10; 65; 85; 10; 65; 87; 10; 65; 88; 10; 65; 90; 10; 66; 65; 10; 66; 66; 10; 66; 68; 10; 66; 69; 10; 66; 70; 10; 66; 71; 10; 66; 72; 10; 66; 73; 10; 66; 74; 10; 66; 76; 10; 66; 77; 10; 66; 78; 10; 66; 79; 10; 66; 81; 10; 66; 82; 10; 66; 83; 10; 66; 84; 10; 66; 87; 10; 66; 89; 10; 66; 90; 10; 67; 65; 10; 67; 67; 10; 67; 68; 10; 67; 70; 10; 67; 71; 10; 67; 72; 10; 67; 73; 10; 67; 75; 10; 67; 76; 10; 67; 77; 10; 67; 78; 10; 67; 79; 10; 67; 82; 10; 67; 85; 10; 67; 86; 10; 67; 87; 10; 67; 88; 10; 67; 89; 10; 67; 90; 10; 68; 69; 10; 68; 74; 10; 68; 75; 10; 68; 77; 10; 68; 79; 10; 68; 90; 10; 69; 67; 10; 69; 69; 10; 69; 71; 10; 69; 72; 10; 69; 82; 10; 69; 83; 10; 69; 84; 10; 70; 73; 10; 70; 74; 10; 70; 75; 10; 70; 77; 10; 70; 79; 10; 70; 82; 10; 71; 65; 10; 71; 66; 10; 71; 68; 10; 71; 69; 10; 71; 70; 10; 71; 71; 10; 71; 72; 10; 71; 73; 10; 71; 76; 10; 71; 77; 10; 71; 78; 10; 71; 80; 10; 71; 81; 10; 71; 82; 10; 71; 84; 10; 71; 85; 10; 71; 87; 10; 71; 89; 10; 72; 75; 10; 72; 78; 10; 72; 82; 10; 72; 84; 10; 72; 85; 10; 73; 68; 10; 73; 69; 10; 73; 76; 10; 73; 77; 10; 73; 78; 10; 73; 79; 10; 73; 81; 10; 73; 82; 10; 73; 83; 10; 73; 84; 10; 74; 69; 10; 74; 77; 10; 74; 79; 10; 74; 80; 10; 75; 69; 10; 75; 71; 10; 75; 72; 10; 75; 73; 10; 75; 77; 10; 75; 78; 10; 75; 80; 10; 75; 82; 10; 75; 87; 10; 75; 89; 10; 75; 90; 10; 76; 65; 10; 76; 66; 10; 76; 67; 10; 76; 73; 10; 76; 75; 10; 76; 82; 10; 76; 83; 10; 76; 84; 10; 76; 85; 10; 76; 86; 10; 76; 89; 10; 77; 65; 10; 77; 67; 10; 77; 68; 10; 77; 69; 10; 77; 70; 10; 77; 71; 10; 77; 72; 10; 77; 75; 10; 77; 76; 10; 77; 77; 10; 77; 78; 10; 77; 79; 10; 77; 80; 10; 77; 81; 10; 77; 82; 10; 77; 83; 10; 77; 84; 10; 77; 85; 10; 77; 86; 10; 77; 87; 10; 77; 88; 10; 77; 89; 10; 77; 90; 10; 78; 65; 10; 78; 67; 10; 78; 69; 10; 78; 70; 10; 78; 71; 10; 78; 73; 10; 78; 76; 10; 78; 79; 10; 78; 80; 10; 78; 82; 10; 78; 85; 10; 78; 90; 10; 79; 77; 10; 80; 65; 10; 80; 69; 10; 80; 70; 10; 80; 71; 10; 80; 72; 10; 80; 75; 10; 80; 76; 10; 80; 77; 10; 80; 82; 10; 80; 83; 10; 80; 84; 10; 80; 87; 10; 80; 89; 10; 81; 65; 10; 82; 69; 10; 82; 79; 10; 82; 83; 10; 82; 85; 10; 82; 87; 10; 83; 65; 10; 83; 66; 10; 83; 67; 10; 83; 68; 10; 83; 69; 10; 83; 71; 10; 83; 72; 10; 83; 73; 10; 83; 74; 10; 83; 75; 10; 83; 76; 10; 83; 77; 10; 83; 78; 10; 83; 79; 10; 83; 82; 10; 83; 83; 10; 83; 84; 10; 83; 86; 10; 83; 88; 10; 83; 89; 10; 83; 90; 10; 84; 65; 10; 84; 67; 10; 84; 68; 10; 84; 71; 10; 84; 72; 10; 84; 74; 10; 84; 75; 10; 84; 76; 10; 84; 77; 10; 84; 78; 10; 84; 79; 10; 84; 82; 10; 84; 84; 10; 84; 86; 10; 84; 87; 10; 84; 90; 10; 85; 65; 10; 85; 71; 10; 85; 83; 10; 85; 89; 10; 85; 90; 10; 86; 65; 10; 86; 67; 10; 86; 69; 10; 86; 71; 10; 86; 73; 10; 86; 78; 10; 86; 85; 10; 87; 70; 10; 87; 83; 10; 88; 75; 10; 89; 69; 10; 89; 84; 10; 90; 65; 10; 90; 77; 10; 90; 87; 215; 0; 0; 0; 1; 25; 228; 0; 5; 0; 6; 0; 11; 0; 18; 0; 27; 0; 32; 0; 37; 0; 59; 0; 60; 0; 77; 0; 90; 0; 109; 0; 117; 0; 121; 0; 125; 0; 146; 0; 149; 0; 178; 0; 207; 0; 211; 0; 222; 0; 232; 0; 234; 0; 235; 0; 6; 2; 187; 0; 122; 0; 13; 1; 64; 0; 7; 1; 243; 0; 3; 1; 88; 0; 1; 1; 163; 0; 1; 1; 20; 0; 1; 1; 74; 0; 1; 1; 67; 0; 2; 1; 97; 0; 3; 2; 107; 0; 231; 0; 1; 1; 185; 0; 1; 1; 42; 0; 2; 1; 12; 0; 1; 4; 76; 0; 80; 0; 101; 0; 108; 0; 1; 1; 58; 0; 1; 1; 193; 0; 1; 2; 164; 0; 197; 0; 1; 1; 176; 0; 1; 1; 56; 0; 2; 1; 171; 0; 1; 1; 154; 0; 1; 1; 50; 0; 1; 1; 10; 0; 1; 1; 31; 0; 1; 1; 45; 0; 1; 1; 48; 0; 1; 1; 233; 0; 2; 1; 155; 0; 1; 3; 13; 0; 38; 0; 53; 0; 1; 1; 98; 0; 1; 1; 174; 0; 1; 1; 168; 0; 1; 1; 194; 0; 1; 1; 214; 0; 15; 1; 111; 0; 1; 1; 119; 0; 2; 1; 236; 0; 2; 1; 47; 0; 4; 1; 221; 0; 1; 1; 102; 0; 1; 1; 175; 0; 1; 1; 4; 0; 1; 1; 127; 0; 1; 1; 143; 0; 3; 1; 105; 0; 113; 1; 204; 0; 1; 2; 134; 0; 65; 0; 1; 1; 61; 0; 3; 1; 219; 0; 2; 1; 133; 0; 2; 1; 84; 0; 1; 1; 201; 0; 1; 1; 148; 0; 1; 1; 142; 0; 1; 1; 85; 0; 1; 1; 43; 0; 1; 1; 21; 0; 1; 1; 159; 0; 1; 1; 213; 0; 1; 1; 25; 0; 1; 1; 151; 0; 1; 1; 128; 0; 1; 1; 199; 0; 1; 1; 81; 0; 1; 1; 161; 0; 1; 1; 212; 0; 1; 1; 40; 0; 1; 1; 46; 0; 1; 1; 51; 0; 1; 1; 205; 0; 1; 1; 87; 0; 1; 1; 75; 0; 1; 1; 41; 0; 1; 1; 39; 0; 1; 1; 9; 0; 1; 1; 91; 0; 1; 1; 103; 0; 1; 1; 1; 0; 1; 1; 191; 0; 1; 1; 192; 0; 1; 1; 188; 0; 1; 1; 68; 0; 1; 1; 202; 0; 1; 1; 57; 0; 1; 1; 112; 0; 1; 1; 225; 0; 1; 1; 227; 0; 1; 1; 24; 0; 1; 1; 156; 0; 2; 1; 244; 0; 1; 1; 139; 0; 1; 2; 184; 0; 242; 0; 1; 1; 245; 0; 1; 1; 157; 0; 1; 1; 153; 0; 1; 1; 129; 0; 1; 1; 34; 0; 1; 1; 209; 0; 1; 1; 116; 0; 21; 2; 195; 0; 210; 0; 1; 1; 66; 0; 6; 1; 14; 0; 1; 1; 73; 0; 1; 1; 83; 0; 51; 1; 82; 0; 1; 1; 180; 0; 1; 1; 131; 0; 1; 1; 99; 0; 1; 1; 106; 0; 1; 1; 7; 0; 1; 1; 150; 0; 1; 1; 54; 0; 1; 2; 69; 0; 15; 0; 1; 1; 22; 0; 11; 1; 130; 0; 1; 1; 132; 0; 1; 1; 63; 0; 1; 1; 136; 0; 1; 1; 8; 0; 1; 1; 35; 0; 1; 1; 2; 0; 1; 1; 135; 0; 1; 1; 200; 0; 2; 1; 226; 0; 1; 1; 186; 0; 1; 1; 137; 0; 1; 1; 240; 0; 2; 1; 95; 0; 1; 1; 196; 0; 1; 1; 17; 0; 2; 1; 141; 0; 31; 1; 55; 0; 1; 1; 198; 0; 2; 1; 126; 0; 77; 1; 71; 0; 1; 1; 36; 0; 1; 1; 89; 0; 1; 1; 206; 0; 1; 1; 94; 0; 1; 1; 162; 0; 1; 1; 49; 0; 1; 1; 170; 0; 1; 1; 177; 0; 1; 1; 96; 0; 81; 3; 86; 0; 26; 0; 138; 0; 1; 1; 29; 0; 1; 1; 92; 0; 1; 1; 62; 0; 1; 1; 79; 0; 1; 1; 182; 0; 1; 1; 147; 0; 1; 1; 203; 0; 1; 1; 229; 0; 1; 2; 52; 0; 30; 0; 71; 1; 217; 0; 2; 1; 160; 0; 1; 1; 28; 0; 1; 1; 166; 0; 1; 1; 173; 0; 1; 1; 220; 0; 1; 1; 190; 0; 1; 1; 237; 0; 1; 1; 70; 0; 1; 1; 181; 0; 1; 1; 238; 0; 1; 1; 44; 0; 1; 1; 167; 0; 2; 1; 239; 0; 1; 1; 115; 0; 1; 1; 158; 0; 1; 1; 223; 0; 1; 1; 172; 0; 1; 1; 216; 0; 1; 1; 72; 0; 1; 1; 140; 0; 108; 1; 0; 0; 8; 1; 0; 0; 42; 1; 118; 0; 2; 1; 93; 0; 1; 1; 145; 0; 2; 1; 114; 0; 1; 1; 123; 0; 14; 1; 0; 0; 8; 1; 0; 0; 2; 1; 19; 0; 1; 1; 0; 0; 1; 1; 0; 0; 1; 1; 0; 0; 3; 1; 224; 0; 2; 1; 0; 0; 72; 1; 152; 0; 1; 1; 124; 0; 1; 1; 110; 0; 1; 1; 208; 0; 1; 1; 104; 0; 1; 1; 120; 0; 1; 1; 189; 0; 1; 1; 241; 0; 1; 1; 169; 0; 2; 1; 179; 0; 1; 1; 3; 0; 1; 1; 100; 0; 1; 1; 23; 0; 1; 1; 183; 0; 1; 1; 33; 0; 1; 1; 144; 0; 1; 1; 165; 0; 2; 1; 0; 0; 13; 1; 215; 0; 1; 1; 218; 0; 1; 1; 16; 0; 1; 1; 78; 0; 1; 1; 113; 0; 2; 1; 230; 0].
