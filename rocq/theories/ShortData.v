(** Generated by gen/metadata.py from data/shortnumber_metadata.xml.gz. Do not edit. *)
From Verif Require Import Base Types.

Definition sh_AC : meta := Eval vm_compute in Build_meta
  (Some (Build_desc (Some (bs "9\d\d")) [(3)%Z] [] None))
  None
  None
  (Some (Build_desc (Some (bs "9(?:11|99)")) [] [] (Some (bs "911"))))
  (Some (Build_desc None [(-1)%Z] [] None))
  None
  None
  None
  None
  None
  (Some (Build_desc (Some (bs "9(?:11|99)")) [] [] (Some (bs "911"))))
  None
  (Some (Build_desc (Some (bs "9(?:11|99)")) [] [] (Some (bs "911"))))
  (Some (Build_desc None [(-1)%Z] [] None))
  (Some (Build_desc None [(-1)%Z] [] None))
  (Some (Build_desc None [(-1)%Z] [] None))
  None
  (Some (bs "AC")) None None None None
  None None None None
  []
  []
  None None None.

Definition sh_AD : meta := Eval vm_compute in Build_meta
  (Some (Build_desc (Some (bs "1\d\d")) [(3)%Z] [] None))
  None
  None
  (Some (Build_desc (Some (bs "11[0268]")) [] [] (Some (bs "110"))))
  (Some (Build_desc None [(-1)%Z] [] None))
  None
  None
  None
  None
  None
  (Some (Build_desc (Some (bs "11[0268]")) [] [] (Some (bs "110"))))
  None
  (Some (Build_desc (Some (bs "11[0268]")) [] [] (Some (bs "110"))))
  (Some (Build_desc None [(-1)%Z] [] None))
  (Some (Build_desc None [(-1)%Z] [] None))
  (Some (Build_desc None [(-1)%Z] [] None))
  None
  (Some (bs "AD")) None None None None
  None None None None
  []
  []
  None None None.

Definition sh_AE : meta := Eval vm_compute in Build_meta
  (Some (Build_desc (Some (bs "[149]\d{2,3}")) [(3)%Z; (4)%Z] [] None))
  None
  None
  (Some (Build_desc (Some (bs "112|99[7-9]")) [(3)%Z] [] (Some (bs "112"))))
  (Some (Build_desc None [(-1)%Z] [] None))
  None
  None
  None
  None
  None
  (Some (Build_desc (Some (bs "112|99[7-9]")) [(3)%Z] [] (Some (bs "112"))))
  None
  (Some (Build_desc (Some (bs "112|445[16]|99[7-9]")) [] [] (Some (bs "112"))))
  (Some (Build_desc None [(-1)%Z] [] None))
  (Some (Build_desc None [(-1)%Z] [] None))
  (Some (Build_desc (Some (bs "445\d")) [(4)%Z] [] (Some (bs "4450"))))
  None
  (Some (bs "AE")) None None None None
  None None None None
  []
  []
  None None None.

Definition sh_AF : meta := Eval vm_compute in Build_meta
  (Some (Build_desc (Some (bs "[14]\d\d(?:\d{2})?")) [(3)%Z; (5)%Z] [] None))
  None
  None
  (Some (Build_desc (Some (bs "1(?:0[02]|19)")) [(3)%Z] [] (Some (bs "100"))))
  (Some (Build_desc None [(-1)%Z] [] None))
  None
  None
  None
  None
  None
  (Some (Build_desc (Some (bs "1(?:0[02]|19)")) [(3)%Z] [] (Some (bs "100"))))
  None
  (Some (Build_desc (Some (bs "1(?:0[02]|19)|40404")) [] [] (Some (bs "100"))))
  (Some (Build_desc None [(-1)%Z] [] None))
  (Some (Build_desc (Some (bs "404\d\d")) [(5)%Z] [] (Some (bs "40400"))))
  (Some (Build_desc (Some (bs "404\d\d")) [(5)%Z] [] (Some (bs "40400"))))
  None
  (Some (bs "AF")) None None None None
  None None None None
  []
  []
  None None None.

Definition sh_AG : meta := Eval vm_compute in Build_meta
  (Some (Build_desc (Some (bs "[19]\d\d")) [(3)%Z] [] None))
  None
  None
  (Some (Build_desc (Some (bs "9(?:11|88|99)")) [] [] (Some (bs "911"))))
  (Some (Build_desc None [(-1)%Z] [] None))
  None
  None
  None
  None
  None
  (Some (Build_desc (Some (bs "9(?:11|99)")) [] [] (Some (bs "911"))))
  None
  (Some (Build_desc (Some (bs "176|9(?:11|88|99)")) [] [] (Some (bs "176"))))
  (Some (Build_desc None [(-1)%Z] [] None))
  (Some (Build_desc (Some (bs "176")) [] [] (Some (bs "176"))))
  (Some (Build_desc (Some (bs "176")) [] [] (Some (bs "176"))))
  None
  (Some (bs "AG")) None None None None
  None None None None
  []
  []
  None None None.

Definition sh_AI : meta := Eval vm_compute in Build_meta
  (Some (Build_desc (Some (bs "[19]\d\d")) [(3)%Z] [] None))
  None
  None
  (Some (Build_desc (Some (bs "9(?:11|88)")) [] [] (Some (bs "911"))))
  (Some (Build_desc None [(-1)%Z] [] None))
  None
  None
  None
  None
  None
  (Some (Build_desc (Some (bs "911")) [] [] (Some (bs "911"))))
  None
  (Some (Build_desc (Some (bs "176|9(?:11|88)")) [] [] (Some (bs "176"))))
  (Some (Build_desc None [(-1)%Z] [] None))
  (Some (Build_desc (Some (bs "176")) [] [] (Some (bs "176"))))
  (Some (Build_desc (Some (bs "176")) [] [] (Some (bs "176"))))
  None
  (Some (bs "AI")) None None None None
  None None None None
  []
  []
  None None None.

Definition sh_AL : meta := Eval vm_compute in Build_meta
  (Some (Build_desc (Some (bs "[15]\d{2,5}")) [(3)%Z; (4)%Z; (5)%Z; (6)%Z] [] None))
  None
  None
  (Some (Build_desc (Some (bs "1(?:1(?:2|6[01]\d\d)|2[7-9]|3[15]|41)")) [(3)%Z; (6)%Z] [] (Some (bs "112"))))
  (Some (Build_desc (Some (bs "5\d{4}")) [(5)%Z] [] (Some (bs "50000"))))
  None
  None
  None
  None
  None
  (Some (Build_desc (Some (bs "1(?:12|2[7-9])")) [(3)%Z] [] (Some (bs "112"))))
  None
  (Some (Build_desc (Some (bs "1(?:1(?:6(?:000|1(?:06|11|23))|8\d\d)|65\d|89[12])|5\d{4}|1(?:[1349]\d|2[2-9])")) [] [] (Some (bs "110"))))
  (Some (Build_desc None [(-1)%Z] [] None))
  (Some (Build_desc (Some (bs "123")) [(3)%Z] [] (Some (bs "123"))))
  (Some (Build_desc (Some (bs "131|5\d{4}")) [(3)%Z; (5)%Z] [] (Some (bs "131"))))
  None
  (Some (bs "AL")) None None None None
  None None None None
  []
  []
  None None None.

Definition sh_AM : meta := Eval vm_compute in Build_meta
  (Some (Build_desc (Some (bs "[148]\d{2,4}")) [(3)%Z; (4)%Z; (5)%Z] [] None))
  None
  None
  (Some (Build_desc (Some (bs "10[1-3]")) [(3)%Z] [] (Some (bs "101"))))
  (Some (Build_desc None [(-1)%Z] [] None))
  None
  None
  None
  None
  None
  (Some (Build_desc (Some (bs "10[1-3]")) [(3)%Z] [] (Some (bs "101"))))
  None
  (Some (Build_desc (Some (bs "(?:1|8[1-7])\d\d|40404")) [] [] (Some (bs "100"))))
  (Some (Build_desc None [(-1)%Z] [] None))
  (Some (Build_desc (Some (bs "404\d\d")) [(5)%Z] [] (Some (bs "40400"))))
  (Some (Build_desc (Some (bs "404\d\d")) [(5)%Z] [] (Some (bs "40400"))))
  None
  (Some (bs "AM")) None None None None
  None None None None
  []
  []
  None None None.

Definition sh_AO : meta := Eval vm_compute in Build_meta
  (Some (Build_desc (Some (bs "1\d\d")) [(3)%Z] [] None))
  None
  None
  (Some (Build_desc (Some (bs "11[235]")) [] [] (Some (bs "112"))))
  (Some (Build_desc None [(-1)%Z] [] None))
  None
  None
  None
  None
  None
  (Some (Build_desc (Some (bs "11[235]")) [] [] (Some (bs "112"))))
  None
  (Some (Build_desc (Some (bs "11[235]")) [] [] (Some (bs "112"))))
  (Some (Build_desc None [(-1)%Z] [] None))
  (Some (Build_desc None [(-1)%Z] [] None))
  (Some (Build_desc None [(-1)%Z] [] None))
  None
  (Some (bs "AO")) None None None None
  None None None None
  []
  []
  None None None.

Definition sh_AR : meta := Eval vm_compute in Build_meta
  (Some (Build_desc (Some (bs "[01389]\d{1,4}")) [(2)%Z; (3)%Z; (4)%Z; (5)%Z] [] None))
  None
  None
  (Some (Build_desc (Some (bs "000|1(?:0[0-35-7]|1[0245]|2[015]|3[47]|4[478]|9)|911")) [(2)%Z; (3)%Z] [] (Some (bs "19"))))
  (Some (Build_desc None [(-1)%Z] [] None))
  None
  None
  None
  None
  None
  (Some (Build_desc (Some (bs "10[017]|911")) [(3)%Z] [] (Some (bs "100"))))
  None
  (Some (Build_desc (Some (bs "000|1(?:0[0-35-7]|1[02-5]|2[015]|3[47]|4[478]|9)|3372|89338|911")) [] [] (Some (bs "19"))))
  (Some (Build_desc None [(-1)%Z] [] None))
  (Some (Build_desc (Some (bs "893\d\d")) [(5)%Z] [] (Some (bs "89300"))))
  (Some (Build_desc (Some (bs "(?:337|893\d)\d")) [(4)%Z; (5)%Z] [] (Some (bs "3370"))))
  None
  (Some (bs "AR")) None None None None
  None None None None
  []
  []
  None None None.

Definition sh_AS : meta := Eval vm_compute in Build_meta
  (Some (Build_desc (Some (bs "[49]\d\d(?:\d{2})?")) [(3)%Z; (5)%Z] [] None))
  None
  None
  (Some (Build_desc (Some (bs "9(?:11|88)")) [(3)%Z] [] (Some (bs "911"))))
  (Some (Build_desc None [(-1)%Z] [] None))
  None
  None
  None
  None
  None
  (Some (Build_desc (Some (bs "911")) [(3)%Z] [] (Some (bs "911"))))
  None
  (Some (Build_desc (Some (bs "40404|9(?:11|88)")) [] [] (Some (bs "911"))))
  (Some (Build_desc None [(-1)%Z] [] None))
  (Some (Build_desc None [(-1)%Z] [] None))
  (Some (Build_desc (Some (bs "404\d\d")) [(5)%Z] [] (Some (bs "40400"))))
  None
  (Some (bs "AS")) None None None None
  None None None None
  []
  []
  None None None.

Definition sh_AT : meta := Eval vm_compute in Build_meta
  (Some (Build_desc (Some (bs "[1268]\d{2,5}")) [(3)%Z; (4)%Z; (5)%Z; (6)%Z] [] None))
  None
  None
  (Some (Build_desc (Some (bs "1(?:12|2[0238]|3[03]|4[0-247])|1(?:16\d\d|4[58])\d")) [(3)%Z; (4)%Z; (6)%Z] [] (Some (bs "112"))))
  (Some (Build_desc None [(-1)%Z] [] None))
  None
  None
  None
  None
  None
  (Some (Build_desc (Some (bs "1(?:[12]2|33|44)")) [(3)%Z] [] (Some (bs "112"))))
  None
  (Some (Build_desc (Some (bs "1(?:1(?:2|6(?:00[06]|1(?:17|23)))|2[0238]|3[03]|4(?:[0-247]|5[05]|84))|(?:2(?:066|20)|61|8108[1-3])0")) [] [] (Some (bs "112"))))
  (Some (Build_desc None [(-1)%Z] [] None))
  (Some (Build_desc (Some (bs "220\d|610|(?:206|810\d)\d\d")) [] [] (Some (bs "610"))))
  (Some (Build_desc (Some (bs "206\d\d")) [(5)%Z] [] (Some (bs "20600"))))
  None
  (Some (bs "AT")) None None None None
  None None None None
  []
  []
  None None None.

Definition sh_AU : meta := Eval vm_compute in Build_meta
  (Some (Build_desc (Some (bs "[0-27]\d{2,7}")) [(3)%Z; (4)%Z; (5)%Z; (6)%Z; (7)%Z; (8)%Z] [] None))
  None
  None
  (Some (Build_desc (Some (bs "000|1(?:06|12|258885|55\d)|733")) [(3)%Z; (4)%Z; (7)%Z] [] (Some (bs "000"))))
  (Some (Build_desc (Some (bs "1(?:2(?:34|456)|9\d{4,6})")) [(4)%Z; (5)%Z; (6)%Z; (7)%Z; (8)%Z] [] (Some (bs "1234"))))
  None
  None
  None
  None
  None
  (Some (Build_desc (Some (bs "000|1(?:06|12)")) [(3)%Z] [] (Some (bs "000"))))
  None
  (Some (Build_desc (Some (bs "000|1(?:06|1(?:00|2|9[46])|2(?:014[1-3]|[23]\d|(?:4|5\d)\d{2,3}|68[689]|72(?:20|3\d\d)|8(?:[013-9]\d|2))|555|9\d{4,6})|225|7(?:33|67)")) [] [] (Some (bs "000"))))
  (Some (Build_desc (Some (bs "1(?:1[09]\d|24733)|225|767")) [(3)%Z; (4)%Z; (6)%Z] [] (Some (bs "225"))))
  (Some (Build_desc (Some (bs "1(?:258885|55\d)")) [(4)%Z; (7)%Z] [] (Some (bs "1550"))))
  (Some (Build_desc (Some (bs "19\d{4,6}")) [(6)%Z; (7)%Z; (8)%Z] [] (Some (bs "190000"))))
  None
  (Some (bs "AU")) None None None None
  None None None None
  []
  []
  None None None.

Definition sh_AW : meta := Eval vm_compute in Build_meta
  (Some (Build_desc (Some (bs "[19]\d\d")) [(3)%Z] [] None))
  None
  None
  (Some (Build_desc (Some (bs "100|911")) [] [] (Some (bs "100"))))
  (Some (Build_desc None [(-1)%Z] [] None))
  None
  None
  None
  None
  None
  (Some (Build_desc (Some (bs "100|911")) [] [] (Some (bs "100"))))
  None
  (Some (Build_desc (Some (bs "1(?:00|18|76)|91[13]")) [] [] (Some (bs "100"))))
  (Some (Build_desc None [(-1)%Z] [] None))
  (Some (Build_desc (Some (bs "176")) [] [] (Some (bs "176"))))
  (Some (Build_desc (Some (bs "176")) [] [] (Some (bs "176"))))
  None
  (Some (bs "AW")) None None None None
  None None None None
  []
  []
  None None None.

Definition sh_AX : meta := Eval vm_compute in Build_meta
  (Some (Build_desc (Some (bs "[17]\d\d(?:\d{2})?")) [(3)%Z; (5)%Z] [] None))
  None
  None
  (Some (Build_desc (Some (bs "112")) [(3)%Z] [] (Some (bs "112"))))
  (Some (Build_desc None [(-1)%Z] [] None))
  None
  None
  None
  None
  None
  (Some (Build_desc (Some (bs "112")) [(3)%Z] [] (Some (bs "112"))))
  None
  (Some (Build_desc (Some (bs "112|75[12]\d\d")) [] [] (Some (bs "112"))))
  (Some (Build_desc None [(-1)%Z] [] None))
  (Some (Build_desc None [(-1)%Z] [] None))
  (Some (Build_desc None [(-1)%Z] [] None))
  None
  (Some (bs "AX")) None None None None
  None None None None
  []
  []
  None None None.

Definition sh_AZ : meta := Eval vm_compute in Build_meta
  (Some (Build_desc (Some (bs "[148]\d{2,3}")) [(3)%Z; (4)%Z] [] None))
  None
  None
  (Some (Build_desc (Some (bs "1(?:0[1-3]|12)")) [(3)%Z] [] (Some (bs "101"))))
  (Some (Build_desc None [(-1)%Z] [] None))
  None
  None
  None
  None
  None
  (Some (Build_desc (Some (bs "1(?:0[1-3]|12)")) [(3)%Z] [] (Some (bs "101"))))
  None
  (Some (Build_desc (Some (bs "1(?:0[1-3]|12)|(?:404|880)0")) [] [] (Some (bs "101"))))
  (Some (Build_desc None [(-1)%Z] [] None))
  (Some (Build_desc (Some (bs "(?:404|880)\d")) [(4)%Z] [] (Some (bs "4040"))))
  (Some (Build_desc (Some (bs "(?:404|880)\d")) [(4)%Z] [] (Some (bs "4040"))))
  None
  (Some (bs "AZ")) None None None None
  None None None None
  []
  []
  None None None.

Definition sh_BA : meta := Eval vm_compute in Build_meta
  (Some (Build_desc (Some (bs "1\d{2,5}")) [(3)%Z; (4)%Z; (5)%Z; (6)%Z] [] None))
  None
  None
  (Some (Build_desc (Some (bs "1(?:16\d{3}|2[2-4])")) [(3)%Z; (6)%Z] [] (Some (bs "122"))))
  (Some (Build_desc None [(-1)%Z] [] None))
  None
  None
  None
  None
  None
  (Some (Build_desc (Some (bs "12[2-4]")) [(3)%Z] [] (Some (bs "122"))))
  None
  (Some (Build_desc (Some (bs "1(?:16(?:00[06]|1(?:1[17]|23))|2(?:0[0-7]|[2-5]|6[0-26])|(?:[3-5]|7\d)\d\d)|1(?:18|2[78])\d\d?")) [] [] (Some (bs "122"))))
  (Some (Build_desc None [(-1)%Z] [] None))
  (Some (Build_desc None [(-1)%Z] [] None))
  (Some (Build_desc None [(-1)%Z] [] None))
  None
  (Some (bs "BA")) None None None None
  None None None None
  []
  []
  None None None.

Definition sh_BB : meta := Eval vm_compute in Build_meta
  (Some (Build_desc (Some (bs "[2-689]\d\d")) [(3)%Z] [] None))
  None
  None
  (Some (Build_desc (Some (bs "988|[2359]11")) [] [] (Some (bs "211"))))
  (Some (Build_desc None [(-1)%Z] [] None))
  None
  None
  None
  None
  None
  (Some (Build_desc (Some (bs "[2359]11")) [] [] (Some (bs "211"))))
  None
  (Some (Build_desc (Some (bs "988|[2-689]11")) [] [] (Some (bs "211"))))
  (Some (Build_desc None [(-1)%Z] [] None))
  (Some (Build_desc (Some (bs "[468]11")) [] [] (Some (bs "411"))))
  (Some (Build_desc None [(-1)%Z] [] None))
  None
  (Some (bs "BB")) None None None None
  None None None None
  []
  []
  None None None.

Definition sh_BD : meta := Eval vm_compute in Build_meta
  (Some (Build_desc (Some (bs "[1579]\d{2,4}")) [(3)%Z; (4)%Z; (5)%Z] [] None))
  None
  None
  (Some (Build_desc (Some (bs "10[0-26]|[19]99")) [(3)%Z] [] (Some (bs "100"))))
  (Some (Build_desc None [(-1)%Z] [] None))
  None
  None
  None
  None
  None
  (Some (Build_desc (Some (bs "10[0-2]|[19]99")) [(3)%Z] [] (Some (bs "100"))))
  None
  (Some (Build_desc (Some (bs "1(?:0(?:[0-369]|5[1-4]|7[0-4]|8[0-29])|1[16-9]|2(?:[134]|2[0-5])|3(?:1\d?|6[3-6])|5[2-9])|5012|786|9594|[19]99|1(?:0(?:50|6\d)|33|4(?:0|1\d))\d")) [] [] (Some (bs "100"))))
  (Some (Build_desc None [(-1)%Z] [] None))
  (Some (Build_desc (Some (bs "1(?:11|2[13])|(?:501|959)\d|786")) [(3)%Z; (4)%Z] [] (Some (bs "111"))))
  (Some (Build_desc (Some (bs "959\d")) [(4)%Z] [] (Some (bs "9590"))))
  None
  (Some (bs "BD")) None None None None
  None None None None
  []
  []
  None None None.

Definition sh_BE : meta := Eval vm_compute in Build_meta
  (Some (Build_desc (Some (bs "[1-9]\d\d(?:\d(?:\d{2})?)?")) [(3)%Z; (4)%Z; (6)%Z] [] None))
  None
  None
  (Some (Build_desc (Some (bs "1(?:0[0-35-8]|1[0269]|7(?:12|77)|813)|(?:116|8)\d{3}")) [] [] (Some (bs "100"))))
  (Some (Build_desc (Some (bs "1(?:2[03]|40)4|(?:1(?:[24]1|3[01])|[2-79]\d\d)\d")) [(4)%Z] [] (Some (bs "1204"))))
  None
  None
  None
  None
  None
  (Some (Build_desc (Some (bs "1(?:0[01]|12)")) [(3)%Z] [] (Some (bs "100"))))
  None
  (Some (Build_desc (Some (bs "1(?:0[0-8]|16117|2(?:12|3[0-24])|313|414|5(?:1[05]|5[15]|66|95)|6(?:1[167]|36|6[16])|7(?:[07][017]|1[27-9]|22|33|65)|81[39])|[2-9]\d{3}|11[02679]|1(?:1600|45)0|1(?:[2-4]9|78)9|1[2-4]0[47]")) [] [] (Some (bs "100"))))
  (Some (Build_desc None [(-1)%Z] [] None))
  (Some (Build_desc None [(-1)%Z] [] None))
  (Some (Build_desc (Some (bs "[2-9]\d{3}")) [(4)%Z] [] (Some (bs "2000"))))
  None
  (Some (bs "BE")) None None None None
  None None None None
  []
  []
  None None None.

Definition sh_BF : meta := Eval vm_compute in Build_meta
  (Some (Build_desc (Some (bs "1\d")) [(2)%Z] [] None))
  None
  None
  (Some (Build_desc (Some (bs "1[78]")) [] [] (Some (bs "17"))))
  (Some (Build_desc None [(-1)%Z] [] None))
  None
  None
  None
  None
  None
  (Some (Build_desc (Some (bs "1[78]")) [] [] (Some (bs "17"))))
  None
  (Some (Build_desc (Some (bs "1[78]")) [] [] (Some (bs "17"))))
  (Some (Build_desc None [(-1)%Z] [] None))
  (Some (Build_desc None [(-1)%Z] [] None))
  (Some (Build_desc None [(-1)%Z] [] None))
  None
  (Some (bs "BF")) None None None None
  None None None None
  []
  []
  None None None.

Definition sh_BG : meta := Eval vm_compute in Build_meta
  (Some (Build_desc (Some (bs "1\d\d(?:\d{3})?")) [(3)%Z; (6)%Z] [] None))
  None
  None
  (Some (Build_desc (Some (bs "1(?:1(?:2|6\d{3})|50|6[06])")) [] [] (Some (bs "112"))))
  (Some (Build_desc None [(-1)%Z] [] None))
  None
  None
  None
  None
  None
  (Some (Build_desc (Some (bs "1(?:12|50|6[06])")) [(3)%Z] [] (Some (bs "112"))))
  None
  (Some (Build_desc (Some (bs "1(?:1(?:2|6(?:000|111))|50|6[06])")) [] [] (Some (bs "112"))))
  (Some (Build_desc None [(-1)%Z] [] None))
  (Some (Build_desc None [(-1)%Z] [] None))
  (Some (Build_desc None [(-1)%Z] [] None))
  None
  (Some (bs "BG")) None None None None
  None None None None
  []
  []
  None None None.

Definition sh_BH : meta := Eval vm_compute in Build_meta
  (Some (Build_desc (Some (bs "[0189]\d\d(?:\d{2})?")) [(3)%Z; (5)%Z] [] None))
  None
  None
  (Some (Build_desc (Some (bs "(?:0[167]|81)\d{3}|[19]99")) [] [] (Some (bs "199"))))
  (Some (Build_desc (Some (bs "9[148]\d{3}")) [(5)%Z] [] (Some (bs "91000"))))
  None
  None
  None
  None
  None
  (Some (Build_desc (Some (bs "[19]99")) [(3)%Z] [] (Some (bs "199"))))
  None
  (Some (Build_desc (Some (bs "1(?:[02]\d|12|4[01]|51|8[18]|9[169])|99[02489]|(?:0[167]|8[158]|9[148])\d{3}")) [] [] (Some (bs "100"))))
  (Some (Build_desc None [(-1)%Z] [] None))
  (Some (Build_desc (Some (bs "0[67]\d{3}|88000|98555")) [(5)%Z] [] (Some (bs "06000"))))
  (Some (Build_desc (Some (bs "88000|98555")) [(5)%Z] [] (Some (bs "88000"))))
  None
  (Some (bs "BH")) None None None None
  None None None None
  []
  []
  None None None.

Definition sh_BI : meta := Eval vm_compute in Build_meta
  (Some (Build_desc (Some (bs "[16-9]\d{2,3}")) [(3)%Z; (4)%Z] [] None))
  None
  None
  (Some (Build_desc (Some (bs "11[237]|611")) [(3)%Z] [] (Some (bs "112"))))
  (Some (Build_desc None [(-1)%Z] [] None))
  None
  None
  None
  None
  None
  (Some (Build_desc (Some (bs "11[237]")) [(3)%Z] [] (Some (bs "112"))))
  None
  (Some (Build_desc (Some (bs "1(?:1\d|5[2-9]|6[0-256])|611|7(?:10|77|979)|8[28]8|900")) [] [] (Some (bs "110"))))
  (Some (Build_desc None [(-1)%Z] [] None))
  (Some (Build_desc (Some (bs "611|7(?:10|77)|888|900")) [(3)%Z] [] (Some (bs "611"))))
  (Some (Build_desc (Some (bs "(?:71|90)0")) [(3)%Z] [] (Some (bs "710"))))
  None
  (Some (bs "BI")) None None None None
  None None None None
  []
  []
  None None None.

Definition sh_BJ : meta := Eval vm_compute in Build_meta
  (Some (Build_desc (Some (bs "[17]\d{2,3}")) [(3)%Z; (4)%Z] [] None))
  None
  None
  (Some (Build_desc (Some (bs "1(?:1[246-8]|3[68]|6[06])|7[3-5]\d\d")) [] [] (Some (bs "112"))))
  (Some (Build_desc None [(-1)%Z] [] None))
  None
  None
  None
  None
  None
  (Some (Build_desc (Some (bs "11[246-8]")) [(3)%Z] [] (Some (bs "112"))))
  None
  (Some (Build_desc (Some (bs "1(?:05|1[24-8]|2[02-5]|3[126-8]|5[05]|6[06]|89)|7[0-5]\d\d")) [] [] (Some (bs "105"))))
  (Some (Build_desc None [(-1)%Z] [] None))
  (Some (Build_desc (Some (bs "12[02-5]")) [(3)%Z] [] (Some (bs "120"))))
  (Some (Build_desc None [(-1)%Z] [] None))
  None
  (Some (bs "BJ")) None None None None
  None None None None
  []
  []
  None None None.

Definition sh_BL : meta := Eval vm_compute in Build_meta
  (Some (Build_desc (Some (bs "[13]\d(?:\d\d(?:\d{2})?)?")) [(2)%Z; (4)%Z; (6)%Z] [] None))
  None
  None
  (Some (Build_desc (Some (bs "18|3(?:00|1[0-689])\d")) [(2)%Z; (4)%Z] [] (Some (bs "18"))))
  (Some (Build_desc (Some (bs "3[2469]\d\d")) [(4)%Z] [] (Some (bs "3200"))))
  None
  None
  None
  None
  None
  (Some (Build_desc (Some (bs "18")) [(2)%Z] [] (Some (bs "18"))))
  None
  (Some (Build_desc (Some (bs "18|3(?:00[0-79]|1[0-689]\d)|(?:118[02-9]|3[2469])\d\d")) [] [] (Some (bs "18"))))
  (Some (Build_desc None [(-1)%Z] [] None))
  (Some (Build_desc None [(-1)%Z] [] None))
  (Some (Build_desc None [(-1)%Z] [] None))
  None
  (Some (bs "BL")) None None None None
  None None None None
  []
  []
  None None None.

Definition sh_BM : meta := Eval vm_compute in Build_meta
  (Some (Build_desc (Some (bs "[19]\d\d")) [(3)%Z] [] None))
  None
  None
  (Some (Build_desc (Some (bs "9(?:11|88)")) [] [] (Some (bs "911"))))
  (Some (Build_desc None [(-1)%Z] [] None))
  None
  None
  None
  None
  None
  (Some (Build_desc (Some (bs "911")) [] [] (Some (bs "911"))))
  None
  (Some (Build_desc (Some (bs "176|9(?:11|88)")) [] [] (Some (bs "176"))))
  (Some (Build_desc None [(-1)%Z] [] None))
  (Some (Build_desc (Some (bs "176")) [] [] (Some (bs "176"))))
  (Some (Build_desc (Some (bs "176")) [] [] (Some (bs "176"))))
  None
  (Some (bs "BM")) None None None None
  None None None None
  []
  []
  None None None.

Definition sh_BN : meta := Eval vm_compute in Build_meta
  (Some (Build_desc (Some (bs "9\d\d")) [(3)%Z] [] None))
  None
  None
  (Some (Build_desc (Some (bs "99[135]")) [] [] (Some (bs "991"))))
  (Some (Build_desc None [(-1)%Z] [] None))
  None
  None
  None
  None
  None
  (Some (Build_desc (Some (bs "99[135]")) [] [] (Some (bs "991"))))
  None
  (Some (Build_desc (Some (bs "99[135]")) [] [] (Some (bs "991"))))
  (Some (Build_desc None [(-1)%Z] [] None))
  (Some (Build_desc None [(-1)%Z] [] None))
  (Some (Build_desc None [(-1)%Z] [] None))
  None
  (Some (bs "BN")) None None None None
  None None None None
  []
  []
  None None None.

Definition sh_BO : meta := Eval vm_compute in Build_meta
  (Some (Build_desc (Some (bs "[14]\d\d(?:\d{2})?")) [(3)%Z; (5)%Z] [] None))
  None
  None
  (Some (Build_desc (Some (bs "11[089]")) [(3)%Z] [] (Some (bs "110"))))
  (Some (Build_desc None [(-1)%Z] [] None))
  None
  None
  None
  None
  None
  (Some (Build_desc (Some (bs "11[089]")) [(3)%Z] [] (Some (bs "110"))))
  None
  (Some (Build_desc (Some (bs "11[089]|40404")) [] [] (Some (bs "110"))))
  (Some (Build_desc None [(-1)%Z] [] None))
  (Some (Build_desc None [(-1)%Z] [] None))
  (Some (Build_desc (Some (bs "404\d\d")) [(5)%Z] [] (Some (bs "40400"))))
  None
  (Some (bs "BO")) None None None None
  None None None None
  []
  []
  None None None.

Definition sh_BQ : meta := Eval vm_compute in Build_meta
  (Some (Build_desc (Some (bs "[19]\d\d")) [(3)%Z] [] None))
  None
  None
  (Some (Build_desc (Some (bs "112|911")) [] [] (Some (bs "112"))))
  (Some (Build_desc None [(-1)%Z] [] None))
  None
  None
  None
  None
  None
  (Some (Build_desc (Some (bs "112|911")) [] [] (Some (bs "112"))))
  None
  (Some (Build_desc (Some (bs "1(?:12|76)|911")) [] [] (Some (bs "112"))))
  (Some (Build_desc None [(-1)%Z] [] None))
  (Some (Build_desc (Some (bs "176")) [] [] (Some (bs "176"))))
  (Some (Build_desc (Some (bs "176")) [] [] (Some (bs "176"))))
  None
  (Some (bs "BQ")) None None None None
  None None None None
  []
  []
  None None None.

Definition sh_BR : meta := Eval vm_compute in Build_meta
  (Some (Build_desc (Some (bs "[1-69]\d{2,5}")) [(3)%Z; (4)%Z; (5)%Z; (6)%Z] [] None))
  None
  None
  (Some (Build_desc (Some (bs "1(?:00|12|28|8[015]|9[0-47-9])|4(?:57|82\d)|911")) [(3)%Z; (4)%Z] [] (Some (bs "100"))))
  (Some (Build_desc None [(-1)%Z] [] None))
  None
  None
  None
  None
  None
  (Some (Build_desc (Some (bs "1(?:12|28|9[023])|911")) [(3)%Z] [] (Some (bs "112"))))
  None
  (Some (Build_desc (Some (bs "1(?:0(?:[02]|3(?:1[2-579]|2[13-9]|3[124-9]|4[1-3578]|5[1-468]|6[139]|8[149]|9[168])|5[0-35-9]|6(?:0|1[0-35-8]?|2[0145]|3[0137]?|4[37-9]?|5[0-35]|6[016]?|7[137]?|8[5-8]|9[1359]))|1[25-8]|2[357-9]|3[024-68]|4[12568]|5\d|6[0-8]|8[015]|9[0-47-9])|2(?:7(?:330|878)|85959?)|(?:32|91)1|4(?:0404?|57|828)|55555|6(?:0\d{4}|10000)|(?:133|411)[12]")) [] [] (Some (bs "100"))))
  (Some (Build_desc (Some (bs "102|273\d\d|321")) [(3)%Z; (5)%Z] [] (Some (bs "102"))))
  (Some (Build_desc (Some (bs "151|(?:278|555)\d\d|4(?:04\d\d?|11\d|57)")) [(3)%Z; (4)%Z; (5)%Z] [] (Some (bs "151"))))
  (Some (Build_desc (Some (bs "285\d{2,3}|321|40404|(?:27[38]\d|482)\d|6(?:0\d|10)\d{3}")) [] [] (Some (bs "321"))))
  None
  (Some (bs "BR")) None None None None
  None None None None
  []
  []
  None None None.

Definition sh_BS : meta := Eval vm_compute in Build_meta
  (Some (Build_desc (Some (bs "9\d\d")) [(3)%Z] [] None))
  None
  None
  (Some (Build_desc (Some (bs "9(?:1[19]|88)")) [] [] (Some (bs "911"))))
  (Some (Build_desc None [(-1)%Z] [] None))
  None
  None
  None
  None
  None
  (Some (Build_desc (Some (bs "91[19]")) [] [] (Some (bs "911"))))
  None
  (Some (Build_desc (Some (bs "9(?:1[19]|88)")) [] [] (Some (bs "911"))))
  (Some (Build_desc None [(-1)%Z] [] None))
  (Some (Build_desc None [(-1)%Z] [] None))
  (Some (Build_desc None [(-1)%Z] [] None))
  None
  (Some (bs "BS")) None None None None
  None None None None
  []
  []
  None None None.

Definition sh_BT : meta := Eval vm_compute in Build_meta
  (Some (Build_desc (Some (bs "[14]\d\d(?:\d{2})?")) [(3)%Z; (5)%Z] [] None))
  None
  None
  (Some (Build_desc (Some (bs "11[023]")) [(3)%Z] [] (Some (bs "110"))))
  (Some (Build_desc None [(-1)%Z] [] None))
  None
  None
  None
  None
  None
  (Some (Build_desc (Some (bs "11[023]")) [(3)%Z] [] (Some (bs "110"))))
  None
  (Some (Build_desc (Some (bs "11[0-6]|40404")) [] [] (Some (bs "110"))))
  (Some (Build_desc None [(-1)%Z] [] None))
  (Some (Build_desc None [(-1)%Z] [] None))
  (Some (Build_desc (Some (bs "404\d\d")) [(5)%Z] [] (Some (bs "40400"))))
  None
  (Some (bs "BT")) None None None None
  None None None None
  []
  []
  None None None.

Definition sh_BW : meta := Eval vm_compute in Build_meta
  (Some (Build_desc (Some (bs "[19]\d\d(?:\d{2})?")) [(3)%Z; (5)%Z] [] None))
  None
  None
  (Some (Build_desc (Some (bs "9(?:11|9[7-9])")) [(3)%Z] [] (Some (bs "911"))))
  (Some (Build_desc None [(-1)%Z] [] None))
  None
  None
  None
  None
  None
  (Some (Build_desc (Some (bs "9(?:11|9[7-9])")) [(3)%Z] [] (Some (bs "911"))))
  None
  (Some (Build_desc (Some (bs "1(?:1[26]|3123)|9(?:1[14]|9[1-57-9])")) [] [] (Some (bs "112"))))
  (Some (Build_desc None [(-1)%Z] [] None))
  (Some (Build_desc (Some (bs "131\d\d")) [(5)%Z] [] (Some (bs "13100"))))
  (Some (Build_desc (Some (bs "131\d\d")) [(5)%Z] [] (Some (bs "13100"))))
  None
  (Some (bs "BW")) None None None None
  None None None None
  []
  []
  None None None.

Definition sh_BY : meta := Eval vm_compute in Build_meta
  (Some (Build_desc (Some (bs "1\d\d")) [(3)%Z] [] None))
  None
  None
  (Some (Build_desc (Some (bs "1(?:0[1-3]|12)")) [] [] (Some (bs "101"))))
  (Some (Build_desc None [(-1)%Z] [] None))
  None
  None
  None
  None
  None
  (Some (Build_desc (Some (bs "1(?:0[1-3]|12)")) [] [] (Some (bs "101"))))
  None
  (Some (Build_desc (Some (bs "1(?:0[1-79]|1[246]|35|5[1-35]|6[89]|7[5-7]|8[58]|9[1-7])")) [] [] (Some (bs "101"))))
  (Some (Build_desc None [(-1)%Z] [] None))
  (Some (Build_desc None [(-1)%Z] [] None))
  (Some (Build_desc None [(-1)%Z] [] None))
  None
  (Some (bs "BY")) None None None None
  None None None None
  []
  []
  None None None.

Definition sh_BZ : meta := Eval vm_compute in Build_meta
  (Some (Build_desc (Some (bs "9\d\d?")) [(2)%Z; (3)%Z] [] None))
  None
  None
  (Some (Build_desc (Some (bs "9(?:0|11|22|66|77|9[09])")) [] [] (Some (bs "90"))))
  (Some (Build_desc None [(-1)%Z] [] None))
  None
  None
  None
  None
  None
  (Some (Build_desc (Some (bs "9(?:0|11|90)")) [] [] (Some (bs "90"))))
  None
  (Some (Build_desc (Some (bs "9(?:0|11|22|66|77|9[09])")) [] [] (Some (bs "90"))))
  (Some (Build_desc None [(-1)%Z] [] None))
  (Some (Build_desc None [(-1)%Z] [] None))
  (Some (Build_desc None [(-1)%Z] [] None))
  None
  (Some (bs "BZ")) None None None None
  None None None None
  []
  []
  None None None.

Definition sh_CA : meta := Eval vm_compute in Build_meta
  (Some (Build_desc (Some (bs "[1-9]\d\d(?:\d{2,3})?")) [(3)%Z; (5)%Z; (6)%Z] [] None))
  None
  None
  (Some (Build_desc (Some (bs "112|988|[29]11")) [(3)%Z] [] (Some (bs "112"))))
  (Some (Build_desc None [(-1)%Z] [] None))
  None
  None
  None
  None
  None
  (Some (Build_desc (Some (bs "112|911")) [(3)%Z] [] (Some (bs "112"))))
  None
  (Some (Build_desc (Some (bs "[1-35-9]\d{4,5}|112|[2-8]11|9(?:11|88)")) [] [] (Some (bs "112"))))
  (Some (Build_desc None [(-1)%Z] [] None))
  (Some (Build_desc (Some (bs "[235-7]11")) [(3)%Z] [] (Some (bs "211"))))
  (Some (Build_desc (Some (bs "[1-35-9]\d{4,5}")) [(5)%Z; (6)%Z] [] (Some (bs "10000"))))
  None
  (Some (bs "CA")) None None None None
  None None None None
  []
  []
  None None None.

Definition sh_CC : meta := Eval vm_compute in Build_meta
  (Some (Build_desc (Some (bs "[01]\d\d")) [(3)%Z] [] None))
  None
  None
  (Some (Build_desc (Some (bs "000|112")) [] [] (Some (bs "000"))))
  (Some (Build_desc None [(-1)%Z] [] None))
  None
  None
  None
  None
  None
  (Some (Build_desc (Some (bs "000|112")) [] [] (Some (bs "000"))))
  None
  (Some (Build_desc (Some (bs "000|112")) [] [] (Some (bs "000"))))
  (Some (Build_desc None [(-1)%Z] [] None))
  (Some (Build_desc None [(-1)%Z] [] None))
  (Some (Build_desc None [(-1)%Z] [] None))
  None
  (Some (bs "CC")) None None None None
  None None None None
  []
  []
  None None None.

Definition sh_CD : meta := Eval vm_compute in Build_meta
  (Some (Build_desc (Some (bs "[14]\d\d(?:\d{2})?")) [(3)%Z; (5)%Z] [] None))
  None
  None
  (Some (Build_desc (Some (bs "1(?:1[348]|77|88)")) [(3)%Z] [] (Some (bs "113"))))
  (Some (Build_desc None [(-1)%Z] [] None))
  None
  None
  None
  None
  None
  (Some (Build_desc (Some (bs "1(?:1[348]|77|88)")) [(3)%Z] [] (Some (bs "113"))))
  None
  (Some (Build_desc (Some (bs "1(?:1[348]|23|77|88)|40404")) [] [] (Some (bs "113"))))
  (Some (Build_desc None [(-1)%Z] [] None))
  (Some (Build_desc (Some (bs "404\d\d")) [(5)%Z] [] (Some (bs "40400"))))
  (Some (Build_desc (Some (bs "404\d\d")) [(5)%Z] [] (Some (bs "40400"))))
  None
  (Some (bs "CD")) None None None None
  None None None None
  []
  []
  None None None.

Definition sh_CF : meta := Eval vm_compute in Build_meta
  (Some (Build_desc (Some (bs "1\d{2,3}")) [(3)%Z; (4)%Z] [] None))
  None
  None
  (Some (Build_desc (Some (bs "1(?:1[78]|22\d)")) [] [] (Some (bs "117"))))
  (Some (Build_desc None [(-1)%Z] [] None))
  None
  None
  None
  None
  None
  (Some (Build_desc (Some (bs "1(?:1[78]|220)")) [] [] (Some (bs "117"))))
  None
  (Some (Build_desc (Some (bs "1(?:1[478]|220)")) [] [] (Some (bs "114"))))
  (Some (Build_desc None [(-1)%Z] [] None))
  (Some (Build_desc None [(-1)%Z] [] None))
  (Some (Build_desc None [(-1)%Z] [] None))
  None
  (Some (bs "CF")) None None None None
  None None None None
  []
  []
  None None None.

Definition sh_CG : meta := Eval vm_compute in Build_meta
  (Some (Build_desc (Some (bs "1\d\d")) [(3)%Z] [] None))
  None
  None
  (Some (Build_desc (Some (bs "11[178]")) [] [] (Some (bs "111"))))
  (Some (Build_desc None [(-1)%Z] [] None))
  None
  None
  None
  None
  None
  (Some (Build_desc (Some (bs "11[78]")) [] [] (Some (bs "117"))))
  None
  (Some (Build_desc (Some (bs "11[126-8]")) [] [] (Some (bs "111"))))
  (Some (Build_desc None [(-1)%Z] [] None))
  (Some (Build_desc None [(-1)%Z] [] None))
  (Some (Build_desc None [(-1)%Z] [] None))
  None
  (Some (bs "CG")) None None None None
  None None None None
  []
  []
  None None None.

Definition sh_CH : meta := Eval vm_compute in Build_meta
  (Some (Build_desc (Some (bs "[1-9]\d{2,5}")) [(3)%Z; (4)%Z; (5)%Z; (6)%Z] [] None))
  None
  None
  (Some (Build_desc (Some (bs "1(?:1(?:[278]|6\d{3})|4[247])|5200")) [(3)%Z; (4)%Z; (6)%Z] [] (Some (bs "112"))))
  (Some (Build_desc (Some (bs "1(?:14|8[0-2589])\d|543|83111")) [(3)%Z; (4)%Z; (5)%Z] [] (Some (bs "543"))))
  None
  None
  None
  None
  None
  (Some (Build_desc (Some (bs "1(?:1[278]|44)")) [(3)%Z] [] (Some (bs "112"))))
  None
  (Some (Build_desc (Some (bs "1(?:0[78]\d\d|1(?:[278]|45|6(?:000|111))|4(?:[02-57]|1[0145])|6(?:00|[1-46])|8(?:02|1[189]|[25]0|7|8[08]|99))|[2-9]\d{2,4}")) [] [] (Some (bs "112"))))
  (Some (Build_desc (Some (bs "1(?:4[035]|6[1-46])|1(?:41|60)\d")) [(3)%Z; (4)%Z] [] (Some (bs "140"))))
  (Some (Build_desc (Some (bs "5(?:200|35)")) [(3)%Z; (4)%Z] [] (Some (bs "535"))))
  (Some (Build_desc (Some (bs "[2-9]\d{2,4}")) [(3)%Z; (4)%Z; (5)%Z] [] (Some (bs "200"))))
  None
  (Some (bs "CH")) None None None None
  None None None None
  []
  []
  None None None.

Definition sh_CI : meta := Eval vm_compute in Build_meta
  (Some (Build_desc (Some (bs "[14]\d{2,3}")) [(3)%Z; (4)%Z] [] None))
  None
  None
  (Some (Build_desc (Some (bs "1(?:1[01]|[78]0)")) [(3)%Z] [] (Some (bs "110"))))
  (Some (Build_desc None [(-1)%Z] [] None))
  None
  None
  None
  None
  None
  (Some (Build_desc (Some (bs "1(?:1[01]|[78]0)")) [(3)%Z] [] (Some (bs "110"))))
  None
  (Some (Build_desc (Some (bs "1(?:1[01]|[78]0)|4443")) [] [] (Some (bs "110"))))
  (Some (Build_desc None [(-1)%Z] [] None))
  (Some (Build_desc (Some (bs "444\d")) [(4)%Z] [] (Some (bs "4440"))))
  (Some (Build_desc (Some (bs "444\d")) [(4)%Z] [] (Some (bs "4440"))))
  None
  (Some (bs "CI")) None None None None
  None None None None
  []
  []
  None None None.

Definition sh_CK : meta := Eval vm_compute in Build_meta
  (Some (Build_desc (Some (bs "9\d\d")) [(3)%Z] [] None))
  None
  None
  (Some (Build_desc (Some (bs "99[689]")) [] [] (Some (bs "996"))))
  (Some (Build_desc None [(-1)%Z] [] None))
  None
  None
  None
  None
  None
  (Some (Build_desc (Some (bs "99[689]")) [] [] (Some (bs "996"))))
  None
  (Some (Build_desc (Some (bs "99[689]")) [] [] (Some (bs "996"))))
  (Some (Build_desc None [(-1)%Z] [] None))
  (Some (Build_desc None [(-1)%Z] [] None))
  (Some (Build_desc None [(-1)%Z] [] None))
  None
  (Some (bs "CK")) None None None None
  None None None None
  []
  []
  None None None.

Definition sh_CL : meta := Eval vm_compute in Build_meta
  (Some (Build_desc (Some (bs "[1-9]\d{2,4}")) [(3)%Z; (4)%Z; (5)%Z] [] None))
  None
  None
  (Some (Build_desc (Some (bs "1(?:213|3[1-3])|434\d|911")) [(3)%Z; (4)%Z] [] (Some (bs "131"))))
  (Some (Build_desc (Some (bs "1(?:211|3(?:13|[348]0|5[01]))|(?:1(?:[05]6|[48]1|9[18])|2(?:01\d|[23]2|77|88)|3(?:0[59]|13|3[279]|66)|4(?:[12]4|36\d|4[017]|55)|5(?:00|41\d|5[67]|99)|6(?:07\d|13|22|3[06]|50|69)|787|8(?:[01]1|[48]8)|9(?:01|[12]0|33))\d")) [(4)%Z; (5)%Z] [] (Some (bs "1060"))))
  None
  None
  None
  None
  None
  (Some (Build_desc (Some (bs "13[1-3]|911")) [(3)%Z] [] (Some (bs "131"))))
  None
  (Some (Build_desc (Some (bs "1(?:00|21[13]|3(?:13|[348]0|5[01])|4(?:0[02-6]|17|[379])|818|919)|2(?:0(?:01|122)|22[47]|323|777|882)|3(?:0(?:51|99)|132|3(?:29|[37]7)|665)|43656|5(?:(?:00|415)4|5(?:66|77)|995)|6(?:131|222|366|699)|7878|8(?:011|11[28]|482|889)|9(?:01|1)1|13\d|4(?:[13]42|243|4(?:02|15|77)|554)|(?:1(?:[05]6|98)|339|6(?:07|[35])0|9(?:[12]0|33))0")) [] [] (Some (bs "100"))))
  (Some (Build_desc (Some (bs "(?:200|333)\d")) [(4)%Z] [] (Some (bs "2000"))))
  (Some (Build_desc None [(-1)%Z] [] None))
  (Some (Build_desc (Some (bs "13(?:13|[348]0|5[01])|(?:1(?:[05]6|[28]1|4[01]|9[18])|2(?:0(?:0|1\d)|[23]2|77|88)|3(?:0[59]|13|3[2379]|66)|436\d|5(?:00|41\d|5[67]|99)|6(?:07\d|13|22|3[06]|50|69)|787|8(?:[01]1|[48]8)|9(?:01|[12]0|33))\d|4(?:[1-3]4|4[017]|55)\d")) [(4)%Z; (5)%Z] [] (Some (bs "1060"))))
  None
  (Some (bs "CL")) None None None None
  None None None None
  []
  []
  None None None.

Definition sh_CM : meta := Eval vm_compute in Build_meta
  (Some (Build_desc (Some (bs "[18]\d{1,3}")) [(2)%Z; (3)%Z; (4)%Z] [] None))
  None
  None
  (Some (Build_desc (Some (bs "1(?:1[37]|[37])")) [(2)%Z; (3)%Z] [] (Some (bs "13"))))
  (Some (Build_desc None [(-1)%Z] [] None))
  None
  None
  None
  None
  None
  (Some (Build_desc (Some (bs "1(?:1[37]|[37])")) [(2)%Z; (3)%Z] [] (Some (bs "13"))))
  None
  (Some (Build_desc (Some (bs "1(?:1[37]|[37])|8711")) [] [] (Some (bs "13"))))
  (Some (Build_desc None [(-1)%Z] [] None))
  (Some (Build_desc (Some (bs "871\d")) [(4)%Z] [] (Some (bs "8710"))))
  (Some (Build_desc (Some (bs "871\d")) [(4)%Z] [] (Some (bs "8710"))))
  None
  (Some (bs "CM")) None None None None
  None None None None
  []
  []
  None None None.

Definition sh_CN : meta := Eval vm_compute in Build_meta
  (Some (Build_desc (Some (bs "[19]\d{2,5}")) [(3)%Z; (4)%Z; (5)%Z; (6)%Z] [] None))
  None
  None
  (Some (Build_desc (Some (bs "1(?:1[09]|2(?:[02]|1\d\d|395))")) [(3)%Z; (5)%Z] [] (Some (bs "110"))))
  (Some (Build_desc None [(-1)%Z] [] None))
  None
  None
  None
  None
  None
  (Some (Build_desc (Some (bs "1(?:1[09]|20)")) [(3)%Z] [] (Some (bs "110"))))
  None
  (Some (Build_desc (Some (bs "1(?:00|1[0249]|2395|6[08])|9[56]\d{3,4}|12[023]|1(?:0(?:[0-26]\d|8)|21\d)\d")) [] [] (Some (bs "100"))))
  (Some (Build_desc (Some (bs "1(?:0(?:[0-26]\d|8)\d|1[24]|23|6[08])|9[56]\d{3,4}|100")) [] [] (Some (bs "100"))))
  (Some (Build_desc None [(-1)%Z] [] None))
  (Some (Build_desc (Some (bs "12110")) [(5)%Z] [] (Some (bs "12110"))))
  None
  (Some (bs "CN")) None None None None
  None None None None
  []
  []
  None None None.

Definition sh_CO : meta := Eval vm_compute in Build_meta
  (Some (Build_desc (Some (bs "[1-589]\d\d(?:\d{2,3})?")) [(3)%Z; (5)%Z; (6)%Z] [] None))
  None
  None
  (Some (Build_desc (Some (bs "1(?:1[29]|23|32|56)")) [(3)%Z] [] (Some (bs "112"))))
  (Some (Build_desc None [(-1)%Z] [] None))
  None
  None
  None
  None
  None
  (Some (Build_desc (Some (bs "1(?:1[29]|23|32|56)")) [(3)%Z] [] (Some (bs "112"))))
  None
  (Some (Build_desc (Some (bs "1(?:06|1[2-9]|2[35-7]|3[27]|4[467]|5[36]|6[4-7]|95)|(?:29002|39003)9|40404|5930\d\d|85432|(?:[2359][57]|8(?:7|9\d))\d{3}")) [] [] (Some (bs "106"))))
  (Some (Build_desc None [(-1)%Z] [] None))
  (Some (Build_desc (Some (bs "(?:40|85)4\d\d")) [(5)%Z] [] (Some (bs "40400"))))
  (Some (Build_desc (Some (bs "(?:40|85)4\d\d")) [(5)%Z] [] (Some (bs "40400"))))
  None
  (Some (bs "CO")) None None None None
  None None None None
  []
  []
  None None None.

Definition sh_CR : meta := Eval vm_compute in Build_meta
  (Some (Build_desc (Some (bs "[1359]\d{2,3}")) [(3)%Z; (4)%Z] [] None))
  None
  None
  (Some (Build_desc (Some (bs "112|911")) [(3)%Z] [] (Some (bs "112"))))
  (Some (Build_desc None [(-1)%Z] [] None))
  None
  None
  None
  None
  None
  (Some (Build_desc (Some (bs "112|911")) [(3)%Z] [] (Some (bs "112"))))
  None
  (Some (Build_desc (Some (bs "1(?:0(?:00|15|2[2-4679])|1(?:1[0-35-9]|2|37|[46]6|7[57]|8[79]|9[0-379])|2(?:00|[12]2|34|55)|3(?:21|33)|4(?:0[06]|1[4-6])|5(?:15|5[15])|693|7(?:00|1[7-9]|2[02]|[67]7)|975)|3855|5(?:0(?:30|49)|510)|911")) [] [] (Some (bs "112"))))
  (Some (Build_desc None [(-1)%Z] [] None))
  (Some (Build_desc None [(-1)%Z] [] None))
  (Some (Build_desc (Some (bs "(?:385|5(?:0[34]|51))\d")) [(4)%Z] [] (Some (bs "3850"))))
  None
  (Some (bs "CR")) None None None None
  None None None None
  []
  []
  None None None.

Definition sh_CU : meta := Eval vm_compute in Build_meta
  (Some (Build_desc (Some (bs "[12]\d\d(?:\d{3,4})?")) [(3)%Z; (6)%Z; (7)%Z] [] None))
  None
  None
  (Some (Build_desc (Some (bs "10[4-7]|(?:116|204\d)\d{3}")) [] [] (Some (bs "104"))))
  (Some (Build_desc None [(-1)%Z] [] None))
  None
  None
  None
  None
  None
  (Some (Build_desc (Some (bs "10[4-6]")) [(3)%Z] [] (Some (bs "104"))))
  None
  (Some (Build_desc (Some (bs "1(?:0[4-7]|1(?:6111|8)|40)|2045252")) [] [] (Some (bs "104"))))
  (Some (Build_desc None [(-1)%Z] [] None))
  (Some (Build_desc None [(-1)%Z] [] None))
  (Some (Build_desc None [(-1)%Z] [] None))
  None
  (Some (bs "CU")) None None None None
  None None None None
  []
  []
  None None None.

Definition sh_CV : meta := Eval vm_compute in Build_meta
  (Some (Build_desc (Some (bs "1\d\d")) [(3)%Z] [] None))
  None
  None
  (Some (Build_desc (Some (bs "13[0-2]")) [] [] (Some (bs "130"))))
  (Some (Build_desc None [(-1)%Z] [] None))
  None
  None
  None
  None
  None
  (Some (Build_desc (Some (bs "13[0-2]")) [] [] (Some (bs "130"))))
  None
  (Some (Build_desc (Some (bs "13[0-2]")) [] [] (Some (bs "130"))))
  (Some (Build_desc None [(-1)%Z] [] None))
  (Some (Build_desc None [(-1)%Z] [] None))
  (Some (Build_desc None [(-1)%Z] [] None))
  None
  (Some (bs "CV")) None None None None
  None None None None
  []
  []
  None None None.

Definition sh_CW : meta := Eval vm_compute in Build_meta
  (Some (Build_desc (Some (bs "[19]\d\d")) [(3)%Z] [] None))
  None
  None
  (Some (Build_desc (Some (bs "112|911")) [] [] (Some (bs "112"))))
  (Some (Build_desc None [(-1)%Z] [] None))
  None
  None
  None
  None
  None
  (Some (Build_desc (Some (bs "112|911")) [] [] (Some (bs "112"))))
  None
  (Some (Build_desc (Some (bs "1(?:12|76)|911")) [] [] (Some (bs "112"))))
  (Some (Build_desc None [(-1)%Z] [] None))
  (Some (Build_desc (Some (bs "176")) [] [] (Some (bs "176"))))
  (Some (Build_desc (Some (bs "176")) [] [] (Some (bs "176"))))
  None
  (Some (bs "CW")) None None None None
  None None None None
  []
  []
  None None None.

Definition sh_CX : meta := Eval vm_compute in Build_meta
  (Some (Build_desc (Some (bs "[01]\d\d")) [(3)%Z] [] None))
  None
  None
  (Some (Build_desc (Some (bs "000|112")) [] [] (Some (bs "000"))))
  (Some (Build_desc None [(-1)%Z] [] None))
  None
  None
  None
  None
  None
  (Some (Build_desc (Some (bs "000|112")) [] [] (Some (bs "000"))))
  None
  (Some (Build_desc (Some (bs "000|112")) [] [] (Some (bs "000"))))
  (Some (Build_desc None [(-1)%Z] [] None))
  (Some (Build_desc None [(-1)%Z] [] None))
  (Some (Build_desc None [(-1)%Z] [] None))
  None
  (Some (bs "CX")) None None None None
  None None None None
  []
  []
  None None None.

Definition sh_CY : meta := Eval vm_compute in Build_meta
  (Some (Build_desc (Some (bs "1\d\d(?:\d{3})?")) [(3)%Z; (6)%Z] [] None))
  None
  None
  (Some (Build_desc (Some (bs "1(?:1(?:2|6\d{3})|99)")) [] [] (Some (bs "112"))))
  (Some (Build_desc None [(-1)%Z] [] None))
  None
  None
  None
  None
  None
  (Some (Build_desc (Some (bs "1(?:12|99)")) [(3)%Z] [] (Some (bs "112"))))
  None
  (Some (Build_desc (Some (bs "1(?:1(?:2|6(?:000|111))|99)")) [] [] (Some (bs "112"))))
  (Some (Build_desc None [(-1)%Z] [] None))
  (Some (Build_desc None [(-1)%Z] [] None))
  (Some (Build_desc None [(-1)%Z] [] None))
  None
  (Some (bs "CY")) None None None None
  None None None None
  []
  []
  None None None.

Definition sh_CZ : meta := Eval vm_compute in Build_meta
  (Some (Build_desc (Some (bs "1\d{2,5}")) [(3)%Z; (4)%Z; (5)%Z; (6)%Z] [] None))
  None
  None
  (Some (Build_desc (Some (bs "1(?:1(?:2|6(?:00[06]|1(?:11|23)))|5\d)")) [(3)%Z; (6)%Z] [] (Some (bs "112"))))
  (Some (Build_desc None [(-1)%Z] [] None))
  None
  None
  None
  None
  None
  (Some (Build_desc (Some (bs "1(?:12|5\d)")) [(3)%Z] [] (Some (bs "112"))))
  None
  (Some (Build_desc (Some (bs "1(?:1(?:2|8\d)|(?:2|3\d)\d{2,3}|5\d|99)|1(?:16|4)\d{3}")) [] [] (Some (bs "112"))))
  (Some (Build_desc None [(-1)%Z] [] None))
  (Some (Build_desc None [(-1)%Z] [] None))
  (Some (Build_desc None [(-1)%Z] [] None))
  None
  (Some (bs "CZ")) None None None None
  None None None None
  []
  []
  None None None.

Definition sh_DE : meta := Eval vm_compute in Build_meta
  (Some (Build_desc (Some (bs "[1-46-8]\d{2,5}")) [(3)%Z; (4)%Z; (5)%Z; (6)%Z] [] None))
  None
  None
  (Some (Build_desc (Some (bs "11(?:[02]|6\d{3})")) [(3)%Z; (6)%Z] [] (Some (bs "110"))))
  (Some (Build_desc None [(-1)%Z] [] None))
  None
  None
  None
  None
  None
  (Some (Build_desc (Some (bs "11[02]")) [(3)%Z] [] (Some (bs "110"))))
  None
  (Some (Build_desc (Some (bs "11(?:[025]|6(?:00[06]|1(?:1[167]|23))|800\d)|22(?:044|5(?:43|80)|7700|922)|33(?:11|3[34])|44844|600\d\d|7(?:0\d{3}|464)|80808|118\d\d")) [] [] (Some (bs "110"))))
  (Some (Build_desc None [(-1)%Z] [] None))
  (Some (Build_desc (Some (bs "(?:33[13]|746)\d|(?:22(?:[059]|7\d)|(?:44|80)8|600|70\d)\d\d")) [(4)%Z; (5)%Z; (6)%Z] [] (Some (bs "3310"))))
  (Some (Build_desc (Some (bs "(?:333|746)\d|(?:22(?:[059]|7\d)|(?:44|80)8|600|70\d)\d\d")) [(4)%Z; (5)%Z; (6)%Z] [] (Some (bs "3330"))))
  None
  (Some (bs "DE")) None None None None
  None None None None
  []
  []
  None None None.

Definition sh_DJ : meta := Eval vm_compute in Build_meta
  (Some (Build_desc (Some (bs "1\d")) [(2)%Z] [] None))
  None
  None
  (Some (Build_desc (Some (bs "1[78]")) [] [] (Some (bs "17"))))
  (Some (Build_desc None [(-1)%Z] [] None))
  None
  None
  None
  None
  None
  (Some (Build_desc (Some (bs "1[78]")) [] [] (Some (bs "17"))))
  None
  (Some (Build_desc (Some (bs "1[78]")) [] [] (Some (bs "17"))))
  (Some (Build_desc None [(-1)%Z] [] None))
  (Some (Build_desc None [(-1)%Z] [] None))
  (Some (Build_desc None [(-1)%Z] [] None))
  None
  (Some (bs "DJ")) None None None None
  None None None None
  []
  []
  None None None.

Definition sh_DK : meta := Eval vm_compute in Build_meta
  (Some (Build_desc (Some (bs "1\d{2,5}")) [(3)%Z; (4)%Z; (5)%Z; (6)%Z] [] None))
  None
  None
  (Some (Build_desc (Some (bs "11(?:[24]|6\d{3})")) [(3)%Z; (6)%Z] [] (Some (bs "112"))))
  (Some (Build_desc None [(-1)%Z] [] None))
  None
  None
  None
  None
  None
  (Some (Build_desc (Some (bs "11[24]")) [(3)%Z] [] (Some (bs "112"))))
  None
  (Some (Build_desc (Some (bs "1(?:1(?:[248]|6(?:00[06]|111))|619[0-2]|8(?:01|1[0238]|28|30|5[13]|8[18]))")) [] [] (Some (bs "112"))))
  (Some (Build_desc None [(-1)%Z] [] None))
  (Some (Build_desc None [(-1)%Z] [] None))
  (Some (Build_desc None [(-1)%Z] [] None))
  None
  (Some (bs "DK")) None None None None
  None None None None
  []
  []
  None None None.

Definition sh_DM : meta := Eval vm_compute in Build_meta
  (Some (Build_desc (Some (bs "[39]\d\d")) [(3)%Z] [] None))
  None
  None
  (Some (Build_desc (Some (bs "333|9(?:11|88|99)")) [] [] (Some (bs "333"))))
  (Some (Build_desc None [(-1)%Z] [] None))
  None
  None
  None
  None
  None
  (Some (Build_desc (Some (bs "333|9(?:11|99)")) [] [] (Some (bs "333"))))
  None
  (Some (Build_desc (Some (bs "333|9(?:11|88|99)")) [] [] (Some (bs "333"))))
  (Some (Build_desc None [(-1)%Z] [] None))
  (Some (Build_desc None [(-1)%Z] [] None))
  (Some (Build_desc None [(-1)%Z] [] None))
  None
  (Some (bs "DM")) None None None None
  None None None None
  []
  []
  None None None.

Definition sh_DO : meta := Eval vm_compute in Build_meta
  (Some (Build_desc (Some (bs "[19]\d\d")) [(3)%Z] [] None))
  None
  None
  (Some (Build_desc (Some (bs "112|9(?:11|88)")) [] [] (Some (bs "112"))))
  (Some (Build_desc None [(-1)%Z] [] None))
  None
  None
  None
  None
  None
  (Some (Build_desc (Some (bs "112|911")) [] [] (Some (bs "112"))))
  None
  (Some (Build_desc (Some (bs "112|9(?:11|88)")) [] [] (Some (bs "112"))))
  (Some (Build_desc None [(-1)%Z] [] None))
  (Some (Build_desc None [(-1)%Z] [] None))
  (Some (Build_desc None [(-1)%Z] [] None))
  None
  (Some (bs "DO")) None None None None
  None None None None
  []
  []
  None None None.

Definition sh_DZ : meta := Eval vm_compute in Build_meta
  (Some (Build_desc (Some (bs "[17]\d{1,3}")) [(2)%Z; (3)%Z; (4)%Z] [] None))
  None
  None
  (Some (Build_desc (Some (bs "1(?:12|[47]|54\d)")) [] [] (Some (bs "14"))))
  (Some (Build_desc None [(-1)%Z] [] None))
  None
  None
  None
  None
  None
  (Some (Build_desc (Some (bs "1(?:12|[47])")) [(2)%Z; (3)%Z] [] (Some (bs "14"))))
  None
  (Some (Build_desc (Some (bs "1(?:055|12|[47]|548)|730")) [] [] (Some (bs "14"))))
  (Some (Build_desc None [(-1)%Z] [] None))
  (Some (Build_desc (Some (bs "730")) [(3)%Z] [] (Some (bs "730"))))
  (Some (Build_desc (Some (bs "730")) [(3)%Z] [] (Some (bs "730"))))
  None
  (Some (bs "DZ")) None None None None
  None None None None
  []
  []
  None None None.

Definition sh_EC : meta := Eval vm_compute in Build_meta
  (Some (Build_desc (Some (bs "[19]\d\d")) [(3)%Z] [] None))
  None
  None
  (Some (Build_desc (Some (bs "1(?:0[12]|12)|911")) [] [] (Some (bs "101"))))
  (Some (Build_desc None [(-1)%Z] [] None))
  None
  None
  None
  None
  None
  (Some (Build_desc (Some (bs "1(?:0[12]|12)|911")) [] [] (Some (bs "101"))))
  None
  (Some (Build_desc (Some (bs "1(?:0[12]|12)|911")) [] [] (Some (bs "101"))))
  (Some (Build_desc None [(-1)%Z] [] None))
  (Some (Build_desc None [(-1)%Z] [] None))
  (Some (Build_desc None [(-1)%Z] [] None))
  None
  (Some (bs "EC")) None None None None
  None None None None
  []
  []
  None None None.

Definition sh_EE : meta := Eval vm_compute in Build_meta
  (Some (Build_desc (Some (bs "1\d{2,5}")) [(3)%Z; (4)%Z; (5)%Z; (6)%Z] [] None))
  None
  None
  (Some (Build_desc (Some (bs "1(?:1(?:[02]|6\d{3})|2(?:05|28)|3(?:014|3(?:21|5\d?)|660)|492|5(?:1[03]|410|501)|6(?:112|333|644)|7(?:012|127|89)|8(?:10|8[57])|9(?:0[134]|14))")) [] [] (Some (bs "110"))))
  (Some (Build_desc (Some (bs "1(?:18(?:00|[12458]\d?)|2(?:0(?:[02-46-8]\d?|1[0-36])|1(?:[0-4]\d?|6[06])|2(?:[0-4]\d?|5[25])|[367]|4(?:0[04]|[12]\d?|4[24]|54)|55[12457])|3(?:0(?:[02]\d?|1[13578]|3[356])|1[1347]|2[02-5]|3(?:[01347]\d?|2[023]|88)|4(?:[35]\d?|4[34])|5(?:3[134]|5[035])|666)|4(?:2(?:00|4\d?)|4(?:0[01358]|1[024]|50|7\d?)|900)|5(?:0[0-35]|1(?:[1267]\d?|5[0-7]|82)|2(?:[014-6]\d?|22)|330|4(?:[35]\d?|44)|5(?:00|[1-69]\d?)|9(?:[159]\d?|[38]0|77))|6(?:1(?:00|1[19]|[35-9]\d?)|2(?:2[26]|[68]\d?)|3(?:22|36|6[36])|5|6(?:[0-359]\d?|6[0-26])|7(?:00|55|7\d?|8[89])|9(?:00|1\d?|69))|7(?:0(?:[023]\d?|1[0578])|1(?:00|2[034]|[4-9]\d?)|2(?:[07]\d?|20|44)|7(?:[0-57]\d?|9[79])|8(?:0[08]|2\d?|8[0178])|9(?:00|97))|8(?:1[127]|8[1268]|9[269])|9(?:0(?:[02]\d?|69|9[0269])|1[1-3689]|21))")) [(3)%Z; (4)%Z; (5)%Z] [] (Some (bs "123"))))
  None
  None
  None
  None
  None
  (Some (Build_desc (Some (bs "11[02]")) [(3)%Z] [] (Some (bs "110"))))
  None
  (Some (Build_desc (Some (bs "1(?:1(?:[02-579]|6(?:000|111)|8(?:[09]\d|[1-8]))|2[36-9]|3[7-9]|4[05-7]|5[6-8]|6[05]|7[3-6]|8[02-7]|9[3-9])|1(?:2[0-245]|3[0-6]|4[1-489]|5[0-59]|6[1-46-9]|7[0-27-9]|8[189]|9[0-2])\d\d?")) [] [] (Some (bs "110"))))
  (Some (Build_desc None [(-1)%Z] [] None))
  (Some (Build_desc None [(-1)%Z] [] None))
  (Some (Build_desc (Some (bs "1(?:18[1258]|2(?:0(?:1[036]|[46]\d?)|166|21|4(?:0[04]|1\d?|5[47])|[67])|3(?:0(?:1[13-578]|2\d?|3[56])|1[15]|2[045]|3(?:[13]\d?|2[13])|43|5(?:00|3[34]|53))|44(?:0[0135]|14|50|7\d?)|5(?:05|1(?:[12]\d?|5[1246]|8[12])|2(?:[01]\d?|22)|3(?:00|3[03])|4(?:15|5\d?)|500|9(?:5\d?|77|80))|6(?:1[35-8]|226|3(?:22|3[36]|66)|644|7(?:00|7\d?|89)|9(?:00|69))|7(?:01[258]|1(?:00|[15]\d?)|2(?:44|7\d?)|8(?:00|87|9\d?))|8(?:1[128]|8[56]|9(?:[26]\d?|77))|90(?:2\d?|69|92))")) [(3)%Z; (4)%Z; (5)%Z] [] (Some (bs "126"))))
  None
  (Some (bs "EE")) None None None None
  None None None None
  []
  []
  None None None.

Definition sh_EG : meta := Eval vm_compute in Build_meta
  (Some (Build_desc (Some (bs "[13]\d\d(?:\d{2})?")) [(3)%Z; (5)%Z] [] None))
  None
  None
  (Some (Build_desc (Some (bs "1(?:2[23]|80)")) [(3)%Z] [] (Some (bs "122"))))
  (Some (Build_desc None [(-1)%Z] [] None))
  None
  None
  None
  None
  None
  (Some (Build_desc (Some (bs "1(?:2[23]|80)")) [(3)%Z] [] (Some (bs "122"))))
  None
  (Some (Build_desc (Some (bs "1(?:2[23]|[679]\d{3}|80)|34400")) [] [] (Some (bs "122"))))
  (Some (Build_desc None [(-1)%Z] [] None))
  (Some (Build_desc (Some (bs "344\d\d")) [(5)%Z] [] (Some (bs "34400"))))
  (Some (Build_desc (Some (bs "344\d\d")) [(5)%Z] [] (Some (bs "34400"))))
  None
  (Some (bs "EG")) None None None None
  None None None None
  []
  []
  None None None.

Definition sh_EH : meta := Eval vm_compute in Build_meta
  (Some (Build_desc (Some (bs "1\d\d?")) [(2)%Z; (3)%Z] [] None))
  None
  None
  (Some (Build_desc (Some (bs "1(?:[59]|77)")) [] [] (Some (bs "15"))))
  (Some (Build_desc None [(-1)%Z] [] None))
  None
  None
  None
  None
  None
  (Some (Build_desc (Some (bs "1(?:[59]|77)")) [] [] (Some (bs "15"))))
  None
  (Some (Build_desc (Some (bs "1(?:[59]|77)")) [] [] (Some (bs "15"))))
  (Some (Build_desc None [(-1)%Z] [] None))
  (Some (Build_desc None [(-1)%Z] [] None))
  (Some (Build_desc None [(-1)%Z] [] None))
  None
  (Some (bs "EH")) None None None None
  None None None None
  []
  []
  None None None.

Definition sh_ER : meta := Eval vm_compute in Build_meta
  (Some (Build_desc (Some (bs "[12]\d\d(?:\d{3})?")) [(3)%Z; (6)%Z] [] None))
  None
  None
  (Some (Build_desc (Some (bs "11[2-46]|(?:12[47]|20[12])\d{3}")) [] [] (Some (bs "112"))))
  (Some (Build_desc None [(-1)%Z] [] None))
  None
  None
  None
  None
  None
  (Some (Build_desc (Some (bs "1(?:1[2-46]|24422)|20(?:1(?:606|917)|2914)|(?:1277|2020)99")) [] [] (Some (bs "112"))))
  None
  (Some (Build_desc (Some (bs "1(?:1[2-6]|24422)|20(?:1(?:606|917)|2914)|(?:1277|2020)99")) [] [] (Some (bs "112"))))
  (Some (Build_desc None [(-1)%Z] [] None))
  (Some (Build_desc None [(-1)%Z] [] None))
  (Some (Build_desc None [(-1)%Z] [] None))
  None
  (Some (bs "ER")) None None None None
  None None None None
  []
  []
  None None None.

Definition sh_ES : meta := Eval vm_compute in Build_meta
  (Some (Build_desc (Some (bs "[0-379]\d{2,5}")) [(3)%Z; (4)%Z; (5)%Z; (6)%Z] [] None))
  None
  None
  (Some (Build_desc (Some (bs "0(?:16|20|6[57]|8[58])|1(?:006|12|[3-7]\d\d)|2373|(?:116|20\d)\d{3}")) [(3)%Z; (4)%Z; (6)%Z] [] (Some (bs "016"))))
  (Some (Build_desc (Some (bs "[12]2\d{1,4}|90(?:5\d|7)|(?:118|2(?:[357]\d|80)|3[357]\d)\d\d|[79]9[57]\d{3}")) [] [] (Some (bs "120"))))
  None
  None
  None
  None
  None
  (Some (Build_desc (Some (bs "08[58]|112")) [(3)%Z] [] (Some (bs "085"))))
  None
  (Some (Build_desc (Some (bs "0(?:1[0-267]|2[0148]|6[0-257]|8[058]|9[12])|1(?:0[03-57]\d{1,3}|1(?:2|6(?:000|111)|8\d\d)|2\d{1,4}|[3-9]\d\d)|(?:2[0-2]\d|3[357]|[79]9[57])\d{3}|1(?:3[34]|77)|2(?:[2357]\d|80)\d\d|90(?:5[124578]|7)|2(?:2\d\d?|373)")) [] [] (Some (bs "010"))))
  (Some (Build_desc (Some (bs "0(?:1[0-27]|2[148]|6[0-2]|80|9[12])|21\d{4}")) [(3)%Z; (6)%Z] [] (Some (bs "010"))))
  (Some (Build_desc (Some (bs "1(?:3[34]|77)|[12]2\d{1,4}")) [] [] (Some (bs "120"))))
  (Some (Build_desc (Some (bs "(?:2[0-2]\d|3[357]|[79]9[57])\d{3}|2(?:[2357]\d|80)\d\d")) [(5)%Z; (6)%Z] [] (Some (bs "22000"))))
  None
  (Some (bs "ES")) None None None None
  None None None None
  []
  []
  None None None.

Definition sh_ET : meta := Eval vm_compute in Build_meta
  (Some (Build_desc (Some (bs "9\d\d?")) [(2)%Z; (3)%Z] [] None))
  None
  None
  (Some (Build_desc (Some (bs "9(?:07|11?|2|39?|9[17])")) [] [] (Some (bs "91"))))
  (Some (Build_desc None [(-1)%Z] [] None))
  None
  None
  None
  None
  None
  (Some (Build_desc (Some (bs "9(?:11?|2|39?|9[17])")) [] [] (Some (bs "91"))))
  None
  (Some (Build_desc (Some (bs "9(?:07|11?|2|39?|45|9[17])")) [] [] (Some (bs "91"))))
  (Some (Build_desc None [(-1)%Z] [] None))
  (Some (Build_desc None [(-1)%Z] [] None))
  (Some (Build_desc None [(-1)%Z] [] None))
  None
  (Some (bs "ET")) None None None None
  None None None None
  []
  []
  None None None.

Definition sh_FI : meta := Eval vm_compute in Build_meta
  (Some (Build_desc (Some (bs "[17]\d\d(?:\d{2,3})?")) [(3)%Z; (5)%Z; (6)%Z] [] None))
  None
  None
  (Some (Build_desc (Some (bs "11(?:2|6\d{3})")) [(3)%Z; (6)%Z] [] (Some (bs "112"))))
  (Some (Build_desc None [(-1)%Z] [] None))
  None
  None
  None
  None
  None
  (Some (Build_desc (Some (bs "112")) [(3)%Z] [] (Some (bs "112"))))
  None
  (Some (Build_desc (Some (bs "11(?:2|6(?:00[06]|1(?:1[17]|23)))|(?:1[2-8]\d|75[12])\d\d")) [] [] (Some (bs "112"))))
  (Some (Build_desc (Some (bs "1[2-8]\d{3}")) [(5)%Z] [] (Some (bs "12000"))))
  (Some (Build_desc None [(-1)%Z] [] None))
  (Some (Build_desc None [(-1)%Z] [] None))
  None
  (Some (bs "FI")) None None None None
  None None None None
  []
  []
  None None None.

Definition sh_FJ : meta := Eval vm_compute in Build_meta
  (Some (Build_desc (Some (bs "[0-579]\d(?:\d(?:\d{2})?)?")) [(2)%Z; (3)%Z; (5)%Z] [] None))
  None
  None
  (Some (Build_desc (Some (bs "91[17]")) [(3)%Z] [] (Some (bs "911"))))
  (Some (Build_desc None [(-1)%Z] [] None))
  None
  None
  None
  None
  None
  (Some (Build_desc (Some (bs "91[17]")) [(3)%Z] [] (Some (bs "911"))))
  None
  (Some (Build_desc (Some (bs "0(?:1[34]|8[1-4])|1(?:0[1-3]|[25]9)|2[289]|30|40404|91[137]|[45]4|75")) [] [] (Some (bs "22"))))
  (Some (Build_desc None [(-1)%Z] [] None))
  (Some (Build_desc None [(-1)%Z] [] None))
  (Some (Build_desc (Some (bs "404\d\d")) [(5)%Z] [] (Some (bs "40400"))))
  None
  (Some (bs "FJ")) None None None None
  None None None None
  []
  []
  None None None.

Definition sh_FK : meta := Eval vm_compute in Build_meta
  (Some (Build_desc (Some (bs "[19]\d\d")) [(3)%Z] [] None))
  None
  None
  (Some (Build_desc (Some (bs "999")) [] [] (Some (bs "999"))))
  (Some (Build_desc None [(-1)%Z] [] None))
  None
  None
  None
  None
  None
  (Some (Build_desc (Some (bs "999")) [] [] (Some (bs "999"))))
  None
  (Some (Build_desc (Some (bs "1\d\d|999")) [] [] (Some (bs "100"))))
  (Some (Build_desc None [(-1)%Z] [] None))
  (Some (Build_desc None [(-1)%Z] [] None))
  (Some (Build_desc None [(-1)%Z] [] None))
  None
  (Some (bs "FK")) None None None None
  None None None None
  []
  []
  None None None.

Definition sh_FM : meta := Eval vm_compute in Build_meta
  (Some (Build_desc (Some (bs "[39]\d\d(?:\d{3})?")) [(3)%Z; (6)%Z] [] None))
  None
  None
  (Some (Build_desc (Some (bs "320\d{3}|911")) [] [] (Some (bs "911"))))
  (Some (Build_desc None [(-1)%Z] [] None))
  None
  None
  None
  None
  None
  (Some (Build_desc (Some (bs "(?:32022|91)1")) [] [] (Some (bs "911"))))
  None
  (Some (Build_desc (Some (bs "(?:32022|91)1")) [] [] (Some (bs "911"))))
  (Some (Build_desc None [(-1)%Z] [] None))
  (Some (Build_desc None [(-1)%Z] [] None))
  (Some (Build_desc None [(-1)%Z] [] None))
  None
  (Some (bs "FM")) None None None None
  None None None None
  []
  []
  None None None.

Definition sh_FO : meta := Eval vm_compute in Build_meta
  (Some (Build_desc (Some (bs "1\d{2,3}")) [(3)%Z; (4)%Z] [] None))
  None
  None
  (Some (Build_desc (Some (bs "1(?:1[24]|81\d)")) [] [] (Some (bs "112"))))
  (Some (Build_desc None [(-1)%Z] [] None))
  None
  None
  None
  None
  None
  (Some (Build_desc (Some (bs "11[24]")) [(3)%Z] [] (Some (bs "112"))))
  None
  (Some (Build_desc (Some (bs "11[248]|1(?:4[124]|71|8[17-9]|9\d)\d")) [] [] (Some (bs "112"))))
  (Some (Build_desc None [(-1)%Z] [] None))
  (Some (Build_desc None [(-1)%Z] [] None))
  (Some (Build_desc (Some (bs "19\d\d")) [(4)%Z] [] (Some (bs "1900"))))
  None
  (Some (bs "FO")) None None None None
  None None None None
  []
  []
  None None None.

Definition sh_FR : meta := Eval vm_compute in Build_meta
  (Some (Build_desc (Some (bs "[1-8]\d{1,5}")) [(2)%Z; (3)%Z; (4)%Z; (5)%Z; (6)%Z] [] None))
  None
  None
  (Some (Build_desc (Some (bs "1(?:1[02459]|[578]|9[167])|224|(?:3370|74)0|(?:116\d|3[01])\d\d")) [] [] (Some (bs "15"))))
  (Some (Build_desc (Some (bs "(?:1(?:0|18\d)|366|[4-8]\d\d)\d\d|3[2-9]\d\d")) [(4)%Z; (5)%Z; (6)%Z] [] (Some (bs "1000"))))
  None
  None
  None
  None
  None
  (Some (Build_desc (Some (bs "1(?:12|[578])")) [(2)%Z; (3)%Z] [] (Some (bs "15"))))
  None
  (Some (Build_desc (Some (bs "1(?:0\d\d|1(?:[02459]|6(?:00[06]|11[17])|8\d{3})|[578]|9[167])|2(?:0(?:00|2)0|24)|[3-8]\d{4}|3\d{3}|6(?:1[14]|34)|7(?:0[06]|22|40)")) [] [] (Some (bs "15"))))
  (Some (Build_desc (Some (bs "202\d|6(?:1[14]|34)|70[06]")) [(3)%Z; (4)%Z] [] (Some (bs "611"))))
  (Some (Build_desc (Some (bs "118777|224|6(?:1[14]|34)|7(?:0[06]|22|40)|20(?:0\d|2)\d")) [(3)%Z; (4)%Z; (5)%Z; (6)%Z] [] (Some (bs "224"))))
  (Some (Build_desc (Some (bs "114|[3-8]\d{4}")) [(3)%Z; (5)%Z] [] (Some (bs "114"))))
  None
  (Some (bs "FR")) None None None None
  None None None None
  []
  []
  None None None.

Definition sh_GA : meta := Eval vm_compute in Build_meta
  (Some (Build_desc (Some (bs "1\d(?:\d{2})?")) [(2)%Z; (4)%Z] [] None))
  None
  None
  (Some (Build_desc (Some (bs "18|1(?:3\d|73)\d")) [] [] (Some (bs "18"))))
  (Some (Build_desc None [(-1)%Z] [] None))
  None
  None
  None
  None
  None
  (Some (Build_desc (Some (bs "1(?:3\d\d|730|8)")) [] [] (Some (bs "18"))))
  None
  (Some (Build_desc (Some (bs "1(?:3\d\d|730|8)")) [] [] (Some (bs "18"))))
  (Some (Build_desc None [(-1)%Z] [] None))
  (Some (Build_desc None [(-1)%Z] [] None))
  (Some (Build_desc None [(-1)%Z] [] None))
  None
  (Some (bs "GA")) None None None None
  None None None None
  []
  []
  None None None.

Definition sh_GB : meta := Eval vm_compute in Build_meta
  (Some (Build_desc (Some (bs "[1-46-9]\d{2,5}")) [(3)%Z; (4)%Z; (5)%Z; (6)%Z] [] None))
  None
  None
  (Some (Build_desc (Some (bs "1(?:05|1(?:[29]|6\d{3})|7[56]\d|8000)|2(?:20\d|48)|4444|999")) [] [] (Some (bs "105"))))
  (Some (Build_desc None [(-1)%Z] [] None))
  None
  None
  None
  None
  None
  (Some (Build_desc (Some (bs "112|999")) [(3)%Z] [] (Some (bs "112"))))
  None
  (Some (Build_desc (Some (bs "1(?:0[015]|1(?:[129]|6(?:000|1(?:11|23))|8\d{3})|2(?:[1-3]|50)|33|4(?:1|7\d)|571|7(?:0\d|[56]0)|800\d|9[15])|2(?:0202|1300|2(?:02|11)|3(?:02|336|45)|4(?:25|8))|3[13]3|4(?:0[02]|35[01]|44[45]|5\d)|(?:[68]\d|7[089])\d{3}|15\d|2[02]2|650|789|9(?:01|99)")) [] [] (Some (bs "100"))))
  (Some (Build_desc None [(-1)%Z] [] None))
  (Some (Build_desc (Some (bs "1(?:(?:25|7[56])\d|571)|2(?:02(?:\d{2})?|[13]3\d\d|48)|4444|901")) [(3)%Z; (4)%Z; (5)%Z] [] (Some (bs "202"))))
  (Some (Build_desc (Some (bs "(?:125|2(?:020|13\d)|(?:7[089]|8[01])\d\d)\d")) [(4)%Z; (5)%Z] [] (Some (bs "1250"))))
  None
  (Some (bs "GB")) None None None None
  None None None None
  []
  []
  None None None.

Definition sh_GD : meta := Eval vm_compute in Build_meta
  (Some (Build_desc (Some (bs "[19]\d\d")) [(3)%Z] [] None))
  None
  None
  (Some (Build_desc (Some (bs "9(?:11|88)")) [] [] (Some (bs "911"))))
  (Some (Build_desc None [(-1)%Z] [] None))
  None
  None
  None
  None
  None
  (Some (Build_desc (Some (bs "911")) [] [] (Some (bs "911"))))
  None
  (Some (Build_desc (Some (bs "176|9(?:11|88)")) [] [] (Some (bs "176"))))
  (Some (Build_desc None [(-1)%Z] [] None))
  (Some (Build_desc (Some (bs "176")) [] [] (Some (bs "176"))))
  (Some (Build_desc (Some (bs "176")) [] [] (Some (bs "176"))))
  None
  (Some (bs "GD")) None None None None
  None None None None
  []
  []
  None None None.

Definition sh_GE : meta := Eval vm_compute in Build_meta
  (Some (Build_desc (Some (bs "[014]\d\d(?:\d{2})?")) [(3)%Z; (5)%Z] [] None))
  None
  None
  (Some (Build_desc (Some (bs "0(?:11|33)|11[1-3]|[01]22")) [(3)%Z] [] (Some (bs "011"))))
  (Some (Build_desc None [(-1)%Z] [] None))
  None
  None
  None
  None
  None
  (Some (Build_desc (Some (bs "0(?:11|33)|11[1-3]|[01]22")) [(3)%Z] [] (Some (bs "011"))))
  None
  (Some (Build_desc (Some (bs "0(?:11|33)|11[1-3]|40404|[01]22")) [] [] (Some (bs "011"))))
  (Some (Build_desc None [(-1)%Z] [] None))
  (Some (Build_desc (Some (bs "404\d\d")) [(5)%Z] [] (Some (bs "40400"))))
  (Some (Build_desc (Some (bs "404\d\d")) [(5)%Z] [] (Some (bs "40400"))))
  None
  (Some (bs "GE")) None None None None
  None None None None
  []
  []
  None None None.

Definition sh_GF : meta := Eval vm_compute in Build_meta
  (Some (Build_desc (Some (bs "[13]\d(?:\d\d(?:\d{2})?)?")) [(2)%Z; (4)%Z; (6)%Z] [] None))
  None
  None
  (Some (Build_desc (Some (bs "1[578]|3(?:0\d|1[0-689])\d")) [(2)%Z; (4)%Z] [] (Some (bs "15"))))
  (Some (Build_desc (Some (bs "3[2469]\d\d")) [(4)%Z] [] (Some (bs "3200"))))
  None
  None
  None
  None
  None
  (Some (Build_desc (Some (bs "1[578]")) [(2)%Z] [] (Some (bs "15"))))
  None
  (Some (Build_desc (Some (bs "1[578]|300[0-79]|(?:118[02-9]\d|3(?:0[1-9]|1[0-689]|[2469]\d))\d")) [] [] (Some (bs "15"))))
  (Some (Build_desc None [(-1)%Z] [] None))
  (Some (Build_desc None [(-1)%Z] [] None))
  (Some (Build_desc None [(-1)%Z] [] None))
  None
  (Some (bs "GF")) None None None None
  None None None None
  []
  []
  None None None.

Definition sh_GG : meta := Eval vm_compute in Build_meta
  (Some (Build_desc (Some (bs "[19]\d{2,5}")) [(3)%Z; (4)%Z; (5)%Z; (6)%Z] [] None))
  None
  None
  (Some (Build_desc (Some (bs "112|999")) [(3)%Z] [] (Some (bs "112"))))
  (Some (Build_desc None [(-1)%Z] [] None))
  None
  None
  None
  None
  None
  (Some (Build_desc (Some (bs "112|999")) [(3)%Z] [] (Some (bs "112"))))
  None
  (Some (Build_desc (Some (bs "1(?:0[01]|1[12]|23|41|55|9[05])|999|1(?:1[68]\d\d|47|800)\d")) [] [] (Some (bs "100"))))
  (Some (Build_desc None [(-1)%Z] [] None))
  (Some (Build_desc None [(-1)%Z] [] None))
  (Some (Build_desc None [(-1)%Z] [] None))
  None
  (Some (bs "GG")) None None None None
  None None None None
  []
  []
  None None None.

Definition sh_GH : meta := Eval vm_compute in Build_meta
  (Some (Build_desc (Some (bs "[14589]\d{2,4}")) [(3)%Z; (4)%Z; (5)%Z] [] None))
  None
  None
  (Some (Build_desc (Some (bs "19[1-3]|999")) [(3)%Z] [] (Some (bs "191"))))
  (Some (Build_desc None [(-1)%Z] [] None))
  None
  None
  None
  None
  None
  (Some (Build_desc (Some (bs "19[1-3]|999")) [(3)%Z] [] (Some (bs "191"))))
  None
  (Some (Build_desc (Some (bs "19[1-3]|40404|(?:54|83)00|999")) [] [] (Some (bs "191"))))
  (Some (Build_desc None [(-1)%Z] [] None))
  (Some (Build_desc (Some (bs "404\d\d|(?:54|83)0\d")) [(4)%Z; (5)%Z] [] (Some (bs "5400"))))
  (Some (Build_desc (Some (bs "404\d\d|(?:54|83)0\d")) [(4)%Z; (5)%Z] [] (Some (bs "5400"))))
  None
  (Some (bs "GH")) None None None None
  None None None None
  []
  []
  None None None.

Definition sh_GI : meta := Eval vm_compute in Build_meta
  (Some (Build_desc (Some (bs "[158]\d{2,5}")) [(3)%Z; (4)%Z; (5)%Z; (6)%Z] [] None))
  None
  None
  (Some (Build_desc (Some (bs "1(?:00|1[25]|23|4(?:1|7\d)|5[15]|9[02-49])|555|(?:116\d|80)\d\d")) [(3)%Z; (4)%Z; (6)%Z] [] (Some (bs "100"))))
  (Some (Build_desc (Some (bs "8[1-69]\d\d")) [(4)%Z] [] (Some (bs "8100"))))
  None
  None
  None
  None
  None
  (Some (Build_desc (Some (bs "1(?:12|9[09])")) [(3)%Z] [] (Some (bs "112"))))
  None
  (Some (Build_desc (Some (bs "1(?:00|1(?:[25]|6(?:00[06]|1(?:1[17]|23))|8\d\d)|23|4(?:1|7[014])|5[015]|9[02-49])|555|8[0-79]\d\d|8(?:00|4[0-2]|8[0-589])")) [] [] (Some (bs "100"))))
  (Some (Build_desc (Some (bs "150|87\d\d")) [(3)%Z; (4)%Z] [] (Some (bs "150"))))
  (Some (Build_desc (Some (bs "1(?:00|1(?:5|8\d\d)|23|51|9[2-4])|555|8(?:00|4[0-2]|8[0-589])")) [(3)%Z; (5)%Z] [] (Some (bs "100"))))
  (Some (Build_desc None [(-1)%Z] [] None))
  None
  (Some (bs "GI")) None None None None
  None None None None
  []
  []
  None None None.

Definition sh_GL : meta := Eval vm_compute in Build_meta
  (Some (Build_desc (Some (bs "1\d\d")) [(3)%Z] [] None))
  None
  None
  (Some (Build_desc (Some (bs "112")) [] [] (Some (bs "112"))))
  (Some (Build_desc None [(-1)%Z] [] None))
  None
  None
  None
  None
  None
  (Some (Build_desc (Some (bs "112")) [] [] (Some (bs "112"))))
  None
  (Some (Build_desc (Some (bs "1[1-8]\d")) [] [] (Some (bs "110"))))
  (Some (Build_desc None [(-1)%Z] [] None))
  (Some (Build_desc None [(-1)%Z] [] None))
  (Some (Build_desc None [(-1)%Z] [] None))
  None
  (Some (bs "GL")) None None None None
  None None None None
  []
  []
  None None None.

Definition sh_GM : meta := Eval vm_compute in Build_meta
  (Some (Build_desc (Some (bs "1\d\d?")) [(2)%Z; (3)%Z] [] None))
  None
  None
  (Some (Build_desc (Some (bs "1(?:1[6-8]|[6-8])")) [] [] (Some (bs "16"))))
  (Some (Build_desc None [(-1)%Z] [] None))
  None
  None
  None
  None
  None
  (Some (Build_desc (Some (bs "1(?:1[6-8]|[6-8])")) [] [] (Some (bs "16"))))
  None
  (Some (Build_desc (Some (bs "1(?:1[6-8]|[6-8])")) [] [] (Some (bs "16"))))
  (Some (Build_desc None [(-1)%Z] [] None))
  (Some (Build_desc None [(-1)%Z] [] None))
  (Some (Build_desc None [(-1)%Z] [] None))
  None
  (Some (bs "GM")) None None None None
  None None None None
  []
  []
  None None None.

Definition sh_GN : meta := Eval vm_compute in Build_meta
  (Some (Build_desc (Some (bs "[14]\d\d(?:\d{2})?")) [(3)%Z; (5)%Z] [] None))
  None
  None
  (Some (Build_desc None [(-1)%Z] [] None))
  (Some (Build_desc None [(-1)%Z] [] None))
  None
  None
  None
  None
  None
  (Some (Build_desc None [(-1)%Z] [] None))
  None
  (Some (Build_desc (Some (bs "12\d|40404")) [] [] (Some (bs "120"))))
  (Some (Build_desc None [(-1)%Z] [] None))
  (Some (Build_desc (Some (bs "404\d\d")) [(5)%Z] [] (Some (bs "40400"))))
  (Some (Build_desc (Some (bs "404\d\d")) [(5)%Z] [] (Some (bs "40400"))))
  None
  (Some (bs "GN")) None None None None
  None None None None
  []
  []
  None None None.

Definition sh_GP : meta := Eval vm_compute in Build_meta
  (Some (Build_desc (Some (bs "[13]\d(?:\d\d(?:\d{2})?)?")) [(2)%Z; (4)%Z; (6)%Z] [] None))
  None
  None
  (Some (Build_desc (Some (bs "1[578]|3(?:00|1[0-689])\d")) [(2)%Z; (4)%Z] [] (Some (bs "15"))))
  (Some (Build_desc (Some (bs "3[2469]\d\d")) [(4)%Z] [] (Some (bs "3200"))))
  None
  None
  None
  None
  None
  (Some (Build_desc (Some (bs "1[578]")) [(2)%Z] [] (Some (bs "15"))))
  None
  (Some (Build_desc (Some (bs "1[578]|3(?:00[0-79]|1[0-689]\d)|(?:118[02-9]|3[2469])\d\d")) [] [] (Some (bs "15"))))
  (Some (Build_desc None [(-1)%Z] [] None))
  (Some (Build_desc None [(-1)%Z] [] None))
  (Some (Build_desc None [(-1)%Z] [] None))
  None
  (Some (bs "GP")) None None None None
  None None None None
  []
  []
  None None None.

Definition sh_GR : meta := Eval vm_compute in Build_meta
  (Some (Build_desc (Some (bs "1\d\d(?:\d{2,3})?")) [(3)%Z; (5)%Z; (6)%Z] [] None))
  None
  None
  (Some (Build_desc (Some (bs "1(?:0[089]|1(?:2|6\d{3})|66|99)")) [(3)%Z; (6)%Z] [] (Some (bs "100"))))
  (Some (Build_desc None [(-1)%Z] [] None))
  None
  None
  None
  None
  None
  (Some (Build_desc (Some (bs "1(?:00|12|66|99)")) [(3)%Z] [] (Some (bs "100"))))
  None
  (Some (Build_desc (Some (bs "1(?:0[089]|1(?:2|320|6(?:000|1(?:1[17]|23)))|(?:389|9)9|66)")) [] [] (Some (bs "100"))))
  (Some (Build_desc (Some (bs "113\d\d")) [(5)%Z] [] (Some (bs "11300"))))
  (Some (Build_desc None [(-1)%Z] [] None))
  (Some (Build_desc None [(-1)%Z] [] None))
  None
  (Some (bs "GR")) None None None None
  None None None None
  []
  []
  None None None.

Definition sh_GT : meta := Eval vm_compute in Build_meta
  (Some (Build_desc (Some (bs "[14]\d{2,4}")) [(3)%Z; (4)%Z; (5)%Z] [] None))
  None
  None
  (Some (Build_desc (Some (bs "1(?:10|2[03])")) [(3)%Z] [] (Some (bs "110"))))
  (Some (Build_desc None [(-1)%Z] [] None))
  None
  None
  None
  None
  None
  (Some (Build_desc (Some (bs "1(?:10|2[03])")) [(3)%Z] [] (Some (bs "110"))))
  None
  (Some (Build_desc (Some (bs "110|40404|1(?:2|[57]\d)\d")) [] [] (Some (bs "110"))))
  (Some (Build_desc None [(-1)%Z] [] None))
  (Some (Build_desc (Some (bs "404\d\d")) [(5)%Z] [] (Some (bs "40400"))))
  (Some (Build_desc (Some (bs "404\d\d")) [(5)%Z] [] (Some (bs "40400"))))
  None
  (Some (bs "GT")) None None None None
  None None None None
  []
  []
  None None None.

Definition sh_GU : meta := Eval vm_compute in Build_meta
  (Some (Build_desc (Some (bs "9\d\d")) [(3)%Z] [] None))
  None
  None
  (Some (Build_desc (Some (bs "9(?:11|88)")) [] [] (Some (bs "911"))))
  (Some (Build_desc None [(-1)%Z] [] None))
  None
  None
  None
  None
  None
  (Some (Build_desc (Some (bs "911")) [] [] (Some (bs "911"))))
  None
  (Some (Build_desc (Some (bs "9(?:11|88)")) [] [] (Some (bs "911"))))
  (Some (Build_desc None [(-1)%Z] [] None))
  (Some (Build_desc None [(-1)%Z] [] None))
  (Some (Build_desc None [(-1)%Z] [] None))
  None
  (Some (bs "GU")) None None None None
  None None None None
  []
  []
  None None None.

Definition sh_GW : meta := Eval vm_compute in Build_meta
  (Some (Build_desc (Some (bs "1\d\d")) [(3)%Z] [] None))
  None
  None
  (Some (Build_desc (Some (bs "11[378]")) [] [] (Some (bs "113"))))
  (Some (Build_desc None [(-1)%Z] [] None))
  None
  None
  None
  None
  None
  (Some (Build_desc (Some (bs "11[378]")) [] [] (Some (bs "113"))))
  None
  (Some (Build_desc (Some (bs "11[378]")) [] [] (Some (bs "113"))))
  (Some (Build_desc None [(-1)%Z] [] None))
  (Some (Build_desc None [(-1)%Z] [] None))
  (Some (Build_desc None [(-1)%Z] [] None))
  None
  (Some (bs "GW")) None None None None
  None None None None
  []
  []
  None None None.

Definition sh_GY : meta := Eval vm_compute in Build_meta
  (Some (Build_desc (Some (bs "[019]\d{2,3}")) [(3)%Z; (4)%Z] [] None))
  None
  None
  (Some (Build_desc (Some (bs "91[1-4]")) [(3)%Z] [] (Some (bs "911"))))
  (Some (Build_desc None [(-1)%Z] [] None))
  None
  None
  None
  None
  None
  (Some (Build_desc (Some (bs "91[1-3]")) [(3)%Z] [] (Some (bs "911"))))
  None
  (Some (Build_desc (Some (bs "0(?:02|(?:17|80)1|444|7(?:[67]7|9)|9(?:0[78]|[2-47]))|1(?:443|5[568])|91[1-4]")) [] [] (Some (bs "002"))))
  (Some (Build_desc None [(-1)%Z] [] None))
  (Some (Build_desc (Some (bs "144\d")) [(4)%Z] [] (Some (bs "1440"))))
  (Some (Build_desc (Some (bs "144\d")) [(4)%Z] [] (Some (bs "1440"))))
  None
  (Some (bs "GY")) None None None None
  None None None None
  []
  []
  None None None.

Definition sh_HK : meta := Eval vm_compute in Build_meta
  (Some (Build_desc (Some (bs "[19]\d{2,6}")) [(3)%Z; (4)%Z; (5)%Z; (6)%Z; (7)%Z] [] None))
  None
  None
  (Some (Build_desc (Some (bs "112|99[29]")) [(3)%Z] [] (Some (bs "112"))))
  (Some (Build_desc None [(-1)%Z] [] None))
  None
  None
  None
  None
  None
  (Some (Build_desc (Some (bs "112|99[29]")) [(3)%Z] [] (Some (bs "112"))))
  None
  (Some (Build_desc (Some (bs "1(?:0(?:(?:[0136]\d|2[14])\d{0,3}|8[138])|12|2(?:[0-3]\d{0,4}|(?:58|8[13])\d{0,3})|7(?:[135-9]\d{0,4}|219\d{0,2})|8(?:0(?:(?:[13]|60\d)\d|8)|1(?:0\d|[2-8])|2(?:0[5-9]|(?:18|2)2|3|8[128])|(?:(?:3[0-689]\d|7(?:2[1-389]|8[0235-9]|93))\d|8)\d|50[138]|6(?:1(?:11|86)|8)))|99[29]|10[0139]")) [] [] (Some (bs "100"))))
  (Some (Build_desc None [(-1)%Z] [] None))
  (Some (Build_desc (Some (bs "109|1(?:08|85\d)\d")) [(3)%Z; (4)%Z; (5)%Z] [] (Some (bs "109"))))
  (Some (Build_desc (Some (bs "992")) [(3)%Z] [] (Some (bs "992"))))
  None
  (Some (bs "HK")) None None None None
  None None None None
  []
  []
  None None None.

Definition sh_HN : meta := Eval vm_compute in Build_meta
  (Some (Build_desc (Some (bs "[14]\d\d(?:\d{2})?")) [(3)%Z; (5)%Z] [] None))
  None
  None
  (Some (Build_desc (Some (bs "199")) [(3)%Z] [] (Some (bs "199"))))
  (Some (Build_desc None [(-1)%Z] [] None))
  None
  None
  None
  None
  None
  (Some (Build_desc (Some (bs "199")) [(3)%Z] [] (Some (bs "199"))))
  None
  (Some (Build_desc (Some (bs "199|40404")) [] [] (Some (bs "199"))))
  (Some (Build_desc None [(-1)%Z] [] None))
  (Some (Build_desc (Some (bs "404\d\d")) [(5)%Z] [] (Some (bs "40400"))))
  (Some (Build_desc (Some (bs "404\d\d")) [(5)%Z] [] (Some (bs "40400"))))
  None
  (Some (bs "HN")) None None None None
  None None None None
  []
  []
  None None None.

Definition sh_HR : meta := Eval vm_compute in Build_meta
  (Some (Build_desc (Some (bs "[016-9]\d{1,5}")) [(2)%Z; (3)%Z; (4)%Z; (5)%Z; (6)%Z] [] None))
  None
  None
  (Some (Build_desc (Some (bs "1(?:12|9[2-4])|9[34]|1(?:16\d|39)\d\d")) [(2)%Z; (3)%Z; (5)%Z; (6)%Z] [] (Some (bs "93"))))
  (Some (Build_desc (Some (bs "06\d|(?:118|[6-8]\d{3})\d\d")) [(3)%Z; (5)%Z; (6)%Z] [] (Some (bs "060"))))
  None
  None
  None
  None
  None
  (Some (Build_desc (Some (bs "1(?:12|9[2-4])|9[34]")) [(2)%Z; (3)%Z] [] (Some (bs "93"))))
  None
  (Some (Build_desc (Some (bs "(?:06|[6-8]\d{4})\d|1(?:1(?:2|6(?:00[06]|1(?:1[17]|23))|8\d\d)|3977|9(?:[2-5]|87))|9[34]")) [] [] (Some (bs "93"))))
  (Some (Build_desc None [(-1)%Z] [] None))
  (Some (Build_desc (Some (bs "139\d\d")) [(5)%Z] [] (Some (bs "13900"))))
  (Some (Build_desc (Some (bs "139\d\d")) [(5)%Z] [] (Some (bs "13900"))))
  None
  (Some (bs "HR")) None None None None
  None None None None
  []
  []
  None None None.

Definition sh_HT : meta := Eval vm_compute in Build_meta
  (Some (Build_desc (Some (bs "[14]\d\d(?:\d{2})?")) [(3)%Z; (5)%Z] [] None))
  None
  None
  (Some (Build_desc (Some (bs "11[48]")) [(3)%Z] [] (Some (bs "114"))))
  (Some (Build_desc None [(-1)%Z] [] None))
  None
  None
  None
  None
  None
  (Some (Build_desc (Some (bs "11[48]")) [(3)%Z] [] (Some (bs "114"))))
  None
  (Some (Build_desc (Some (bs "11[48]|40404")) [] [] (Some (bs "114"))))
  (Some (Build_desc None [(-1)%Z] [] None))
  (Some (Build_desc (Some (bs "404\d\d")) [(5)%Z] [] (Some (bs "40400"))))
  (Some (Build_desc (Some (bs "404\d\d")) [(5)%Z] [] (Some (bs "40400"))))
  None
  (Some (bs "HT")) None None None None
  None None None None
  []
  []
  None None None.

Definition sh_HU : meta := Eval vm_compute in Build_meta
  (Some (Build_desc (Some (bs "1\d{2,5}")) [(3)%Z; (4)%Z; (5)%Z; (6)%Z] [] None))
  None
  None
  (Some (Build_desc (Some (bs "1(?:0[457]|12|4[0-4]\d)|1(?:16\d|37|45)\d\d")) [] [] (Some (bs "104"))))
  (Some (Build_desc None [(-1)%Z] [] None))
  None
  None
  None
  None
  None
  (Some (Build_desc (Some (bs "1(?:0[457]|12)")) [(3)%Z] [] (Some (bs "104"))))
  None
  (Some (Build_desc (Some (bs "1(?:0[457]|1(?:2|6(?:000|1(?:11|23))|800)|2(?:0[0-4]|1[013489]|2[0-5]|3[0-46]|4[0-24-68]|5[0-2568]|6[06]|7[0-25-7]|8[028]|9[08])|37(?:00|37|7[07])|4(?:0[0-5]|1[013-8]|2[034]|3[23]|4[02-9]|5(?:00|41|67))|777|8(?:1[27-9]|2[04]|40|[589]))")) [] [] (Some (bs "104"))))
  (Some (Build_desc None [(-1)%Z] [] None))
  (Some (Build_desc (Some (bs "1(?:4[0-4]|77)\d|1(?:18|2|45)\d\d")) [(4)%Z; (5)%Z] [] (Some (bs "1200"))))
  (Some (Build_desc (Some (bs "184\d")) [(4)%Z] [] (Some (bs "1840"))))
  None
  (Some (bs "HU")) None None None None
  None None None None
  []
  []
  None None None.

Definition sh_ID : meta := Eval vm_compute in Build_meta
  (Some (Build_desc (Some (bs "[178]\d\d(?:\d{2,3})?")) [(3)%Z; (5)%Z; (6)%Z] [] None))
  None
  None
  (Some (Build_desc (Some (bs "11[02389]")) [(3)%Z] [] (Some (bs "110"))))
  (Some (Build_desc None [(-1)%Z] [] None))
  None
  None
  None
  None
  None
  (Some (Build_desc (Some (bs "11[02389]")) [(3)%Z] [] (Some (bs "110"))))
  None
  (Some (Build_desc (Some (bs "1(?:1[02389]|40\d\d|50264)|71400|89887")) [] [] (Some (bs "110"))))
  (Some (Build_desc None [(-1)%Z] [] None))
  (Some (Build_desc (Some (bs "(?:714|898)\d\d")) [(5)%Z] [] (Some (bs "71400"))))
  (Some (Build_desc (Some (bs "714\d\d")) [(5)%Z] [] (Some (bs "71400"))))
  None
  (Some (bs "ID")) None None None None
  None None None None
  []
  []
  None None None.

Definition sh_IE : meta := Eval vm_compute in Build_meta
  (Some (Build_desc (Some (bs "[159]\d{2,5}")) [(3)%Z; (4)%Z; (5)%Z; (6)%Z] [] None))
  None
  None
  (Some (Build_desc (Some (bs "11(?:2|6\d{3})|999")) [(3)%Z; (6)%Z] [] (Some (bs "112"))))
  (Some (Build_desc (Some (bs "5[37]\d{3}")) [(5)%Z] [] (Some (bs "53000"))))
  None
  None
  None
  None
  None
  (Some (Build_desc (Some (bs "112|999")) [(3)%Z] [] (Some (bs "112"))))
  None
  (Some (Build_desc (Some (bs "11(?:2|6(?:00[06]|1(?:1[17]|23)))|999|(?:1(?:18|9)|5[0137]\d)\d\d")) [] [] (Some (bs "112"))))
  (Some (Build_desc (Some (bs "51\d{3}")) [(5)%Z] [] (Some (bs "51000"))))
  (Some (Build_desc (Some (bs "51210")) [(5)%Z] [] (Some (bs "51210"))))
  (Some (Build_desc (Some (bs "51210|(?:118|5[037]\d)\d\d")) [(5)%Z] [] (Some (bs "11800"))))
  None
  (Some (bs "IE")) None None None None
  None None None None
  []
  []
  None None None.

Definition sh_IL : meta := Eval vm_compute in Build_meta
  (Some (Build_desc (Some (bs "[12]\d{2,4}")) [(3)%Z; (4)%Z; (5)%Z] [] None))
  None
  None
  (Some (Build_desc (Some (bs "1(?:0[0-2]|12)")) [(3)%Z] [] (Some (bs "100"))))
  (Some (Build_desc None [(-1)%Z] [] None))
  None
  None
  None
  None
  None
  (Some (Build_desc (Some (bs "1(?:0[0-2]|12)")) [(3)%Z] [] (Some (bs "100"))))
  None
  (Some (Build_desc (Some (bs "1(?:0[0-2]|1(?:[013-9]\d|2)|[2-9]\d\d)|2407|(?:104|27)00")) [] [] (Some (bs "100"))))
  (Some (Build_desc None [(-1)%Z] [] None))
  (Some (Build_desc (Some (bs "104\d\d")) [(5)%Z] [] (Some (bs "10400"))))
  (Some (Build_desc (Some (bs "104\d\d")) [(5)%Z] [] (Some (bs "10400"))))
  None
  (Some (bs "IL")) None None None None
  None None None None
  []
  []
  None None None.

Definition sh_IM : meta := Eval vm_compute in Build_meta
  (Some (Build_desc (Some (bs "[189]\d\d(?:\d{2,3})?")) [(3)%Z; (5)%Z; (6)%Z] [] None))
  None
  None
  (Some (Build_desc (Some (bs "999")) [(3)%Z] [] (Some (bs "999"))))
  (Some (Build_desc None [(-1)%Z] [] None))
  None
  None
  None
  None
  None
  (Some (Build_desc (Some (bs "999")) [(3)%Z] [] (Some (bs "999"))))
  None
  (Some (Build_desc (Some (bs "1\d\d(?:\d{3})?|8(?:6444|9887)|999")) [] [] (Some (bs "100"))))
  (Some (Build_desc None [(-1)%Z] [] None))
  (Some (Build_desc None [(-1)%Z] [] None))
  (Some (Build_desc (Some (bs "8(?:64|98)\d\d")) [(5)%Z] [] (Some (bs "86400"))))
  None
  (Some (bs "IM")) None None None None
  None None None None
  []
  []
  None None None.

Definition sh_IN : meta := Eval vm_compute in Build_meta
  (Some (Build_desc (Some (bs "[12578]\d{2,8}")) [(3)%Z; (4)%Z; (5)%Z; (6)%Z; (7)%Z; (8)%Z; (9)%Z] [] None))
  None
  None
  (Some (Build_desc (Some (bs "1(?:0[0-248]|1[289]|21|[39][89]|4[01]|6(?:1|6\d?)|8[12])|777|800|1[05]5\d|1(?:07|51|94)\d\d?|(?:1(?:[05]5\d|70)\d|261)\d|1(?:0[369]|10|29|3[126]|9[0-256])\d")) [(3)%Z; (4)%Z; (5)%Z; (6)%Z] [] (Some (bs "100"))))
  (Some (Build_desc (Some (bs "11[67]\d{4}|56161561")) [(7)%Z; (8)%Z] [] (Some (bs "1160000"))))
  None
  None
  None
  None
  None
  (Some (Build_desc (Some (bs "1(?:0[0-28]|12|298)|2611")) [(3)%Z; (4)%Z] [] (Some (bs "100"))))
  None
  (Some (Build_desc (Some (bs "1(?:0(?:[0-248]|3[39]|5(?:010|6)|6[3468]|7(?:[01357]|[28]0?|4[01])|9[0135-9])|1(?:00|[289])|2(?:1|98)|3(?:11|2[0-2]|63|[89])|4[01]|5(?:1(?:0[0-36]|[127])|54)|6(?:1|6[01]?)|7000|8[12]|9(?:0[013-59]|12|25|4[4-9]\d?|50|6[1347]|[89]))|2611|5(?:0(?:0(?:0\d|1|20?)|325|5[2-79]\d{3,5})|1(?:234|555|717|818|96[49])|2(?:0(?:0[01]|[14]0)|151|555|666|888|9(?:06|99\d?))|3(?:0[01]0|131|553|(?:66|77)6)|(?:464|55[05])\d{1,3}|6(?:070|3[68]|43)|717\d)|777|800|5(?:05(?:0|1\d)|221|3(?:03|3[23]))\d{1,4}|5(?:(?:04|88)0|2(?:2[0267]|3[16])|4(?:1[04]|20|3[02])|5(?:3[16]|67)|6(?:06|[67]\d)|787|9(?:64|90))\d\d?|(?:1(?:05[79]|(?:1[67][0-2]|802)\d|55[23])\d|5(?:(?:00(?:0\d|1)|(?:304|616)\d\d)\d|1(?:0[12]|4[2-4])|2(?:2[3589]|3(?:1\d{3}|2)|4[04]|7[78])|4(?:[02]4|32\d{4}|4[04]|99)|5(?:1[25]|[36]5|4[45]|93)|7(?:(?:17\d|57)\d\d|[27]7|88)|8(?:3[4-69]|4[01]|5[58]|88(?:8\d\d|9)|99)|9(?:0(?:0|2\d{3})|55|6[67]|77|88)))\d")) [] [] (Some (bs "100"))))
  (Some (Build_desc (Some (bs "5(?:14(?:2[5-9]|[34]\d)|757555)")) [(5)%Z; (7)%Z] [] (Some (bs "51425"))))
  (Some (Build_desc (Some (bs "1(?:(?:1[67]\d\d|70)\d\d|55330|909)|5(?:300\d|6161(?:17[89]|561))|1(?:[19][89]|21|4[01])")) [(3)%Z; (4)%Z; (5)%Z; (6)%Z; (7)%Z; (8)%Z] [] (Some (bs "118"))))
  (Some (Build_desc (Some (bs "1(?:39|90[019])|5(?:14(?:2[5-9]|[34]\d)|6161(?:17[89]|561)|757555)")) [(3)%Z; (4)%Z; (5)%Z; (7)%Z; (8)%Z] [] (Some (bs "139"))))
  None
  (Some (bs "IN")) None None None None
  None None None None
  []
  []
  None None None.

Definition sh_IQ : meta := Eval vm_compute in Build_meta
  (Some (Build_desc (Some (bs "[1479]\d{2,4}")) [(3)%Z; (4)%Z; (5)%Z] [] None))
  None
  None
  (Some (Build_desc (Some (bs "1(?:0[04]|15|22)")) [(3)%Z] [] (Some (bs "100"))))
  (Some (Build_desc None [(-1)%Z] [] None))
  None
  None
  None
  None
  None
  (Some (Build_desc (Some (bs "1(?:0[04]|15|22)")) [(3)%Z] [] (Some (bs "100"))))
  None
  (Some (Build_desc (Some (bs "1(?:0[04]|15|22)|4432|71117|9988")) [] [] (Some (bs "100"))))
  (Some (Build_desc None [(-1)%Z] [] None))
  (Some (Build_desc (Some (bs "(?:443|711\d|998)\d")) [(4)%Z; (5)%Z] [] (Some (bs "4430"))))
  (Some (Build_desc (Some (bs "(?:443|711\d|998)\d")) [(4)%Z; (5)%Z] [] (Some (bs "4430"))))
  None
  (Some (bs "IQ")) None None None None
  None None None None
  []
  []
  None None None.

Definition sh_IR : meta := Eval vm_compute in Build_meta
  (Some (Build_desc (Some (bs "[129]\d{2,5}")) [(3)%Z; (4)%Z; (5)%Z; (6)%Z] [] None))
  None
  None
  (Some (Build_desc (Some (bs "1(?:1[0-68]|2[0-59]|9[0-579])|911")) [(3)%Z] [] (Some (bs "110"))))
  (Some (Build_desc None [(-1)%Z] [] None))
  None
  None
  None
  None
  None
  (Some (Build_desc (Some (bs "1(?:1[025]|25)|911")) [(3)%Z] [] (Some (bs "110"))))
  None
  (Some (Build_desc (Some (bs "1(?:1[0-68]|2[0-59]|3[346-8]|4(?:[0147]|[289]0)|5(?:0[14]|1[02479]|2[0-3]|39|[49]0|65)|6(?:[16]6|[27]|90)|8(?:03|1[18]|22|3[37]|4[28]|88|99)|9[0-579])|20(?:[09]0|1(?:[038]|1[079]|26|9[69])|2[01])|9(?:11|9(?:0009|90))")) [] [] (Some (bs "110"))))
  (Some (Build_desc (Some (bs "1(?:5[0-469]|8[0-489])\d")) [(4)%Z] [] (Some (bs "1500"))))
  (Some (Build_desc (Some (bs "(?:1(?:5[0-469]|8[0-489])|99(?:0\d\d|9))\d")) [(4)%Z; (6)%Z] [] (Some (bs "1500"))))
  (Some (Build_desc (Some (bs "990\d{3}")) [(6)%Z] [] (Some (bs "990000"))))
  None
  (Some (bs "IR")) None None None None
  None None None None
  []
  []
  None None None.

Definition sh_IS : meta := Eval vm_compute in Build_meta
  (Some (Build_desc (Some (bs "1\d\d(?:\d(?:\d{2})?)?")) [(3)%Z; (4)%Z; (6)%Z] [] None))
  None
  None
  (Some (Build_desc (Some (bs "1(?:12|71\d)")) [(3)%Z; (4)%Z] [] (Some (bs "112"))))
  (Some (Build_desc None [(-1)%Z] [] None))
  None
  None
  None
  None
  None
  (Some (Build_desc (Some (bs "112")) [(3)%Z] [] (Some (bs "112"))))
  None
  (Some (Build_desc (Some (bs "1(?:1(?:[28]|61(?:16|23))|4(?:00|1[145]|4[0146])|55|7(?:00|17|7[07-9])|8(?:[02]0|1[16-9]|88)|900)")) [] [] (Some (bs "112"))))
  (Some (Build_desc None [(-1)%Z] [] None))
  (Some (Build_desc (Some (bs "14(?:0\d|41)")) [(4)%Z] [] (Some (bs "1400"))))
  (Some (Build_desc (Some (bs "1(?:415|90\d)")) [(4)%Z] [] (Some (bs "1415"))))
  None
  (Some (bs "IS")) None None None None
  None None None None
  []
  []
  None None None.

Definition sh_IT : meta := Eval vm_compute in Build_meta
  (Some (Build_desc (Some (bs "[14]\d{2,6}")) [(3)%Z; (4)%Z; (5)%Z; (6)%Z; (7)%Z] [] None))
  None
  None
  (Some (Build_desc (Some (bs "1(?:1(?:[2358]|6\d{3})|46|87)")) [(3)%Z; (6)%Z] [] (Some (bs "112"))))
  (Some (Build_desc (Some (bs "(?:12|4(?:[478](?:[0-4]|[5-9]\d\d)|55))\d\d")) [(4)%Z; (5)%Z; (7)%Z] [] (Some (bs "1200"))))
  None
  None
  None
  None
  None
  (Some (Build_desc (Some (bs "11[2358]")) [(3)%Z] [] (Some (bs "112"))))
  None
  (Some (Build_desc (Some (bs "1(?:0\d{2,3}|1(?:[2-57-9]|6(?:000|111))|3[39]|4(?:82|9\d{1,3})|5(?:00|1[58]|2[25]|3[03]|44|[59])|60|8[67]|9(?:[01]|2[2-9]|4\d|696))|4(?:2323|5045)|14\d|(?:1(?:2|92[01])|4(?:3(?:[01]|[45]\d\d)|[478](?:[0-4]|[5-9]\d\d)|55))\d\d")) [] [] (Some (bs "112"))))
  (Some (Build_desc None [(-1)%Z] [] None))
  (Some (Build_desc None [(-1)%Z] [] None))
  (Some (Build_desc (Some (bs "4(?:3(?:[01]|[45]\d\d)|[478](?:[0-4]|[5-9]\d\d)|5[05])\d\d")) [(5)%Z; (7)%Z] [] (Some (bs "43000"))))
  None
  (Some (bs "IT")) None None None None
  None None None None
  []
  []
  None None None.

Definition sh_JE : meta := Eval vm_compute in Build_meta
  (Some (Build_desc (Some (bs "[129]\d\d(?:\d(?:\d{2})?)?")) [(3)%Z; (4)%Z; (6)%Z] [] None))
  None
  None
  (Some (Build_desc (Some (bs "112|999")) [(3)%Z] [] (Some (bs "112"))))
  (Some (Build_desc None [(-1)%Z] [] None))
  None
  None
  None
  None
  None
  (Some (Build_desc (Some (bs "112|999")) [(3)%Z] [] (Some (bs "112"))))
  None
  (Some (Build_desc (Some (bs "1(?:00|1(?:2|8\d{3})|23|4(?:[14]|28|7\d)|5\d|7(?:0[12]|[128]|35?)|808|9[0135])|23[2-4]|999")) [] [] (Some (bs "100"))))
  (Some (Build_desc None [(-1)%Z] [] None))
  (Some (Build_desc None [(-1)%Z] [] None))
  (Some (Build_desc None [(-1)%Z] [] None))
  None
  (Some (bs "JE")) None None None None
  None None None None
  []
  []
  None None None.

Definition sh_JM : meta := Eval vm_compute in Build_meta
  (Some (Build_desc (Some (bs "[19]\d\d")) [(3)%Z] [] None))
  None
  None
  (Some (Build_desc (Some (bs "11[029]|9(?:11|88)")) [] [] (Some (bs "110"))))
  (Some (Build_desc None [(-1)%Z] [] None))
  None
  None
  None
  None
  None
  (Some (Build_desc (Some (bs "11[029]|911")) [] [] (Some (bs "110"))))
  None
  (Some (Build_desc (Some (bs "1(?:1[029]|76)|9(?:11|88)")) [] [] (Some (bs "110"))))
  (Some (Build_desc None [(-1)%Z] [] None))
  (Some (Build_desc (Some (bs "176")) [] [] (Some (bs "176"))))
  (Some (Build_desc (Some (bs "176")) [] [] (Some (bs "176"))))
  None
  (Some (bs "JM")) None None None None
  None None None None
  []
  []
  None None None.

Definition sh_JO : meta := Eval vm_compute in Build_meta
  (Some (Build_desc (Some (bs "[19]\d\d(?:\d{2})?")) [(3)%Z; (5)%Z] [] None))
  None
  None
  (Some (Build_desc (Some (bs "1(?:0[235]|1[2-6]|9[127])|911")) [(3)%Z] [] (Some (bs "102"))))
  (Some (Build_desc (Some (bs "9[0-4689]\d{3}")) [(5)%Z] [] (Some (bs "90000"))))
  None
  None
  None
  None
  None
  (Some (Build_desc (Some (bs "1(?:12|9[127])|911")) [(3)%Z] [] (Some (bs "112"))))
  None
  (Some (Build_desc (Some (bs "1(?:0[2359]|1[0-68]|9[0-24-79])|9[0-4689]\d{3}|911")) [] [] (Some (bs "102"))))
  (Some (Build_desc None [(-1)%Z] [] None))
  (Some (Build_desc (Some (bs "9[0-4689]\d{3}")) [(5)%Z] [] (Some (bs "90000"))))
  (Some (Build_desc (Some (bs "9[0-4689]\d{3}")) [(5)%Z] [] (Some (bs "90000"))))
  None
  (Some (bs "JO")) None None None None
  None None None None
  []
  []
  None None None.

Definition sh_JP : meta := Eval vm_compute in Build_meta
  (Some (Build_desc (Some (bs "[01]\d\d(?:\d{5,7})?")) [(3)%Z; (8)%Z; (9)%Z; (10)%Z] [] None))
  None
  None
  (Some (Build_desc (Some (bs "11[089]")) [(3)%Z] [] (Some (bs "110"))))
  (Some (Build_desc None [(-1)%Z] [] None))
  None
  None
  None
  None
  None
  (Some (Build_desc (Some (bs "11[09]")) [(3)%Z] [] (Some (bs "110"))))
  None
  (Some (Build_desc (Some (bs "000[2569]\d{4,6}|1(?:0[24]|1[089]|44|89)")) [] [] (Some (bs "102"))))
  (Some (Build_desc None [(-1)%Z] [] None))
  (Some (Build_desc None [(-1)%Z] [] None))
  (Some (Build_desc (Some (bs "000[2569]\d{4,6}")) [(8)%Z; (9)%Z; (10)%Z] [] (Some (bs "00020000"))))
  None
  (Some (bs "JP")) None None None None
  None None None None
  []
  []
  None None None.

Definition sh_KE : meta := Eval vm_compute in Build_meta
  (Some (Build_desc (Some (bs "[1-9]\d{2,4}")) [(3)%Z; (4)%Z; (5)%Z] [] None))
  None
  None
  (Some (Build_desc (Some (bs "1(?:1(?:[246]|9\d)|5(?:01|2[127]|6[26]\d))|999")) [] [] (Some (bs "112"))))
  (Some (Build_desc (Some (bs "909\d\d")) [(5)%Z] [] (Some (bs "90900"))))
  None
  None
  None
  None
  None
  (Some (Build_desc (Some (bs "11[24]|999")) [(3)%Z] [] (Some (bs "112"))))
  None
  (Some (Build_desc (Some (bs "1(?:0(?:[07-9]|1[0-25]|400)|1(?:[024-6]|9[0-579])|2[1-3]|3[01]|4[14]|5(?:[01][01]|2[0-24-79]|33|4[05]|5[59]|6(?:00|29|6[67]))|(?:6[035]\d|[78])\d|9(?:[02-9]\d\d|19))|(?:(?:2[0-79]|[37][0-29]|4[0-4]|6[2357]|8\d)\d|5(?:[0-7]\d|99))\d\d|9(?:09\d\d|99)|8988")) [] [] (Some (bs "100"))))
  (Some (Build_desc None [(-1)%Z] [] None))
  (Some (Build_desc (Some (bs "1(?:(?:04|6[35])\d\d|3[01]|4[14]|5(?:1\d|2[25]))|(?:(?:2[0-79]|[37][0-29]|4[0-4]|6[2357]|8\d)\d|5(?:[0-7]\d|99)|909)\d\d|898\d")) [] [] (Some (bs "130"))))
  (Some (Build_desc (Some (bs "1(?:(?:04|6[035])\d\d|4[14]|5(?:01|55|6[26]\d))|40404|8988|909\d\d")) [] [] (Some (bs "141"))))
  None
  (Some (bs "KE")) None None None None
  None None None None
  []
  []
  None None None.

Definition sh_KG : meta := Eval vm_compute in Build_meta
  (Some (Build_desc (Some (bs "[14]\d{2,3}")) [(3)%Z; (4)%Z] [] None))
  None
  None
  (Some (Build_desc (Some (bs "10[1-3]")) [(3)%Z] [] (Some (bs "101"))))
  (Some (Build_desc None [(-1)%Z] [] None))
  None
  None
  None
  None
  None
  (Some (Build_desc (Some (bs "10[1-3]")) [(3)%Z] [] (Some (bs "101"))))
  None
  (Some (Build_desc (Some (bs "10[1-3]|4040")) [] [] (Some (bs "101"))))
  (Some (Build_desc None [(-1)%Z] [] None))
  (Some (Build_desc (Some (bs "404\d")) [(4)%Z] [] (Some (bs "4040"))))
  (Some (Build_desc (Some (bs "404\d")) [(4)%Z] [] (Some (bs "4040"))))
  None
  (Some (bs "KG")) None None None None
  None None None None
  []
  []
  None None None.

Definition sh_KH : meta := Eval vm_compute in Build_meta
  (Some (Build_desc (Some (bs "[146]\d\d(?:\d{2})?")) [(3)%Z; (5)%Z] [] None))
  None
  None
  (Some (Build_desc (Some (bs "11[7-9]|666")) [(3)%Z] [] (Some (bs "117"))))
  (Some (Build_desc None [(-1)%Z] [] None))
  None
  None
  None
  None
  None
  (Some (Build_desc (Some (bs "11[7-9]|666")) [(3)%Z] [] (Some (bs "117"))))
  None
  (Some (Build_desc (Some (bs "11[7-9]|40404|666")) [] [] (Some (bs "117"))))
  (Some (Build_desc None [(-1)%Z] [] None))
  (Some (Build_desc (Some (bs "404\d\d")) [(5)%Z] [] (Some (bs "40400"))))
  (Some (Build_desc (Some (bs "404\d\d")) [(5)%Z] [] (Some (bs "40400"))))
  None
  (Some (bs "KH")) None None None None
  None None None None
  []
  []
  None None None.

Definition sh_KI : meta := Eval vm_compute in Build_meta
  (Some (Build_desc (Some (bs "[179]\d{2,3}")) [(3)%Z; (4)%Z] [] None))
  None
  None
  (Some (Build_desc (Some (bs "19[2-5]|99[2-4]")) [(3)%Z] [] (Some (bs "192"))))
  (Some (Build_desc None [(-1)%Z] [] None))
  None
  None
  None
  None
  None
  (Some (Build_desc (Some (bs "19[2-5]|99[2-4]")) [(3)%Z] [] (Some (bs "192"))))
  None
  (Some (Build_desc (Some (bs "1(?:05[0-259]|88|9[2-5])|777|99[2-4]|10[0-8]")) [] [] (Some (bs "100"))))
  (Some (Build_desc (Some (bs "103")) [(3)%Z] [] (Some (bs "103"))))
  (Some (Build_desc None [(-1)%Z] [] None))
  (Some (Build_desc None [(-1)%Z] [] None))
  None
  (Some (bs "KI")) None None None None
  None None None None
  []
  []
  None None None.

Definition sh_KM : meta := Eval vm_compute in Build_meta
  (Some (Build_desc (Some (bs "1\d")) [(2)%Z] [] None))
  None
  None
  (Some (Build_desc (Some (bs "1[78]")) [] [] (Some (bs "17"))))
  (Some (Build_desc None [(-1)%Z] [] None))
  None
  None
  None
  None
  None
  (Some (Build_desc (Some (bs "1[78]")) [] [] (Some (bs "17"))))
  None
  (Some (Build_desc (Some (bs "1[78]")) [] [] (Some (bs "17"))))
  (Some (Build_desc None [(-1)%Z] [] None))
  (Some (Build_desc None [(-1)%Z] [] None))
  (Some (Build_desc None [(-1)%Z] [] None))
  None
  (Some (bs "KM")) None None None None
  None None None None
  []
  []
  None None None.

Definition sh_KN : meta := Eval vm_compute in Build_meta
  (Some (Build_desc (Some (bs "[39]\d\d")) [(3)%Z] [] None))
  None
  None
  (Some (Build_desc (Some (bs "333|9(?:11|88|99)")) [] [] (Some (bs "333"))))
  (Some (Build_desc None [(-1)%Z] [] None))
  None
  None
  None
  None
  None
  (Some (Build_desc (Some (bs "333|9(?:11|99)")) [] [] (Some (bs "333"))))
  None
  (Some (Build_desc (Some (bs "333|9(?:11|88|99)")) [] [] (Some (bs "333"))))
  (Some (Build_desc None [(-1)%Z] [] None))
  (Some (Build_desc None [(-1)%Z] [] None))
  (Some (Build_desc None [(-1)%Z] [] None))
  None
  (Some (bs "KN")) None None None None
  None None None None
  []
  []
  None None None.

Definition sh_KP : meta := Eval vm_compute in Build_meta
  (Some (Build_desc (Some (bs "[18]\d\d")) [(3)%Z] [] None))
  None
  None
  (Some (Build_desc (Some (bs "11[29]|819")) [] [] (Some (bs "112"))))
  (Some (Build_desc None [(-1)%Z] [] None))
  None
  None
  None
  None
  None
  (Some (Build_desc (Some (bs "11[29]|819")) [] [] (Some (bs "112"))))
  None
  (Some (Build_desc (Some (bs "11[29]|819")) [] [] (Some (bs "112"))))
  (Some (Build_desc None [(-1)%Z] [] None))
  (Some (Build_desc None [(-1)%Z] [] None))
  (Some (Build_desc None [(-1)%Z] [] None))
  None
  (Some (bs "KP")) None None None None
  None None None None
  []
  []
  None None None.

Definition sh_KR : meta := Eval vm_compute in Build_meta
  (Some (Build_desc (Some (bs "1\d\d(?:\d(?:\d(?:\d{3})?)?)?")) [(3)%Z; (4)%Z; (5)%Z; (8)%Z] [] None))
  None
  None
  (Some (Build_desc (Some (bs "1(?:1[27-9]|28|330|82)")) [(3)%Z; (4)%Z] [] (Some (bs "112"))))
  (Some (Build_desc None [(-1)%Z] [] None))
  None
  None
  None
  None
  None
  (Some (Build_desc (Some (bs "11[29]")) [(3)%Z] [] (Some (bs "112"))))
  None
  (Some (Build_desc (Some (bs "1(?:[01679]114|3(?:0[01]|2|3[0-35-9]|45?|5[057]|6[569]|7[79]|8[2589]|9[0189])|55[15]\d{4}|8(?:(?:11|44|66)\d{4}|[28]))|1(?:0[015]|1\d|2[01357-9]|41|8114)")) [] [] (Some (bs "100"))))
  (Some (Build_desc None [(-1)%Z] [] None))
  (Some (Build_desc (Some (bs "1(?:0[01]|1[4-6]|41|8114)|1(?:[0679]1\d|111)\d")) [(3)%Z; (5)%Z] [] (Some (bs "100"))))
  (Some (Build_desc (Some (bs "1(?:55|8[146])\d{5}")) [(8)%Z] [] (Some (bs "15500000"))))
  None
  (Some (bs "KR")) None None None None
  None None None None
  []
  []
  None None None.

Definition sh_KW : meta := Eval vm_compute in Build_meta
  (Some (Build_desc (Some (bs "[18]\d\d(?:\d{2})?")) [(3)%Z; (5)%Z] [] None))
  None
  None
  (Some (Build_desc (Some (bs "112")) [(3)%Z] [] (Some (bs "112"))))
  (Some (Build_desc None [(-1)%Z] [] None))
  None
  None
  None
  None
  None
  (Some (Build_desc (Some (bs "112")) [(3)%Z] [] (Some (bs "112"))))
  None
  (Some (Build_desc (Some (bs "1[0-7]\d|89887")) [] [] (Some (bs "100"))))
  (Some (Build_desc None [(-1)%Z] [] None))
  (Some (Build_desc (Some (bs "898\d\d")) [(5)%Z] [] (Some (bs "89800"))))
  (Some (Build_desc None [(-1)%Z] [] None))
  None
  (Some (bs "KW")) None None None None
  None None None None
  []
  []
  None None None.

Definition sh_KY : meta := Eval vm_compute in Build_meta
  (Some (Build_desc (Some (bs "9\d\d")) [(3)%Z] [] None))
  None
  None
  (Some (Build_desc (Some (bs "9(?:11|88)")) [] [] (Some (bs "911"))))
  (Some (Build_desc None [(-1)%Z] [] None))
  None
  None
  None
  None
  None
  (Some (Build_desc (Some (bs "911")) [] [] (Some (bs "911"))))
  None
  (Some (Build_desc (Some (bs "9(?:11|88)")) [] [] (Some (bs "911"))))
  (Some (Build_desc None [(-1)%Z] [] None))
  (Some (Build_desc None [(-1)%Z] [] None))
  (Some (Build_desc None [(-1)%Z] [] None))
  None
  (Some (bs "KY")) None None None None
  None None None None
  []
  []
  None None None.

Definition sh_KZ : meta := Eval vm_compute in Build_meta
  (Some (Build_desc (Some (bs "[1-4]\d{2,4}")) [(3)%Z; (4)%Z; (5)%Z] [] None))
  None
  None
  (Some (Build_desc (Some (bs "1(?:0[1-3]|12)|212\d")) [(3)%Z; (4)%Z] [] (Some (bs "101"))))
  (Some (Build_desc None [(-1)%Z] [] None))
  None
  None
  None
  None
  None
  (Some (Build_desc (Some (bs "1(?:0[1-3]|12)")) [(3)%Z] [] (Some (bs "101"))))
  None
  (Some (Build_desc (Some (bs "1(?:0[1-4]|12)|2121|(?:3040|404)0")) [] [] (Some (bs "101"))))
  (Some (Build_desc None [(-1)%Z] [] None))
  (Some (Build_desc (Some (bs "(?:304\d|404)\d")) [(4)%Z; (5)%Z] [] (Some (bs "4040"))))
  (Some (Build_desc (Some (bs "(?:304\d|404)\d")) [(4)%Z; (5)%Z] [] (Some (bs "4040"))))
  None
  (Some (bs "KZ")) None None None None
  None None None None
  []
  []
  None None None.

Definition sh_LA : meta := Eval vm_compute in Build_meta
  (Some (Build_desc (Some (bs "1\d\d")) [(3)%Z] [] None))
  None
  None
  (Some (Build_desc (Some (bs "19[015]")) [] [] (Some (bs "190"))))
  (Some (Build_desc None [(-1)%Z] [] None))
  None
  None
  None
  None
  None
  (Some (Build_desc (Some (bs "19[015]")) [] [] (Some (bs "190"))))
  None
  (Some (Build_desc (Some (bs "19[015]")) [] [] (Some (bs "190"))))
  (Some (Build_desc None [(-1)%Z] [] None))
  (Some (Build_desc None [(-1)%Z] [] None))
  (Some (Build_desc None [(-1)%Z] [] None))
  None
  (Some (bs "LA")) None None None None
  None None None None
  []
  []
  None None None.

Definition sh_LB : meta := Eval vm_compute in Build_meta
  (Some (Build_desc (Some (bs "[19]\d\d")) [(3)%Z] [] None))
  None
  None
  (Some (Build_desc (Some (bs "1(?:12|40|75)|999")) [] [] (Some (bs "112"))))
  (Some (Build_desc None [(-1)%Z] [] None))
  None
  None
  None
  None
  None
  (Some (Build_desc (Some (bs "1(?:12|40|75)|999")) [] [] (Some (bs "112"))))
  None
  (Some (Build_desc (Some (bs "1(?:12|40|75)|999")) [] [] (Some (bs "112"))))
  (Some (Build_desc None [(-1)%Z] [] None))
  (Some (Build_desc None [(-1)%Z] [] None))
  (Some (Build_desc None [(-1)%Z] [] None))
  None
  (Some (bs "LB")) None None None None
  None None None None
  []
  []
  None None None.

Definition sh_LC : meta := Eval vm_compute in Build_meta
  (Some (Build_desc (Some (bs "9\d\d")) [(3)%Z] [] None))
  None
  None
  (Some (Build_desc (Some (bs "9(?:11|88|99)")) [] [] (Some (bs "911"))))
  (Some (Build_desc None [(-1)%Z] [] None))
  None
  None
  None
  None
  None
  (Some (Build_desc (Some (bs "9(?:11|99)")) [] [] (Some (bs "911"))))
  None
  (Some (Build_desc (Some (bs "9(?:11|88|99)")) [] [] (Some (bs "911"))))
  (Some (Build_desc None [(-1)%Z] [] None))
  (Some (Build_desc None [(-1)%Z] [] None))
  (Some (Build_desc None [(-1)%Z] [] None))
  None
  (Some (bs "LC")) None None None None
  None None None None
  []
  []
  None None None.

Definition sh_LI : meta := Eval vm_compute in Build_meta
  (Some (Build_desc (Some (bs "1\d{2,3}")) [(3)%Z; (4)%Z] [] None))
  None
  None
  (Some (Build_desc (Some (bs "1(?:1[278]|44)")) [(3)%Z] [] (Some (bs "112"))))
  (Some (Build_desc None [(-1)%Z] [] None))
  None
  None
  None
  None
  None
  (Some (Build_desc (Some (bs "1(?:1[278]|44)")) [(3)%Z] [] (Some (bs "112"))))
  None
  (Some (Build_desc (Some (bs "1(?:1(?:[278]|45)|4[3-57]|50|75|81[18])")) [] [] (Some (bs "112"))))
  (Some (Build_desc None [(-1)%Z] [] None))
  (Some (Build_desc None [(-1)%Z] [] None))
  (Some (Build_desc None [(-1)%Z] [] None))
  None
  (Some (bs "LI")) None None None None
  None None None None
  []
  []
  None None None.

Definition sh_LK : meta := Eval vm_compute in Build_meta
  (Some (Build_desc (Some (bs "1\d{2,3}")) [(3)%Z; (4)%Z] [] None))
  None
  None
  (Some (Build_desc (Some (bs "11[02689]")) [(3)%Z] [] (Some (bs "110"))))
  (Some (Build_desc None [(-1)%Z] [] None))
  None
  None
  None
  None
  None
  (Some (Build_desc (Some (bs "11[02689]")) [(3)%Z] [] (Some (bs "110"))))
  None
  (Some (Build_desc (Some (bs "1(?:1[024-9]|3(?:00|1[2-49]|2[23]|3[1-3]|44|5[07]|[67]9|88|9[039])|9(?:0[0-2589]|1[0-357-9]|2[0-25689]|3[0389]|4[0489]|5[014-69]|6[0-2689]|7[03579]|8[02457-9]|9[0-2569]))")) [] [] (Some (bs "110"))))
  (Some (Build_desc None [(-1)%Z] [] None))
  (Some (Build_desc None [(-1)%Z] [] None))
  (Some (Build_desc None [(-1)%Z] [] None))
  None
  (Some (bs "LK")) None None None None
  None None None None
  []
  []
  None None None.

Definition sh_LR : meta := Eval vm_compute in Build_meta
  (Some (Build_desc (Some (bs "[3489]\d{2,3}")) [(3)%Z; (4)%Z] [] None))
  None
  None
  (Some (Build_desc (Some (bs "355|911")) [(3)%Z] [] (Some (bs "355"))))
  (Some (Build_desc None [(-1)%Z] [] None))
  None
  None
  None
  None
  None
  (Some (Build_desc (Some (bs "355|911")) [(3)%Z] [] (Some (bs "355"))))
  None
  (Some (Build_desc (Some (bs "355|4040|8(?:400|933)|911")) [] [] (Some (bs "355"))))
  (Some (Build_desc None [(-1)%Z] [] None))
  (Some (Build_desc (Some (bs "(?:404|8(?:40|93))\d")) [(4)%Z] [] (Some (bs "4040"))))
  (Some (Build_desc (Some (bs "(?:404|8(?:40|93))\d")) [(4)%Z] [] (Some (bs "4040"))))
  None
  (Some (bs "LR")) None None None None
  None None None None
  []
  []
  None None None.

Definition sh_LS : meta := Eval vm_compute in Build_meta
  (Some (Build_desc (Some (bs "1\d\d")) [(3)%Z] [] None))
  None
  None
  (Some (Build_desc (Some (bs "11[257]")) [] [] (Some (bs "112"))))
  (Some (Build_desc None [(-1)%Z] [] None))
  None
  None
  None
  None
  None
  (Some (Build_desc (Some (bs "11[257]")) [] [] (Some (bs "112"))))
  None
  (Some (Build_desc (Some (bs "11[257]")) [] [] (Some (bs "112"))))
  (Some (Build_desc None [(-1)%Z] [] None))
  (Some (Build_desc None [(-1)%Z] [] None))
  (Some (Build_desc None [(-1)%Z] [] None))
  None
  (Some (bs "LS")) None None None None
  None None None None
  []
  []
  None None None.

Definition sh_LT : meta := Eval vm_compute in Build_meta
  (Some (Build_desc (Some (bs "[01]\d(?:\d(?:\d{3})?)?")) [(2)%Z; (3)%Z; (6)%Z] [] None))
  None
  None
  (Some (Build_desc (Some (bs "0(?:11?|22?|33?)|1(?:0[1-3]|1(?:2|6111))|116(?:0\d|12)\d")) [] [] (Some (bs "01"))))
  (Some (Build_desc None [(-1)%Z] [] None))
  None
  None
  None
  None
  None
  (Some (Build_desc (Some (bs "0(?:11?|22?|33?)|1(?:0[1-3]|12)")) [(2)%Z; (3)%Z] [] (Some (bs "01"))))
  None
  (Some (Build_desc (Some (bs "0(?:11?|22?|33?)|1(?:0[1-3]|1(?:[27-9]|6(?:000|1(?:1[17]|23))))")) [] [] (Some (bs "01"))))
  (Some (Build_desc None [(-1)%Z] [] None))
  (Some (Build_desc None [(-1)%Z] [] None))
  (Some (Build_desc None [(-1)%Z] [] None))
  None
  (Some (bs "LT")) None None None None
  None None None None
  []
  []
  None None None.

Definition sh_LU : meta := Eval vm_compute in Build_meta
  (Some (Build_desc (Some (bs "1\d{2,5}")) [(3)%Z; (4)%Z; (5)%Z; (6)%Z] [] None))
  None
  None
  (Some (Build_desc (Some (bs "11(?:[23]|6\d{3})")) [(3)%Z; (6)%Z] [] (Some (bs "112"))))
  (Some (Build_desc None [(-1)%Z] [] None))
  None
  None
  None
  None
  None
  (Some (Build_desc (Some (bs "11[23]")) [(3)%Z] [] (Some (bs "112"))))
  None
  (Some (Build_desc (Some (bs "11(?:[23]|6(?:000|111))|1(?:18|[25]\d|3)\d\d")) [] [] (Some (bs "112"))))
  (Some (Build_desc None [(-1)%Z] [] None))
  (Some (Build_desc None [(-1)%Z] [] None))
  (Some (Build_desc None [(-1)%Z] [] None))
  None
  (Some (bs "LU")) None None None None
  None None None None
  []
  []
  None None None.

Definition sh_LV : meta := Eval vm_compute in Build_meta
  (Some (Build_desc (Some (bs "[018]\d{1,5}")) [(2)%Z; (3)%Z; (4)%Z; (5)%Z; (6)%Z] [] None))
  None
  None
  (Some (Build_desc (Some (bs "0[1-3]|11(?:[023]|6\d{3})")) [(2)%Z; (3)%Z; (6)%Z] [] (Some (bs "01"))))
  (Some (Build_desc (Some (bs "1180|821\d\d")) [(4)%Z; (5)%Z] [] (Some (bs "1180"))))
  None
  None
  None
  None
  None
  (Some (Build_desc (Some (bs "0[1-3]|11[023]")) [(2)%Z; (3)%Z] [] (Some (bs "01"))))
  None
  (Some (Build_desc (Some (bs "0[1-4]|1(?:1(?:[02-4]|6(?:000|111)|8[0189])|(?:5|65)5|77)|821[57]4")) [] [] (Some (bs "01"))))
  (Some (Build_desc (Some (bs "1181")) [(4)%Z] [] (Some (bs "1181"))))
  (Some (Build_desc (Some (bs "165\d")) [(4)%Z] [] (Some (bs "1650"))))
  (Some (Build_desc None [(-1)%Z] [] None))
  None
  (Some (bs "LV")) None None None None
  None None None None
  []
  []
  None None None.

Definition sh_LY : meta := Eval vm_compute in Build_meta
  (Some (Build_desc (Some (bs "1\d\d")) [(3)%Z] [] None))
  None
  None
  (Some (Build_desc (Some (bs "19[013]")) [] [] (Some (bs "190"))))
  (Some (Build_desc None [(-1)%Z] [] None))
  None
  None
  None
  None
  None
  (Some (Build_desc (Some (bs "19[013]")) [] [] (Some (bs "190"))))
  None
  (Some (Build_desc (Some (bs "19[013]")) [] [] (Some (bs "190"))))
  (Some (Build_desc None [(-1)%Z] [] None))
  (Some (Build_desc None [(-1)%Z] [] None))
  (Some (Build_desc None [(-1)%Z] [] None))
  None
  (Some (bs "LY")) None None None None
  None None None None
  []
  []
  None None None.

Definition sh_MA : meta := Eval vm_compute in Build_meta
  (Some (Build_desc (Some (bs "1\d\d?")) [(2)%Z; (3)%Z] [] None))
  None
  None
  (Some (Build_desc (Some (bs "1(?:[59]|77)")) [] [] (Some (bs "15"))))
  (Some (Build_desc None [(-1)%Z] [] None))
  None
  None
  None
  None
  None
  (Some (Build_desc (Some (bs "1(?:[59]|77)")) [] [] (Some (bs "15"))))
  None
  (Some (Build_desc (Some (bs "1(?:[59]|77)")) [] [] (Some (bs "15"))))
  (Some (Build_desc None [(-1)%Z] [] None))
  (Some (Build_desc None [(-1)%Z] [] None))
  (Some (Build_desc None [(-1)%Z] [] None))
  None
  (Some (bs "MA")) None None None None
  None None None None
  []
  []
  None None None.

Definition sh_MC : meta := Eval vm_compute in Build_meta
  (Some (Build_desc (Some (bs "1\d\d?")) [(2)%Z; (3)%Z] [] None))
  None
  None
  (Some (Build_desc (Some (bs "1(?:12|[578])")) [] [] (Some (bs "15"))))
  (Some (Build_desc None [(-1)%Z] [] None))
  None
  None
  None
  None
  None
  (Some (Build_desc (Some (bs "1(?:12|[578])")) [] [] (Some (bs "15"))))
  None
  (Some (Build_desc (Some (bs "1(?:12|41|[578])")) [] [] (Some (bs "15"))))
  (Some (Build_desc None [(-1)%Z] [] None))
  (Some (Build_desc None [(-1)%Z] [] None))
  (Some (Build_desc None [(-1)%Z] [] None))
  None
  (Some (bs "MC")) None None None None
  None None None None
  []
  []
  None None None.

Definition sh_MD : meta := Eval vm_compute in Build_meta
  (Some (Build_desc (Some (bs "[19]\d{2,5}")) [(3)%Z; (4)%Z; (5)%Z; (6)%Z] [] None))
  None
  None
  (Some (Build_desc (Some (bs "11(?:2|6(?:000|1(?:11|2\d)))|90[1-3]")) [(3)%Z; (6)%Z] [] (Some (bs "112"))))
  (Some (Build_desc None [(-1)%Z] [] None))
  None
  None
  None
  None
  None
  (Some (Build_desc (Some (bs "112|90[1-3]")) [(3)%Z] [] (Some (bs "112"))))
  None
  (Some (Build_desc (Some (bs "1(?:1(?:2|6(?:00[06]|1(?:1[17]|23))|8\d\d?|99)|90[04-9])|90[1-3]|1(?:4\d\d|6[0-389]|9[1-4])\d")) [] [] (Some (bs "112"))))
  (Some (Build_desc None [(-1)%Z] [] None))
  (Some (Build_desc None [(-1)%Z] [] None))
  (Some (Build_desc None [(-1)%Z] [] None))
  None
  (Some (bs "MD")) None None None None
  None None None None
  []
  []
  None None None.

Definition sh_ME : meta := Eval vm_compute in Build_meta
  (Some (Build_desc (Some (bs "1\d{2,5}")) [(3)%Z; (4)%Z; (5)%Z; (6)%Z] [] None))
  None
  None
  (Some (Build_desc (Some (bs "1(?:12|2[2-4])")) [(3)%Z] [] (Some (bs "112"))))
  (Some (Build_desc None [(-1)%Z] [] None))
  None
  None
  None
  None
  None
  (Some (Build_desc (Some (bs "1(?:12|2[2-4])")) [(3)%Z] [] (Some (bs "112"))))
  None
  (Some (Build_desc (Some (bs "1(?:1(?:(?:[013-57-9]|6\d\d)\d|2)|[249]\d{3}|5999|8(?:0[089]|1[0-8]|888))|1(?:[02-5]\d\d|60[06]|700)|12\d")) [] [] (Some (bs "112"))))
  (Some (Build_desc None [(-1)%Z] [] None))
  (Some (Build_desc None [(-1)%Z] [] None))
  (Some (Build_desc None [(-1)%Z] [] None))
  None
  (Some (bs "ME")) None None None None
  None None None None
  []
  []
  None None None.

Definition sh_MF : meta := Eval vm_compute in Build_meta
  (Some (Build_desc (Some (bs "[13]\d(?:\d\d(?:\d{2})?)?")) [(2)%Z; (4)%Z; (6)%Z] [] None))
  None
  None
  (Some (Build_desc (Some (bs "1[578]|3(?:00|1[0-689])\d")) [(2)%Z; (4)%Z] [] (Some (bs "15"))))
  (Some (Build_desc (Some (bs "3[2469]\d\d")) [(4)%Z] [] (Some (bs "3200"))))
  None
  None
  None
  None
  None
  (Some (Build_desc (Some (bs "1[578]")) [(2)%Z] [] (Some (bs "15"))))
  None
  (Some (Build_desc (Some (bs "1[578]|3(?:00[0-79]|1[0-689]\d)|(?:118[02-9]|3[2469])\d\d")) [] [] (Some (bs "15"))))
  (Some (Build_desc None [(-1)%Z] [] None))
  (Some (Build_desc None [(-1)%Z] [] None))
  (Some (Build_desc None [(-1)%Z] [] None))
  None
  (Some (bs "MF")) None None None None
  None None None None
  []
  []
  None None None.

Definition sh_MG : meta := Eval vm_compute in Build_meta
  (Some (Build_desc (Some (bs "1\d\d?")) [(2)%Z; (3)%Z] [] None))
  None
  None
  (Some (Build_desc (Some (bs "1(?:1[78]|[78])")) [] [] (Some (bs "17"))))
  (Some (Build_desc None [(-1)%Z] [] None))
  None
  None
  None
  None
  None
  (Some (Build_desc (Some (bs "1(?:1[78]|[78])")) [] [] (Some (bs "17"))))
  None
  (Some (Build_desc (Some (bs "1(?:1[78]|[78])")) [] [] (Some (bs "17"))))
  (Some (Build_desc None [(-1)%Z] [] None))
  (Some (Build_desc None [(-1)%Z] [] None))
  (Some (Build_desc None [(-1)%Z] [] None))
  None
  (Some (bs "MG")) None None None None
  None None None None
  []
  []
  None None None.

Definition sh_MH : meta := Eval vm_compute in Build_meta
  (Some (Build_desc (Some (bs "9\d\d")) [(3)%Z] [] None))
  None
  None
  (Some (Build_desc (Some (bs "911")) [] [] (Some (bs "911"))))
  (Some (Build_desc None [(-1)%Z] [] None))
  None
  None
  None
  None
  None
  (Some (Build_desc (Some (bs "911")) [] [] (Some (bs "911"))))
  None
  (Some (Build_desc (Some (bs "911")) [] [] (Some (bs "911"))))
  (Some (Build_desc None [(-1)%Z] [] None))
  (Some (Build_desc None [(-1)%Z] [] None))
  (Some (Build_desc None [(-1)%Z] [] None))
  None
  (Some (bs "MH")) None None None None
  None None None None
  []
  []
  None None None.

Definition sh_MK : meta := Eval vm_compute in Build_meta
  (Some (Build_desc (Some (bs "1\d\d(?:\d(?:\d{2})?)?")) [(3)%Z; (4)%Z; (6)%Z] [] None))
  None
  None
  (Some (Build_desc (Some (bs "1(?:1(?:2|6\d{3})|9[2-4])")) [(3)%Z; (6)%Z] [] (Some (bs "112"))))
  (Some (Build_desc None [(-1)%Z] [] None))
  None
  None
  None
  None
  None
  (Some (Build_desc (Some (bs "1(?:12|9[2-4])")) [(3)%Z] [] (Some (bs "112"))))
  None
  (Some (Build_desc (Some (bs "1(?:1(?:2|8\d)|3\d|9[2-4])|1(?:16|2\d)\d{3}")) [] [] (Some (bs "112"))))
  (Some (Build_desc None [(-1)%Z] [] None))
  (Some (Build_desc None [(-1)%Z] [] None))
  (Some (Build_desc None [(-1)%Z] [] None))
  None
  (Some (bs "MK")) None None None None
  None None None None
  []
  []
  None None None.

Definition sh_ML : meta := Eval vm_compute in Build_meta
  (Some (Build_desc (Some (bs "[136-8]\d{1,4}")) [(2)%Z; (3)%Z; (4)%Z; (5)%Z] [] None))
  None
  None
  (Some (Build_desc (Some (bs "1[578]|(?:352|67)00|7402|(?:677|744|8000)\d")) [(2)%Z; (4)%Z; (5)%Z] [] (Some (bs "15"))))
  (Some (Build_desc (Some (bs "(?:12|800)2\d|3(?:52(?:11|2[02]|3[04-6]|99)|7574)")) [(4)%Z; (5)%Z] [] (Some (bs "1220"))))
  None
  None
  None
  None
  None
  (Some (Build_desc (Some (bs "1[578]")) [(2)%Z] [] (Some (bs "15"))))
  None
  (Some (Build_desc (Some (bs "1(?:1(?:[013-9]\d|2)|2(?:1[02-469]|2[13])|[578])|350(?:35|57)|67(?:0[09]|[59]9|77|8[89])|74(?:0[02]|44|55)|800[0-2][12]|3(?:52|[67]\d)\d\d")) [] [] (Some (bs "15"))))
  (Some (Build_desc (Some (bs "37(?:433|575)|7400|8001\d")) [(4)%Z; (5)%Z] [] (Some (bs "7400"))))
  (Some (Build_desc (Some (bs "3503\d|(?:3[67]\d|800)\d\d")) [(5)%Z] [] (Some (bs "35030"))))
  (Some (Build_desc (Some (bs "374(?:0[24-9]|[1-9]\d)|7400|3(?:6\d|75)\d\d")) [(4)%Z; (5)%Z] [] (Some (bs "7400"))))
  None
  (Some (bs "ML")) None None None None
  None None None None
  []
  []
  None None None.

Definition sh_MM : meta := Eval vm_compute in Build_meta
  (Some (Build_desc (Some (bs "1\d\d")) [(3)%Z] [] None))
  None
  None
  (Some (Build_desc (Some (bs "199")) [] [] (Some (bs "199"))))
  (Some (Build_desc None [(-1)%Z] [] None))
  None
  None
  None
  None
  None
  (Some (Build_desc (Some (bs "199")) [] [] (Some (bs "199"))))
  None
  (Some (Build_desc (Some (bs "199")) [] [] (Some (bs "199"))))
  (Some (Build_desc None [(-1)%Z] [] None))
  (Some (Build_desc None [(-1)%Z] [] None))
  (Some (Build_desc None [(-1)%Z] [] None))
  None
  (Some (bs "MM")) None None None None
  None None None None
  []
  []
  None None None.

Definition sh_MN : meta := Eval vm_compute in Build_meta
  (Some (Build_desc (Some (bs "1\d\d")) [(3)%Z] [] None))
  None
  None
  (Some (Build_desc (Some (bs "10[0-35]")) [] [] (Some (bs "100"))))
  (Some (Build_desc None [(-1)%Z] [] None))
  None
  None
  None
  None
  None
  (Some (Build_desc (Some (bs "10[0-35]")) [] [] (Some (bs "100"))))
  None
  (Some (Build_desc (Some (bs "10[0-35]")) [] [] (Some (bs "100"))))
  (Some (Build_desc None [(-1)%Z] [] None))
  (Some (Build_desc None [(-1)%Z] [] None))
  (Some (Build_desc None [(-1)%Z] [] None))
  None
  (Some (bs "MN")) None None None None
  None None None None
  []
  []
  None None None.

Definition sh_MO : meta := Eval vm_compute in Build_meta
  (Some (Build_desc (Some (bs "9\d\d")) [(3)%Z] [] None))
  None
  None
  (Some (Build_desc (Some (bs "999")) [] [] (Some (bs "999"))))
  (Some (Build_desc None [(-1)%Z] [] None))
  None
  None
  None
  None
  None
  (Some (Build_desc (Some (bs "999")) [] [] (Some (bs "999"))))
  None
  (Some (Build_desc (Some (bs "999")) [] [] (Some (bs "999"))))
  (Some (Build_desc None [(-1)%Z] [] None))
  (Some (Build_desc None [(-1)%Z] [] None))
  (Some (Build_desc None [(-1)%Z] [] None))
  None
  (Some (bs "MO")) None None None None
  None None None None
  []
  []
  None None None.

Definition sh_MP : meta := Eval vm_compute in Build_meta
  (Some (Build_desc (Some (bs "9\d\d")) [(3)%Z] [] None))
  None
  None
  (Some (Build_desc (Some (bs "9(?:11|88)")) [] [] (Some (bs "911"))))
  (Some (Build_desc None [(-1)%Z] [] None))
  None
  None
  None
  None
  None
  (Some (Build_desc (Some (bs "911")) [] [] (Some (bs "911"))))
  None
  (Some (Build_desc (Some (bs "9(?:11|88)")) [] [] (Some (bs "911"))))
  (Some (Build_desc None [(-1)%Z] [] None))
  (Some (Build_desc None [(-1)%Z] [] None))
  (Some (Build_desc None [(-1)%Z] [] None))
  None
  (Some (bs "MP")) None None None None
  None None None None
  []
  []
  None None None.

Definition sh_MQ : meta := Eval vm_compute in Build_meta
  (Some (Build_desc (Some (bs "[13]\d(?:\d(?:\d(?:\d{2})?)?)?")) [(2)%Z; (3)%Z; (4)%Z; (6)%Z] [] None))
  None
  None
  (Some (Build_desc (Some (bs "1(?:12|[578])|3[01]\d\d")) [(2)%Z; (3)%Z; (4)%Z] [] (Some (bs "15"))))
  (Some (Build_desc (Some (bs "3[2469]\d\d")) [(4)%Z] [] (Some (bs "3200"))))
  None
  None
  None
  None
  None
  (Some (Build_desc (Some (bs "1(?:12|[578])")) [(2)%Z; (3)%Z] [] (Some (bs "15"))))
  None
  (Some (Build_desc (Some (bs "1(?:12|[578])|(?:118[02-9]|3[0-2469])\d\d")) [] [] (Some (bs "15"))))
  (Some (Build_desc (Some (bs "118\d{3}")) [(6)%Z] [] (Some (bs "118000"))))
  (Some (Build_desc None [(-1)%Z] [] None))
  (Some (Build_desc None [(-1)%Z] [] None))
  None
  (Some (bs "MQ")) None None None None
  None None None None
  []
  []
  None None None.

Definition sh_MR : meta := Eval vm_compute in Build_meta
  (Some (Build_desc (Some (bs "1\d")) [(2)%Z] [] None))
  None
  None
  (Some (Build_desc (Some (bs "1[78]")) [] [] (Some (bs "17"))))
  (Some (Build_desc None [(-1)%Z] [] None))
  None
  None
  None
  None
  None
  (Some (Build_desc (Some (bs "1[78]")) [] [] (Some (bs "17"))))
  None
  (Some (Build_desc (Some (bs "1[78]")) [] [] (Some (bs "17"))))
  (Some (Build_desc None [(-1)%Z] [] None))
  (Some (Build_desc None [(-1)%Z] [] None))
  (Some (Build_desc None [(-1)%Z] [] None))
  None
  (Some (bs "MR")) None None None None
  None None None None
  []
  []
  None None None.

Definition sh_MS : meta := Eval vm_compute in Build_meta
  (Some (Build_desc (Some (bs "[29]\d\d")) [(3)%Z] [] None))
  None
  None
  (Some (Build_desc (Some (bs "9(?:11|88|99)")) [] [] (Some (bs "911"))))
  (Some (Build_desc None [(-1)%Z] [] None))
  None
  None
  None
  None
  None
  (Some (Build_desc (Some (bs "9(?:11|99)")) [] [] (Some (bs "911"))))
  None
  (Some (Build_desc (Some (bs "211|9(?:11|88|99)")) [] [] (Some (bs "211"))))
  (Some (Build_desc None [(-1)%Z] [] None))
  (Some (Build_desc None [(-1)%Z] [] None))
  (Some (Build_desc None [(-1)%Z] [] None))
  None
  (Some (bs "MS")) None None None None
  None None None None
  []
  []
  None None None.

Definition sh_MT : meta := Eval vm_compute in Build_meta
  (Some (Build_desc (Some (bs "1\d\d(?:\d{3})?")) [(3)%Z; (6)%Z] [] None))
  None
  None
  (Some (Build_desc (Some (bs "11(?:2|6\d{3})")) [] [] (Some (bs "112"))))
  (Some (Build_desc None [(-1)%Z] [] None))
  None
  None
  None
  None
  None
  (Some (Build_desc (Some (bs "112")) [(3)%Z] [] (Some (bs "112"))))
  None
  (Some (Build_desc (Some (bs "11(?:2|6(?:000|1(?:11|23)))")) [] [] (Some (bs "112"))))
  (Some (Build_desc None [(-1)%Z] [] None))
  (Some (Build_desc None [(-1)%Z] [] None))
  (Some (Build_desc None [(-1)%Z] [] None))
  None
  (Some (bs "MT")) None None None None
  None None None None
  []
  []
  None None None.

Definition sh_MU : meta := Eval vm_compute in Build_meta
  (Some (Build_desc (Some (bs "[189]\d{2,4}")) [(3)%Z; (4)%Z; (5)%Z] [] None))
  None
  None
  (Some (Build_desc (Some (bs "11[45]|99[59]")) [(3)%Z] [] (Some (bs "114"))))
  (Some (Build_desc None [(-1)%Z] [] None))
  None
  None
  None
  None
  None
  (Some (Build_desc (Some (bs "11[45]|99[59]")) [(3)%Z] [] (Some (bs "114"))))
  None
  (Some (Build_desc (Some (bs "1\d{2,4}|(?:8\d\d|99)\d")) [] [] (Some (bs "100"))))
  (Some (Build_desc None [(-1)%Z] [] None))
  (Some (Build_desc None [(-1)%Z] [] None))
  (Some (Build_desc None [(-1)%Z] [] None))
  None
  (Some (bs "MU")) None None None None
  None None None None
  []
  []
  None None None.

Definition sh_MV : meta := Eval vm_compute in Build_meta
  (Some (Build_desc (Some (bs "[14]\d{2,3}")) [(3)%Z; (4)%Z] [] None))
  None
  None
  (Some (Build_desc (Some (bs "1(?:02|1[89])")) [(3)%Z] [] (Some (bs "102"))))
  (Some (Build_desc None [(-1)%Z] [] None))
  None
  None
  None
  None
  None
  (Some (Build_desc (Some (bs "1(?:02|1[89])")) [(3)%Z] [] (Some (bs "102"))))
  None
  (Some (Build_desc (Some (bs "1(?:[0-37-9]|[4-6]\d)\d|4040|1[45]1")) [] [] (Some (bs "100"))))
  (Some (Build_desc None [(-1)%Z] [] None))
  (Some (Build_desc (Some (bs "1[45]1")) [(3)%Z] [] (Some (bs "141"))))
  (Some (Build_desc None [(-1)%Z] [] None))
  None
  (Some (bs "MV")) None None None None
  None None None None
  []
  []
  None None None.

Definition sh_MW : meta := Eval vm_compute in Build_meta
  (Some (Build_desc (Some (bs "[189]\d\d(?:\d{2})?")) [(3)%Z; (5)%Z] [] None))
  None
  None
  (Some (Build_desc (Some (bs "199|99[7-9]")) [(3)%Z] [] (Some (bs "199"))))
  (Some (Build_desc None [(-1)%Z] [] None))
  None
  None
  None
  None
  None
  (Some (Build_desc (Some (bs "199|99[7-9]")) [(3)%Z] [] (Some (bs "199"))))
  None
  (Some (Build_desc (Some (bs "199|80400|99[7-9]")) [] [] (Some (bs "199"))))
  (Some (Build_desc None [(-1)%Z] [] None))
  (Some (Build_desc (Some (bs "804\d\d")) [(5)%Z] [] (Some (bs "80400"))))
  (Some (Build_desc (Some (bs "804\d\d")) [(5)%Z] [] (Some (bs "80400"))))
  None
  (Some (bs "MW")) None None None None
  None None None None
  []
  []
  None None None.

Definition sh_MX : meta := Eval vm_compute in Build_meta
  (Some (Build_desc (Some (bs "[0579]\d{2,4}")) [(3)%Z; (4)%Z; (5)%Z] [] None))
  None
  None
  (Some (Build_desc (Some (bs "0(?:6[0568]|80)|911")) [(3)%Z] [] (Some (bs "060"))))
  (Some (Build_desc (Some (bs "(?:530\d|776)\d")) [(4)%Z; (5)%Z] [] (Some (bs "7760"))))
  None
  None
  None
  None
  None
  (Some (Build_desc (Some (bs "0(?:6[0568]|80)|911")) [(3)%Z] [] (Some (bs "060"))))
  None
  (Some (Build_desc (Some (bs "0[1-9]\d|53053|7766|911")) [] [] (Some (bs "010"))))
  (Some (Build_desc None [(-1)%Z] [] None))
  (Some (Build_desc (Some (bs "0(?:[249]0|[35][01])")) [(3)%Z] [] (Some (bs "020"))))
  (Some (Build_desc None [(-1)%Z] [] None))
  None
  (Some (bs "MX")) None None None None
  None None None None
  []
  []
  None None None.

Definition sh_MY : meta := Eval vm_compute in Build_meta
  (Some (Build_desc (Some (bs "[1369]\d{2,4}")) [(3)%Z; (4)%Z; (5)%Z] [] None))
  None
  None
  (Some (Build_desc (Some (bs "112|999")) [(3)%Z] [] (Some (bs "112"))))
  (Some (Build_desc None [(-1)%Z] [] None))
  None
  None
  None
  None
  None
  (Some (Build_desc (Some (bs "112|999")) [(3)%Z] [] (Some (bs "112"))))
  None
  (Some (Build_desc (Some (bs "1(?:0[01348]|1(?:[02]|1[128]|311)|2(?:0[125]|[13-6]|2\d{0,2})|(?:3[1-35-79]|7[45])\d\d?|5(?:454|5\d\d?|77|888|999?)|8(?:18?|2|8[18])|9(?:[124]\d?|68|71|9[0679]))|66628|99[1-469]|13[5-7]|(?:1(?:0[569]|309|5[12]|7[136-9]|9[03])|3[23679]\d\d)\d")) [] [] (Some (bs "100"))))
  (Some (Build_desc (Some (bs "666\d\d")) [(5)%Z] [] (Some (bs "66600"))))
  (Some (Build_desc None [(-1)%Z] [] None))
  (Some (Build_desc (Some (bs "(?:3[23679]\d|666)\d\d")) [(5)%Z] [] (Some (bs "32000"))))
  None
  (Some (bs "MY")) None None None None
  None None None None
  []
  []
  None None None.

Definition sh_MZ : meta := Eval vm_compute in Build_meta
  (Some (Build_desc (Some (bs "1\d{2,3}")) [(3)%Z; (4)%Z] [] None))
  None
  None
  (Some (Build_desc (Some (bs "1(?:1[79]|9[78])")) [(3)%Z] [] (Some (bs "117"))))
  (Some (Build_desc None [(-1)%Z] [] None))
  None
  None
  None
  None
  None
  (Some (Build_desc (Some (bs "1(?:1[79]|9[78])")) [(3)%Z] [] (Some (bs "117"))))
  None
  (Some (Build_desc (Some (bs "1(?:[02-5]\d\d|1[79]|9[78])")) [] [] (Some (bs "117"))))
  (Some (Build_desc None [(-1)%Z] [] None))
  (Some (Build_desc None [(-1)%Z] [] None))
  (Some (Build_desc None [(-1)%Z] [] None))
  None
  (Some (bs "MZ")) None None None None
  None None None None
  []
  []
  None None None.

Definition sh_NA : meta := Eval vm_compute in Build_meta
  (Some (Build_desc (Some (bs "[19]\d{2,4}")) [(3)%Z; (4)%Z; (5)%Z] [] None))
  None
  None
  (Some (Build_desc (Some (bs "10111")) [(5)%Z] [] (Some (bs "10111"))))
  (Some (Build_desc None [(-1)%Z] [] None))
  None
  None
  None
  None
  None
  (Some (Build_desc (Some (bs "10111")) [(5)%Z] [] (Some (bs "10111"))))
  None
  (Some (Build_desc (Some (bs "(?:10|93)111|(?:1\d|9)\d\d")) [] [] (Some (bs "900"))))
  (Some (Build_desc None [(-1)%Z] [] None))
  (Some (Build_desc None [(-1)%Z] [] None))
  (Some (Build_desc None [(-1)%Z] [] None))
  None
  (Some (bs "NA")) None None None None
  None None None None
  []
  []
  None None None.

Definition sh_NC : meta := Eval vm_compute in Build_meta
  (Some (Build_desc (Some (bs "[135]\d{1,3}")) [(2)%Z; (3)%Z; (4)%Z] [] None))
  None
  None
  (Some (Build_desc (Some (bs "1(?:0(?:00|1[23]|3[0-2]|8\d)|[5-8])|363\d|577")) [] [] (Some (bs "15"))))
  (Some (Build_desc None [(-1)%Z] [] None))
  None
  None
  None
  None
  None
  (Some (Build_desc (Some (bs "1[5-8]")) [(2)%Z] [] (Some (bs "15"))))
  None
  (Some (Build_desc (Some (bs "1(?:0(?:0[06]|1[02-46]|20|3[0-25]|42|5[058]|77|88)|[5-8])|3631|5[6-8]\d")) [] [] (Some (bs "15"))))
  (Some (Build_desc (Some (bs "5(?:67|88)")) [(3)%Z] [] (Some (bs "567"))))
  (Some (Build_desc None [(-1)%Z] [] None))
  (Some (Build_desc None [(-1)%Z] [] None))
  None
  (Some (bs "NC")) None None None None
  None None None None
  []
  []
  None None None.

Definition sh_NE : meta := Eval vm_compute in Build_meta
  (Some (Build_desc (Some (bs "[1-3578]\d(?:\d(?:\d{3})?)?")) [(2)%Z; (3)%Z; (6)%Z] [] None))
  None
  None
  (Some (Build_desc (Some (bs "1(?:18|[578])|723\d{3}")) [] [] (Some (bs "15"))))
  (Some (Build_desc None [(-1)%Z] [] None))
  None
  None
  None
  None
  None
  (Some (Build_desc (Some (bs "1(?:18|[578])|723141")) [] [] (Some (bs "15"))))
  None
  (Some (Build_desc (Some (bs "1(?:0[01]|1[128]|2[034]|3[013]|[46]0|55?|[78])|222|333|555|723141|888")) [] [] (Some (bs "15"))))
  (Some (Build_desc None [(-1)%Z] [] None))
  (Some (Build_desc (Some (bs "1(?:0[01]|1[12]|2[034]|3[013]|[46]0|55)|222|333|555|888")) [(3)%Z] [] (Some (bs "100"))))
  (Some (Build_desc None [(-1)%Z] [] None))
  None
  (Some (bs "NE")) None None None None
  None None None None
  []
  []
  None None None.

Definition sh_NF : meta := Eval vm_compute in Build_meta
  (Some (Build_desc (Some (bs "9\d\d")) [(3)%Z] [] None))
  None
  None
  (Some (Build_desc (Some (bs "9(?:11|55|77)")) [] [] (Some (bs "911"))))
  (Some (Build_desc None [(-1)%Z] [] None))
  None
  None
  None
  None
  None
  (Some (Build_desc (Some (bs "9(?:11|55|77)")) [] [] (Some (bs "911"))))
  None
  (Some (Build_desc (Some (bs "9(?:11|55|77)")) [] [] (Some (bs "911"))))
  (Some (Build_desc None [(-1)%Z] [] None))
  (Some (Build_desc None [(-1)%Z] [] None))
  (Some (Build_desc None [(-1)%Z] [] None))
  None
  (Some (bs "NF")) None None None None
  None None None None
  []
  []
  None None None.

Definition sh_NG : meta := Eval vm_compute in Build_meta
  (Some (Build_desc (Some (bs "[14]\d\d(?:\d{2})?")) [(3)%Z; (5)%Z] [] None))
  None
  None
  (Some (Build_desc (Some (bs "199")) [(3)%Z] [] (Some (bs "199"))))
  (Some (Build_desc None [(-1)%Z] [] None))
  None
  None
  None
  None
  None
  (Some (Build_desc (Some (bs "199")) [(3)%Z] [] (Some (bs "199"))))
  None
  (Some (Build_desc (Some (bs "199|40700")) [] [] (Some (bs "199"))))
  (Some (Build_desc None [(-1)%Z] [] None))
  (Some (Build_desc (Some (bs "407\d\d")) [(5)%Z] [] (Some (bs "40700"))))
  (Some (Build_desc (Some (bs "407\d\d")) [(5)%Z] [] (Some (bs "40700"))))
  None
  (Some (bs "NG")) None None None None
  None None None None
  []
  []
  None None None.

Definition sh_NI : meta := Eval vm_compute in Build_meta
  (Some (Build_desc (Some (bs "[12467]\d{2,3}")) [(3)%Z; (4)%Z] [] None))
  None
  None
  (Some (Build_desc (Some (bs "1(?:1[58]|2[08])|737\d")) [] [] (Some (bs "115"))))
  (Some (Build_desc None [(-1)%Z] [] None))
  None
  None
  None
  None
  None
  (Some (Build_desc (Some (bs "1(?:1[58]|2[08])")) [(3)%Z] [] (Some (bs "115"))))
  None
  (Some (Build_desc (Some (bs "1(?:1[58]|200)|4878|7(?:010|373)|12[0158]|(?:19|[267]1)00")) [] [] (Some (bs "115"))))
  (Some (Build_desc None [(-1)%Z] [] None))
  (Some (Build_desc None [(-1)%Z] [] None))
  (Some (Build_desc None [(-1)%Z] [] None))
  None
  (Some (bs "NI")) None None None None
  None None None None
  []
  []
  None None None.

Definition sh_NL : meta := Eval vm_compute in Build_meta
  (Some (Build_desc (Some (bs "[1349]\d\d(?:\d(?:\d{2})?)?")) [(3)%Z; (4)%Z; (6)%Z] [] None))
  None
  None
  (Some (Build_desc (Some (bs "11(?:2|6\d{3})|911")) [(3)%Z; (6)%Z] [] (Some (bs "112"))))
  (Some (Build_desc None [(-1)%Z] [] None))
  None
  None
  None
  None
  None
  (Some (Build_desc (Some (bs "112|911")) [(3)%Z] [] (Some (bs "112"))))
  None
  (Some (Build_desc (Some (bs "1(?:1(?:2|6(?:00[06]|1(?:11|23)))|2(?:0[0-4]|3[34]|44)|3[03-9]\d|400|8(?:[02-9]\d|1[0-79]))|[34]000|911")) [] [] (Some (bs "112"))))
  (Some (Build_desc None [(-1)%Z] [] None))
  (Some (Build_desc (Some (bs "120\d")) [(4)%Z] [] (Some (bs "1200"))))
  (Some (Build_desc (Some (bs "[34]00\d")) [(4)%Z] [] (Some (bs "3000"))))
  None
  (Some (bs "NL")) None None None None
  None None None None
  []
  []
  None None None.

Definition sh_NO : meta := Eval vm_compute in Build_meta
  (Some (Build_desc (Some (bs "[01]\d{2,5}")) [(3)%Z; (4)%Z; (5)%Z; (6)%Z] [] None))
  None
  None
  (Some (Build_desc (Some (bs "11(?:[023]|6\d{3})")) [(3)%Z; (6)%Z] [] (Some (bs "110"))))
  (Some (Build_desc None [(-1)%Z] [] None))
  None
  None
  None
  None
  None
  (Some (Build_desc (Some (bs "11[023]")) [(3)%Z] [] (Some (bs "110"))))
  None
  (Some (Build_desc (Some (bs "04\d{3}|1(?:1(?:[0239]|61(?:1[17]|23))|2[048]|4(?:12|[59])|7[57]|8\d\d|90)")) [] [] (Some (bs "110"))))
  (Some (Build_desc None [(-1)%Z] [] None))
  (Some (Build_desc None [(-1)%Z] [] None))
  (Some (Build_desc (Some (bs "04\d{3}")) [(5)%Z] [] (Some (bs "04000"))))
  None
  (Some (bs "NO")) None None None None
  None None None None
  []
  []
  None None None.

Definition sh_NP : meta := Eval vm_compute in Build_meta
  (Some (Build_desc (Some (bs "1\d{2,3}")) [(3)%Z; (4)%Z] [] None))
  None
  None
  (Some (Build_desc (Some (bs "1(?:0[0-36]|12)|1(?:09|11)\d")) [] [] (Some (bs "100"))))
  (Some (Build_desc None [(-1)%Z] [] None))
  None
  None
  None
  None
  None
  (Some (Build_desc (Some (bs "1(?:0[0-3]|12)")) [(3)%Z] [] (Some (bs "100"))))
  None
  (Some (Build_desc (Some (bs "1(?:0(?:[0-36]|98)|1(?:1[1-4]|2))")) [] [] (Some (bs "100"))))
  (Some (Build_desc None [(-1)%Z] [] None))
  (Some (Build_desc None [(-1)%Z] [] None))
  (Some (Build_desc None [(-1)%Z] [] None))
  None
  (Some (bs "NP")) None None None None
  None None None None
  []
  []
  None None None.

Definition sh_NR : meta := Eval vm_compute in Build_meta
  (Some (Build_desc (Some (bs "1\d\d")) [(3)%Z] [] None))
  None
  None
  (Some (Build_desc (Some (bs "11[0-2]")) [] [] (Some (bs "110"))))
  (Some (Build_desc None [(-1)%Z] [] None))
  None
  None
  None
  None
  None
  (Some (Build_desc (Some (bs "11[0-2]")) [] [] (Some (bs "110"))))
  None
  (Some (Build_desc (Some (bs "1(?:1[0-2]|23|92)")) [] [] (Some (bs "110"))))
  (Some (Build_desc None [(-1)%Z] [] None))
  (Some (Build_desc None [(-1)%Z] [] None))
  (Some (Build_desc None [(-1)%Z] [] None))
  None
  (Some (bs "NR")) None None None None
  None None None None
  []
  []
  None None None.

Definition sh_NU : meta := Eval vm_compute in Build_meta
  (Some (Build_desc (Some (bs "[019]\d\d")) [(3)%Z] [] None))
  None
  None
  (Some (Build_desc (Some (bs "999")) [] [] (Some (bs "999"))))
  (Some (Build_desc None [(-1)%Z] [] None))
  None
  None
  None
  None
  None
  (Some (Build_desc (Some (bs "999")) [] [] (Some (bs "999"))))
  None
  (Some (Build_desc (Some (bs "01[05]|101|999")) [] [] (Some (bs "010"))))
  (Some (Build_desc None [(-1)%Z] [] None))
  (Some (Build_desc (Some (bs "010")) [] [] (Some (bs "010"))))
  (Some (Build_desc None [(-1)%Z] [] None))
  None
  (Some (bs "NU")) None None None None
  None None None None
  []
  []
  None None None.

Definition sh_NZ : meta := Eval vm_compute in Build_meta
  (Some (Build_desc (Some (bs "\d{3,4}")) [(3)%Z; (4)%Z] [] None))
  None
  None
  (Some (Build_desc (Some (bs "111")) [(3)%Z] [] (Some (bs "111"))))
  (Some (Build_desc (Some (bs "018")) [(3)%Z] [] (Some (bs "018"))))
  None
  None
  None
  None
  None
  (Some (Build_desc (Some (bs "111")) [(3)%Z] [] (Some (bs "111"))))
  None
  (Some (Build_desc (Some (bs "018|1(?:(?:1|37)1|(?:23|94)4|7[03]7)|[2-57-9]\d{2,3}|6(?:161|26[0-3]|742)")) [] [] (Some (bs "018"))))
  (Some (Build_desc None [(-1)%Z] [] None))
  (Some (Build_desc None [(-1)%Z] [] None))
  (Some (Build_desc (Some (bs "018|(?:1(?:23|37|7[03]|94)|6(?:[12]6|74))\d|[2-57-9]\d{2,3}")) [] [] (Some (bs "018"))))
  None
  (Some (bs "NZ")) None None None None
  None None None None
  []
  []
  None None None.

Definition sh_OM : meta := Eval vm_compute in Build_meta
  (Some (Build_desc (Some (bs "[19]\d{3}")) [(4)%Z] [] None))
  None
  None
  (Some (Build_desc (Some (bs "1444|999\d")) [] [] (Some (bs "1444"))))
  (Some (Build_desc None [(-1)%Z] [] None))
  None
  None
  None
  None
  None
  (Some (Build_desc (Some (bs "1444|9999")) [] [] (Some (bs "1444"))))
  None
  (Some (Build_desc (Some (bs "1(?:111|222|4(?:4[0-5]|50|66|7[7-9])|51[0-8])|9999|1(?:2[3-5]|3[0-2]|50)\d")) [] [] (Some (bs "1111"))))
  (Some (Build_desc None [(-1)%Z] [] None))
  (Some (Build_desc None [(-1)%Z] [] None))
  (Some (Build_desc None [(-1)%Z] [] None))
  None
  (Some (bs "OM")) None None None None
  None None None None
  []
  []
  None None None.

Definition sh_PA : meta := Eval vm_compute in Build_meta
  (Some (Build_desc (Some (bs "[19]\d\d")) [(3)%Z] [] None))
  None
  None
  (Some (Build_desc (Some (bs "911")) [] [] (Some (bs "911"))))
  (Some (Build_desc None [(-1)%Z] [] None))
  None
  None
  None
  None
  None
  (Some (Build_desc (Some (bs "911")) [] [] (Some (bs "911"))))
  None
  (Some (Build_desc (Some (bs "10[2-4]|911")) [] [] (Some (bs "102"))))
  (Some (Build_desc None [(-1)%Z] [] None))
  (Some (Build_desc None [(-1)%Z] [] None))
  (Some (Build_desc None [(-1)%Z] [] None))
  None
  (Some (bs "PA")) None None None None
  None None None None
  []
  []
  None None None.

Definition sh_PE : meta := Eval vm_compute in Build_meta
  (Some (Build_desc (Some (bs "1\d\d")) [(3)%Z] [] None))
  None
  None
  (Some (Build_desc (Some (bs "1(?:05|1[67])")) [] [] (Some (bs "105"))))
  (Some (Build_desc None [(-1)%Z] [] None))
  None
  None
  None
  None
  None
  (Some (Build_desc (Some (bs "1(?:05|1[67])")) [] [] (Some (bs "105"))))
  None
  (Some (Build_desc (Some (bs "1(?:05|1[67])")) [] [] (Some (bs "105"))))
  (Some (Build_desc None [(-1)%Z] [] None))
  (Some (Build_desc None [(-1)%Z] [] None))
  (Some (Build_desc None [(-1)%Z] [] None))
  None
  (Some (bs "PE")) None None None None
  None None None None
  []
  []
  None None None.

Definition sh_PF : meta := Eval vm_compute in Build_meta
  (Some (Build_desc (Some (bs "1\d")) [(2)%Z] [] None))
  None
  None
  (Some (Build_desc (Some (bs "1[578]")) [] [] (Some (bs "15"))))
  (Some (Build_desc None [(-1)%Z] [] None))
  None
  None
  None
  None
  None
  (Some (Build_desc (Some (bs "1[578]")) [] [] (Some (bs "15"))))
  None
  (Some (Build_desc (Some (bs "1[578]")) [] [] (Some (bs "15"))))
  (Some (Build_desc None [(-1)%Z] [] None))
  (Some (Build_desc None [(-1)%Z] [] None))
  (Some (Build_desc None [(-1)%Z] [] None))
  None
  (Some (bs "PF")) None None None None
  None None None None
  []
  []
  None None None.

Definition sh_PG : meta := Eval vm_compute in Build_meta
  (Some (Build_desc (Some (bs "[01]\d{2,6}")) [(3)%Z; (4)%Z; (5)%Z; (6)%Z; (7)%Z] [] None))
  None
  None
  (Some (Build_desc (Some (bs "000|11[01]")) [(3)%Z] [] (Some (bs "000"))))
  (Some (Build_desc None [(-1)%Z] [] None))
  None
  None
  None
  None
  None
  (Some (Build_desc (Some (bs "000|11[01]")) [(3)%Z] [] (Some (bs "000"))))
  None
  (Some (Build_desc (Some (bs "000|1(?:1[01]|5\d\d|6\d{2,5})")) [] [] (Some (bs "000"))))
  (Some (Build_desc None [(-1)%Z] [] None))
  (Some (Build_desc None [(-1)%Z] [] None))
  (Some (Build_desc (Some (bs "16\d{2,5}")) [(4)%Z; (5)%Z; (6)%Z; (7)%Z] [] (Some (bs "1600"))))
  None
  (Some (bs "PG")) None None None None
  None None None None
  []
  []
  None None None.

Definition sh_PH : meta := Eval vm_compute in Build_meta
  (Some (Build_desc (Some (bs "[19]\d\d")) [(3)%Z] [] None))
  None
  None
  (Some (Build_desc (Some (bs "11[27]|911")) [] [] (Some (bs "112"))))
  (Some (Build_desc None [(-1)%Z] [] None))
  None
  None
  None
  None
  None
  (Some (Build_desc (Some (bs "11[27]|911")) [] [] (Some (bs "112"))))
  None
  (Some (Build_desc (Some (bs "11[27]|911")) [] [] (Some (bs "112"))))
  (Some (Build_desc None [(-1)%Z] [] None))
  (Some (Build_desc None [(-1)%Z] [] None))
  (Some (Build_desc None [(-1)%Z] [] None))
  None
  (Some (bs "PH")) None None None None
  None None None None
  []
  []
  None None None.

Definition sh_PK : meta := Eval vm_compute in Build_meta
  (Some (Build_desc (Some (bs "1\d{1,3}")) [(2)%Z; (3)%Z; (4)%Z] [] None))
  None
  None
  (Some (Build_desc (Some (bs "1(?:1(?:2\d?|5)|[56])")) [] [] (Some (bs "15"))))
  (Some (Build_desc None [(-1)%Z] [] None))
  None
  None
  None
  None
  None
  (Some (Build_desc (Some (bs "1(?:1(?:22?|5)|[56])")) [] [] (Some (bs "15"))))
  None
  (Some (Build_desc (Some (bs "1(?:122|3[014]|[56])|11[2457-9]")) [] [] (Some (bs "15"))))
  (Some (Build_desc None [(-1)%Z] [] None))
  (Some (Build_desc None [(-1)%Z] [] None))
  (Some (Build_desc None [(-1)%Z] [] None))
  None
  (Some (bs "PK")) None None None None
  None None None None
  []
  []
  None None None.

Definition sh_PL : meta := Eval vm_compute in Build_meta
  (Some (Build_desc (Some (bs "[19]\d\d(?:\d{2,3})?")) [(3)%Z; (5)%Z; (6)%Z] [] None))
  None
  None
  (Some (Build_desc (Some (bs "11(?:2|6\d{3})|99[7-9]")) [(3)%Z; (6)%Z] [] (Some (bs "112"))))
  (Some (Build_desc None [(-1)%Z] [] None))
  None
  None
  None
  None
  None
  (Some (Build_desc (Some (bs "112|99[7-9]")) [(3)%Z] [] (Some (bs "112"))))
  None
  (Some (Build_desc (Some (bs "1(?:1(?:2|61(?:11|23)|891[23])|9\d{3})|9(?:8[4-7]|9[1-9])|11[68]000")) [] [] (Some (bs "112"))))
  (Some (Build_desc None [(-1)%Z] [] None))
  (Some (Build_desc None [(-1)%Z] [] None))
  (Some (Build_desc None [(-1)%Z] [] None))
  None
  (Some (bs "PL")) None None None None
  None None None None
  []
  []
  None None None.

Definition sh_PM : meta := Eval vm_compute in Build_meta
  (Some (Build_desc (Some (bs "[13]\d(?:\d\d(?:\d{2})?)?")) [(2)%Z; (4)%Z; (6)%Z] [] None))
  None
  None
  (Some (Build_desc (Some (bs "1[578]|310[0-245]|3(?:0\d|1[1-689])\d")) [(2)%Z; (4)%Z] [] (Some (bs "15"))))
  (Some (Build_desc (Some (bs "3[2469]\d\d")) [(4)%Z] [] (Some (bs "3200"))))
  None
  None
  None
  None
  None
  (Some (Build_desc (Some (bs "1[578]")) [(2)%Z] [] (Some (bs "15"))))
  None
  (Some (Build_desc (Some (bs "1[578]|31(?:0[0-5]|[1-689]\d)|(?:118[02-9]|3[02469])\d\d")) [] [] (Some (bs "15"))))
  (Some (Build_desc (Some (bs "118\d{3}")) [(6)%Z] [] (Some (bs "118000"))))
  (Some (Build_desc (Some (bs "3103")) [(4)%Z] [] (Some (bs "3103"))))
  (Some (Build_desc None [(-1)%Z] [] None))
  None
  (Some (bs "PM")) None None None None
  None None None None
  []
  []
  None None None.

Definition sh_PR : meta := Eval vm_compute in Build_meta
  (Some (Build_desc (Some (bs "9\d\d")) [(3)%Z] [] None))
  None
  None
  (Some (Build_desc (Some (bs "9(?:11|88)")) [] [] (Some (bs "911"))))
  (Some (Build_desc None [(-1)%Z] [] None))
  None
  None
  None
  None
  None
  (Some (Build_desc (Some (bs "911")) [] [] (Some (bs "911"))))
  None
  (Some (Build_desc (Some (bs "9(?:11|88)")) [] [] (Some (bs "911"))))
  (Some (Build_desc None [(-1)%Z] [] None))
  (Some (Build_desc None [(-1)%Z] [] None))
  (Some (Build_desc None [(-1)%Z] [] None))
  None
  (Some (bs "PR")) None None None None
  None None None None
  []
  []
  None None None.

Definition sh_PS : meta := Eval vm_compute in Build_meta
  (Some (Build_desc (Some (bs "1\d{2,3}")) [(3)%Z; (4)%Z] [] None))
  None
  None
  (Some (Build_desc (Some (bs "1(?:0[0-2]|66)")) [(3)%Z] [] (Some (bs "100"))))
  (Some (Build_desc None [(-1)%Z] [] None))
  None
  None
  None
  None
  None
  (Some (Build_desc (Some (bs "10[0-2]")) [(3)%Z] [] (Some (bs "100"))))
  None
  (Some (Build_desc (Some (bs "1(?:0[0-2]|122|44|66|99)")) [] [] (Some (bs "100"))))
  (Some (Build_desc None [(-1)%Z] [] None))
  (Some (Build_desc (Some (bs "112\d")) [(4)%Z] [] (Some (bs "1120"))))
  (Some (Build_desc None [(-1)%Z] [] None))
  None
  (Some (bs "PS")) None None None None
  None None None None
  []
  []
  None None None.

Definition sh_PT : meta := Eval vm_compute in Build_meta
  (Some (Build_desc (Some (bs "1\d\d(?:\d(?:\d{2})?)?")) [(3)%Z; (4)%Z; (6)%Z] [] None))
  None
  None
  (Some (Build_desc (Some (bs "11[257]|1(?:16\d\d|5[1589]|8[279])\d")) [] [] (Some (bs "112"))))
  (Some (Build_desc None [(-1)%Z] [] None))
  None
  None
  None
  None
  None
  (Some (Build_desc (Some (bs "11[25]")) [(3)%Z] [] (Some (bs "112"))))
  None
  (Some (Build_desc (Some (bs "1(?:0(?:45|5[01])|1(?:[2578]|600[06])|4(?:1[45]|4)|583|6(?:1[0236]|3[02]|9[169]))|1(?:1611|59)1|1[068]78|1[08]9[16]|1(?:0[1-38]|40|5[15]|6[258]|82)0")) [] [] (Some (bs "112"))))
  (Some (Build_desc None [(-1)%Z] [] None))
  (Some (Build_desc None [(-1)%Z] [] None))
  (Some (Build_desc None [(-1)%Z] [] None))
  None
  (Some (bs "PT")) None None None None
  None None None None
  []
  []
  None None None.

Definition sh_PW : meta := Eval vm_compute in Build_meta
  (Some (Build_desc (Some (bs "9\d\d")) [(3)%Z] [] None))
  None
  None
  (Some (Build_desc (Some (bs "911")) [] [] (Some (bs "911"))))
  (Some (Build_desc None [(-1)%Z] [] None))
  None
  None
  None
  None
  None
  (Some (Build_desc (Some (bs "911")) [] [] (Some (bs "911"))))
  None
  (Some (Build_desc (Some (bs "911")) [] [] (Some (bs "911"))))
  (Some (Build_desc None [(-1)%Z] [] None))
  (Some (Build_desc None [(-1)%Z] [] None))
  (Some (Build_desc None [(-1)%Z] [] None))
  None
  (Some (bs "PW")) None None None None
  None None None None
  []
  []
  None None None.

Definition sh_PY : meta := Eval vm_compute in Build_meta
  (Some (Build_desc (Some (bs "[12459]\d\d(?:\d{3,4})?")) [(3)%Z; (6)%Z; (7)%Z] [] None))
  None
  None
  (Some (Build_desc (Some (bs "128|911")) [(3)%Z] [] (Some (bs "128"))))
  (Some (Build_desc None [(-1)%Z] [] None))
  None
  None
  None
  None
  None
  (Some (Build_desc (Some (bs "128|911")) [(3)%Z] [] (Some (bs "128"))))
  None
  (Some (Build_desc (Some (bs "[1245][01]\d{5}|(?:1[1-9]|[245]0\d{3})\d|911")) [] [] (Some (bs "110"))))
  (Some (Build_desc None [(-1)%Z] [] None))
  (Some (Build_desc (Some (bs "[1245][01]\d{5}|[245]0\d{4}")) [(6)%Z; (7)%Z] [] (Some (bs "200000"))))
  (Some (Build_desc (Some (bs "[1245][01]\d{5}|[245]0\d{4}")) [(6)%Z; (7)%Z] [] (Some (bs "200000"))))
  None
  (Some (bs "PY")) None None None None
  None None None None
  []
  []
  None None None.

Definition sh_QA : meta := Eval vm_compute in Build_meta
  (Some (Build_desc (Some (bs "[129]\d{2,4}")) [(3)%Z; (4)%Z; (5)%Z] [] None))
  None
  None
  (Some (Build_desc (Some (bs "99\d")) [(3)%Z] [] (Some (bs "990"))))
  (Some (Build_desc (Some (bs "900")) [(3)%Z] [] (Some (bs "900"))))
  None
  None
  None
  None
  None
  (Some (Build_desc (Some (bs "999")) [(3)%Z] [] (Some (bs "999"))))
  None
  (Some (Build_desc (Some (bs "9(?:00|[19]\d)|(?:1|20|9[27]\d)\d\d")) [] [] (Some (bs "100"))))
  (Some (Build_desc None [(-1)%Z] [] None))
  (Some (Build_desc None [(-1)%Z] [] None))
  (Some (Build_desc None [(-1)%Z] [] None))
  None
  (Some (bs "QA")) None None None None
  None None None None
  []
  []
  None None None.

Definition sh_RE : meta := Eval vm_compute in Build_meta
  (Some (Build_desc (Some (bs "1\d\d?")) [(2)%Z; (3)%Z] [] None))
  None
  None
  (Some (Build_desc (Some (bs "1(?:12|[578])")) [] [] (Some (bs "15"))))
  (Some (Build_desc None [(-1)%Z] [] None))
  None
  None
  None
  None
  None
  (Some (Build_desc (Some (bs "1(?:12|[578])")) [] [] (Some (bs "15"))))
  None
  (Some (Build_desc (Some (bs "1(?:12|[578])")) [] [] (Some (bs "15"))))
  (Some (Build_desc None [(-1)%Z] [] None))
  (Some (Build_desc None [(-1)%Z] [] None))
  (Some (Build_desc None [(-1)%Z] [] None))
  None
  (Some (bs "RE")) None None None None
  None None None None
  []
  []
  None None None.

Definition sh_RO : meta := Eval vm_compute in Build_meta
  (Some (Build_desc (Some (bs "[18]\d{2,5}")) [(3)%Z; (4)%Z; (5)%Z; (6)%Z] [] None))
  None
  None
  (Some (Build_desc (Some (bs "11(?:[23]|6\d{3})")) [(3)%Z; (6)%Z] [] (Some (bs "112"))))
  (Some (Build_desc (Some (bs "(?:1(?:18[39]|[24])|8[48])\d\d")) [(4)%Z; (6)%Z] [] (Some (bs "1200"))))
  None
  None
  None
  None
  None
  (Some (Build_desc (Some (bs "112")) [(3)%Z] [] (Some (bs "112"))))
  None
  (Some (Build_desc (Some (bs "1(?:1(?:[23]|6(?:000|1(?:11|23))|8(?:(?:01|8[18])1|119|[23]00|932))|[24]\d\d|9(?:0(?:00|19)|1[19]|21|3[02]|5[178]))|8[48]\d\d")) [] [] (Some (bs "112"))))
  (Some (Build_desc None [(-1)%Z] [] None))
  (Some (Build_desc None [(-1)%Z] [] None))
  (Some (Build_desc (Some (bs "113|(?:1[24]|8[48])\d\d")) [(3)%Z; (4)%Z] [] (Some (bs "113"))))
  None
  (Some (bs "RO")) None None None None
  None None None None
  []
  []
  None None None.

Definition sh_RS : meta := Eval vm_compute in Build_meta
  (Some (Build_desc (Some (bs "[19]\d{1,5}")) [(2)%Z; (3)%Z; (4)%Z; (5)%Z; (6)%Z] [] None))
  None
  None
  (Some (Build_desc (Some (bs "112|9[2-4]")) [(2)%Z; (3)%Z] [] (Some (bs "92"))))
  (Some (Build_desc None [(-1)%Z] [] None))
  None
  None
  None
  None
  None
  (Some (Build_desc (Some (bs "112|9[2-4]")) [(2)%Z; (3)%Z] [] (Some (bs "92"))))
  None
  (Some (Build_desc (Some (bs "1[189]\d{1,4}|9[2-4]")) [] [] (Some (bs "92"))))
  (Some (Build_desc None [(-1)%Z] [] None))
  (Some (Build_desc None [(-1)%Z] [] None))
  (Some (Build_desc None [(-1)%Z] [] None))
  None
  (Some (bs "RS")) None None None None
  None None None None
  []
  []
  None None None.

Definition sh_RU : meta := Eval vm_compute in Build_meta
  (Some (Build_desc (Some (bs "[01]\d\d?")) [(2)%Z; (3)%Z] [] None))
  None
  None
  (Some (Build_desc (Some (bs "112|(?:0|10)[1-3]")) [] [] (Some (bs "01"))))
  (Some (Build_desc None [(-1)%Z] [] None))
  None
  None
  None
  None
  None
  (Some (Build_desc (Some (bs "112|(?:0|10)[1-3]")) [] [] (Some (bs "01"))))
  None
  (Some (Build_desc (Some (bs "112|(?:0|10)[1-4]")) [] [] (Some (bs "01"))))
  (Some (Build_desc None [(-1)%Z] [] None))
  (Some (Build_desc None [(-1)%Z] [] None))
  (Some (Build_desc None [(-1)%Z] [] None))
  None
  (Some (bs "RU")) None None None None
  None None None None
  []
  []
  None None None.

Definition sh_RW : meta := Eval vm_compute in Build_meta
  (Some (Build_desc (Some (bs "[14]\d\d")) [(3)%Z] [] None))
  None
  None
  (Some (Build_desc (Some (bs "11[1245]")) [] [] (Some (bs "111"))))
  (Some (Build_desc None [(-1)%Z] [] None))
  None
  None
  None
  None
  None
  (Some (Build_desc (Some (bs "11[12]")) [] [] (Some (bs "111"))))
  None
  (Some (Build_desc (Some (bs "1(?:0[0-2]|1[0-24-6]|2[13]|70|99)|456")) [] [] (Some (bs "100"))))
  (Some (Build_desc None [(-1)%Z] [] None))
  (Some (Build_desc None [(-1)%Z] [] None))
  (Some (Build_desc None [(-1)%Z] [] None))
  None
  (Some (bs "RW")) None None None None
  None None None None
  []
  []
  None None None.

Definition sh_SA : meta := Eval vm_compute in Build_meta
  (Some (Build_desc (Some (bs "[19]\d{2,5}")) [(3)%Z; (4)%Z; (5)%Z; (6)%Z] [] None))
  None
  None
  (Some (Build_desc (Some (bs "11(?:2|6\d{3})|9(?:11|37|9[7-9])")) [(3)%Z; (6)%Z] [] (Some (bs "112"))))
  (Some (Build_desc None [(-1)%Z] [] None))
  None
  None
  None
  None
  None
  (Some (Build_desc (Some (bs "112|9(?:11|9[79])")) [(3)%Z] [] (Some (bs "112"))))
  None
  (Some (Build_desc (Some (bs "1(?:1(?:00|2|6111)|410|9(?:00|1[89]|9(?:099|22|9[0-3])))|9(?:0[24-79]|11|3[379]|40|66|8[5-9]|9[02-9])")) [] [] (Some (bs "112"))))
  (Some (Build_desc (Some (bs "141\d")) [(4)%Z] [] (Some (bs "1410"))))
  (Some (Build_desc (Some (bs "1(?:10|41)\d|90[24679]")) [(3)%Z; (4)%Z] [] (Some (bs "902"))))
  (Some (Build_desc None [(-1)%Z] [] None))
  None
  (Some (bs "SA")) None None None None
  None None None None
  []
  []
  None None None.

Definition sh_SB : meta := Eval vm_compute in Build_meta
  (Some (Build_desc (Some (bs "[127-9]\d\d")) [(3)%Z] [] None))
  None
  None
  (Some (Build_desc (Some (bs "999")) [] [] (Some (bs "999"))))
  (Some (Build_desc None [(-1)%Z] [] None))
  None
  None
  None
  None
  None
  (Some (Build_desc (Some (bs "999")) [] [] (Some (bs "999"))))
  None
  (Some (Build_desc (Some (bs "1(?:[02]\d|1[12]|[35][01]|[49][1-9]|6[2-9]|7[7-9]|8[0-8])|269|777|835|9(?:[01]1|22|33|55|77|88|99)")) [] [] (Some (bs "100"))))
  (Some (Build_desc None [(-1)%Z] [] None))
  (Some (Build_desc None [(-1)%Z] [] None))
  (Some (Build_desc None [(-1)%Z] [] None))
  None
  (Some (bs "SB")) None None None None
  None None None None
  []
  []
  None None None.

Definition sh_SC : meta := Eval vm_compute in Build_meta
  (Some (Build_desc (Some (bs "[19]\d{2,3}")) [(3)%Z; (4)%Z] [] None))
  None
  None
  (Some (Build_desc (Some (bs "1(?:1[1468]|60)|999")) [(3)%Z] [] (Some (bs "111"))))
  (Some (Build_desc None [(-1)%Z] [] None))
  None
  None
  None
  None
  None
  (Some (Build_desc (Some (bs "999")) [(3)%Z] [] (Some (bs "999"))))
  None
  (Some (Build_desc (Some (bs "1(?:[06]\d|1[0-246-8]|2[0-8]|3[13]|4[0-2]|5[15]|7[124-6]|8[158]|9[015])|9(?:6\d\d|99)")) [] [] (Some (bs "100"))))
  (Some (Build_desc None [(-1)%Z] [] None))
  (Some (Build_desc None [(-1)%Z] [] None))
  (Some (Build_desc None [(-1)%Z] [] None))
  None
  (Some (bs "SC")) None None None None
  None None None None
  []
  []
  None None None.

Definition sh_SD : meta := Eval vm_compute in Build_meta
  (Some (Build_desc (Some (bs "9\d\d")) [(3)%Z] [] None))
  None
  None
  (Some (Build_desc (Some (bs "999")) [] [] (Some (bs "999"))))
  (Some (Build_desc None [(-1)%Z] [] None))
  None
  None
  None
  None
  None
  (Some (Build_desc (Some (bs "999")) [] [] (Some (bs "999"))))
  None
  (Some (Build_desc (Some (bs "999")) [] [] (Some (bs "999"))))
  (Some (Build_desc None [(-1)%Z] [] None))
  (Some (Build_desc None [(-1)%Z] [] None))
  (Some (Build_desc None [(-1)%Z] [] None))
  None
  (Some (bs "SD")) None None None None
  None None None None
  []
  []
  None None None.

Definition sh_SE : meta := Eval vm_compute in Build_meta
  (Some (Build_desc (Some (bs "[1-37-9]\d{2,5}")) [(3)%Z; (4)%Z; (5)%Z; (6)%Z] [] None))
  None
  None
  (Some (Build_desc (Some (bs "11(?:2|(?:3|6\d)\d\d|414|77)|900\d\d")) [] [] (Some (bs "112"))))
  (Some (Build_desc (Some (bs "11811[89]|72\d{3}")) [(5)%Z; (6)%Z] [] (Some (bs "72000"))))
  None
  None
  None
  None
  None
  (Some (Build_desc (Some (bs "112|90000")) [(3)%Z; (5)%Z] [] (Some (bs "112"))))
  None
  (Some (Build_desc (Some (bs "11(?:[25]|313|6(?:00[06]|1(?:1[17]|23))|7[0-8])|2(?:2[02358]|33|4[01]|50|6[1-4])|32[13]|8(?:22|88)|9(?:0(?:00|51)0|12)|(?:11(?:4|8[02-46-9])|7\d\d|90[2-4])\d\d|(?:118|90)1(?:[02-9]\d|1[013-9])")) [] [] (Some (bs "112"))))
  (Some (Build_desc None [(-1)%Z] [] None))
  (Some (Build_desc (Some (bs "2(?:2[02358]|33|4[01]|50|6[1-4])|32[13]|8(?:22|88)|912")) [(3)%Z] [] (Some (bs "220"))))
  (Some (Build_desc (Some (bs "7\d{4}")) [(5)%Z] [] (Some (bs "70000"))))
  None
  (Some (bs "SE")) None None None None
  None None None None
  []
  []
  None None None.

Definition sh_SG : meta := Eval vm_compute in Build_meta
  (Some (Build_desc (Some (bs "[179]\d{2,4}")) [(3)%Z; (4)%Z; (5)%Z] [] None))
  None
  None
  (Some (Build_desc (Some (bs "99[359]")) [(3)%Z] [] (Some (bs "993"))))
  (Some (Build_desc None [(-1)%Z] [] None))
  None
  None
  None
  None
  None
  (Some (Build_desc (Some (bs "99[359]")) [(3)%Z] [] (Some (bs "993"))))
  None
  (Some (Build_desc (Some (bs "1(?:(?:[01368]\d|44)\d|[57]\d{2,3}|9(?:0[1-9]|[1-9]\d))|77222|99[02-9]|100")) [] [] (Some (bs "100"))))
  (Some (Build_desc None [(-1)%Z] [] None))
  (Some (Build_desc None [(-1)%Z] [] None))
  (Some (Build_desc (Some (bs "772\d\d")) [(5)%Z] [] (Some (bs "77200"))))
  None
  (Some (bs "SG")) None None None None
  None None None None
  []
  []
  None None None.

Definition sh_SH : meta := Eval vm_compute in Build_meta
  (Some (Build_desc (Some (bs "[129]\d{2,4}")) [(3)%Z; (4)%Z; (5)%Z] [] None))
  None
  None
  (Some (Build_desc (Some (bs "9(?:11|99)")) [(3)%Z] [] (Some (bs "911"))))
  (Some (Build_desc None [(-1)%Z] [] None))
  None
  None
  None
  None
  None
  (Some (Build_desc (Some (bs "9(?:11|99)")) [(3)%Z] [] (Some (bs "911"))))
  None
  (Some (Build_desc (Some (bs "1\d{2,3}|26[01]\d\d|9(?:11|99)")) [] [] (Some (bs "100"))))
  (Some (Build_desc None [(-1)%Z] [] None))
  (Some (Build_desc None [(-1)%Z] [] None))
  (Some (Build_desc None [(-1)%Z] [] None))
  None
  (Some (bs "SH")) None None None None
  None None None None
  []
  []
  None None None.

Definition sh_SI : meta := Eval vm_compute in Build_meta
  (Some (Build_desc (Some (bs "1\d{2,5}")) [(3)%Z; (4)%Z; (5)%Z; (6)%Z] [] None))
  None
  None
  (Some (Build_desc (Some (bs "11(?:(?:0|6\d)\d\d|[23]|8\d\d?)")) [] [] (Some (bs "112"))))
  (Some (Build_desc None [(-1)%Z] [] None))
  None
  None
  None
  None
  None
  (Some (Build_desc (Some (bs "11[23]")) [(3)%Z] [] (Some (bs "112"))))
  None
  (Some (Build_desc (Some (bs "1(?:1(?:00[146]|[23]|6(?:000|1(?:11|23))|8(?:[08]|99))|9(?:059|1(?:0[12]|16)|5|70|87|9(?:00|[149])))|19(?:08|81)[09]")) [] [] (Some (bs "112"))))
  (Some (Build_desc None [(-1)%Z] [] None))
  (Some (Build_desc None [(-1)%Z] [] None))
  (Some (Build_desc None [(-1)%Z] [] None))
  None
  (Some (bs "SI")) None None None None
  None None None None
  []
  []
  None None None.

Definition sh_SJ : meta := Eval vm_compute in Build_meta
  (Some (Build_desc (Some (bs "[01]\d\d(?:\d{2})?")) [(3)%Z; (5)%Z] [] None))
  None
  None
  (Some (Build_desc (Some (bs "11[023]")) [(3)%Z] [] (Some (bs "110"))))
  (Some (Build_desc None [(-1)%Z] [] None))
  None
  None
  None
  None
  None
  (Some (Build_desc (Some (bs "11[023]")) [(3)%Z] [] (Some (bs "110"))))
  None
  (Some (Build_desc (Some (bs "04\d{3}|11[023]")) [] [] (Some (bs "110"))))
  (Some (Build_desc None [(-1)%Z] [] None))
  (Some (Build_desc None [(-1)%Z] [] None))
  (Some (Build_desc (Some (bs "04\d{3}")) [(5)%Z] [] (Some (bs "04000"))))
  None
  (Some (bs "SJ")) None None None None
  None None None None
  []
  []
  None None None.

Definition sh_SK : meta := Eval vm_compute in Build_meta
  (Some (Build_desc (Some (bs "1\d{2,5}")) [(3)%Z; (4)%Z; (5)%Z; (6)%Z] [] None))
  None
  None
  (Some (Build_desc (Some (bs "1(?:1(?:2|6\d{3})|5[058])")) [(3)%Z; (6)%Z] [] (Some (bs "112"))))
  (Some (Build_desc None [(-1)%Z] [] None))
  None
  None
  None
  None
  None
  (Some (Build_desc (Some (bs "1(?:12|5[058])")) [(3)%Z] [] (Some (bs "112"))))
  None
  (Some (Build_desc (Some (bs "1(?:1(?:2|6(?:000|111)|8[0-8])|[248]\d{3}|5[0589])")) [] [] (Some (bs "112"))))
  (Some (Build_desc None [(-1)%Z] [] None))
  (Some (Build_desc None [(-1)%Z] [] None))
  (Some (Build_desc None [(-1)%Z] [] None))
  None
  (Some (bs "SK")) None None None None
  None None None None
  []
  []
  None None None.

Definition sh_SL : meta := Eval vm_compute in Build_meta
  (Some (Build_desc (Some (bs "[069]\d\d(?:\d{2})?")) [(3)%Z; (5)%Z] [] None))
  None
  None
  (Some (Build_desc (Some (bs "(?:01|99)9")) [(3)%Z] [] (Some (bs "019"))))
  (Some (Build_desc None [(-1)%Z] [] None))
  None
  None
  None
  None
  None
  (Some (Build_desc (Some (bs "(?:01|99)9")) [(3)%Z] [] (Some (bs "019"))))
  None
  (Some (Build_desc (Some (bs "(?:01|99)9|60400")) [] [] (Some (bs "019"))))
  (Some (Build_desc None [(-1)%Z] [] None))
  (Some (Build_desc (Some (bs "604\d\d")) [(5)%Z] [] (Some (bs "60400"))))
  (Some (Build_desc (Some (bs "604\d\d")) [(5)%Z] [] (Some (bs "60400"))))
  None
  (Some (bs "SL")) None None None None
  None None None None
  []
  []
  None None None.

Definition sh_SM : meta := Eval vm_compute in Build_meta
  (Some (Build_desc (Some (bs "1\d\d")) [(3)%Z] [] None))
  None
  None
  (Some (Build_desc (Some (bs "11[358]")) [] [] (Some (bs "113"))))
  (Some (Build_desc None [(-1)%Z] [] None))
  None
  None
  None
  None
  None
  (Some (Build_desc (Some (bs "11[358]")) [] [] (Some (bs "113"))))
  None
  (Some (Build_desc (Some (bs "11[358]")) [] [] (Some (bs "113"))))
  (Some (Build_desc None [(-1)%Z] [] None))
  (Some (Build_desc None [(-1)%Z] [] None))
  (Some (Build_desc None [(-1)%Z] [] None))
  None
  (Some (bs "SM")) None None None None
  None None None None
  []
  []
  None None None.

Definition sh_SN : meta := Eval vm_compute in Build_meta
  (Some (Build_desc (Some (bs "[12]\d{1,5}")) [(2)%Z; (3)%Z; (4)%Z; (5)%Z; (6)%Z] [] None))
  None
  None
  (Some (Build_desc (Some (bs "1(?:515|[78])|2(?:00|1)\d{3}")) [(2)%Z; (4)%Z; (5)%Z; (6)%Z] [] (Some (bs "17"))))
  (Some (Build_desc (Some (bs "2(?:0[246]|[468])\d{3}")) [(5)%Z; (6)%Z] [] (Some (bs "24000"))))
  None
  None
  None
  None
  None
  (Some (Build_desc (Some (bs "1[78]")) [(2)%Z] [] (Some (bs "17"))))
  None
  (Some (Build_desc (Some (bs "1(?:1[69]|(?:[246]\d|51)\d)|2(?:0[0-246]|[12468])\d{3}|1[278]")) [] [] (Some (bs "12"))))
  (Some (Build_desc (Some (bs "2(?:01|2)\d{3}")) [(5)%Z; (6)%Z] [] (Some (bs "22000"))))
  (Some (Build_desc (Some (bs "1[46]\d\d")) [(4)%Z] [] (Some (bs "1400"))))
  (Some (Build_desc (Some (bs "2[468]\d{3}")) [(5)%Z] [] (Some (bs "24000"))))
  None
  (Some (bs "SN")) None None None None
  None None None None
  []
  []
  None None None.

Definition sh_SO : meta := Eval vm_compute in Build_meta
  (Some (Build_desc (Some (bs "[57-9]\d\d")) [(3)%Z] [] None))
  None
  None
  (Some (Build_desc (Some (bs "555|888|999")) [] [] (Some (bs "555"))))
  (Some (Build_desc None [(-1)%Z] [] None))
  None
  None
  None
  None
  None
  (Some (Build_desc (Some (bs "555|888|999")) [] [] (Some (bs "555"))))
  None
  (Some (Build_desc (Some (bs "555|777|888|999")) [] [] (Some (bs "555"))))
  (Some (Build_desc None [(-1)%Z] [] None))
  (Some (Build_desc None [(-1)%Z] [] None))
  (Some (Build_desc None [(-1)%Z] [] None))
  None
  (Some (bs "SO")) None None None None
  None None None None
  []
  []
  None None None.

Definition sh_SR : meta := Eval vm_compute in Build_meta
  (Some (Build_desc (Some (bs "1\d{2,3}")) [(3)%Z; (4)%Z] [] None))
  None
  None
  (Some (Build_desc (Some (bs "115")) [(3)%Z] [] (Some (bs "115"))))
  (Some (Build_desc None [(-1)%Z] [] None))
  None
  None
  None
  None
  None
  (Some (Build_desc (Some (bs "115")) [(3)%Z] [] (Some (bs "115"))))
  None
  (Some (Build_desc (Some (bs "1\d{2,3}")) [] [] (Some (bs "100"))))
  (Some (Build_desc None [(-1)%Z] [] None))
  (Some (Build_desc None [(-1)%Z] [] None))
  (Some (Build_desc None [(-1)%Z] [] None))
  None
  (Some (bs "SR")) None None None None
  None None None None
  []
  []
  None None None.

Definition sh_SS : meta := Eval vm_compute in Build_meta
  (Some (Build_desc (Some (bs "9\d\d")) [(3)%Z] [] None))
  None
  None
  (Some (Build_desc (Some (bs "999")) [] [] (Some (bs "999"))))
  (Some (Build_desc None [(-1)%Z] [] None))
  None
  None
  None
  None
  None
  (Some (Build_desc (Some (bs "999")) [] [] (Some (bs "999"))))
  None
  (Some (Build_desc (Some (bs "999")) [] [] (Some (bs "999"))))
  (Some (Build_desc None [(-1)%Z] [] None))
  (Some (Build_desc None [(-1)%Z] [] None))
  (Some (Build_desc None [(-1)%Z] [] None))
  None
  (Some (bs "SS")) None None None None
  None None None None
  []
  []
  None None None.

Definition sh_ST : meta := Eval vm_compute in Build_meta
  (Some (Build_desc (Some (bs "1\d\d")) [(3)%Z] [] None))
  None
  None
  (Some (Build_desc (Some (bs "112")) [] [] (Some (bs "112"))))
  (Some (Build_desc None [(-1)%Z] [] None))
  None
  None
  None
  None
  None
  (Some (Build_desc (Some (bs "112")) [] [] (Some (bs "112"))))
  None
  (Some (Build_desc (Some (bs "112")) [] [] (Some (bs "112"))))
  (Some (Build_desc None [(-1)%Z] [] None))
  (Some (Build_desc None [(-1)%Z] [] None))
  (Some (Build_desc None [(-1)%Z] [] None))
  None
  (Some (bs "ST")) None None None None
  None None None None
  []
  []
  None None None.

Definition sh_SV : meta := Eval vm_compute in Build_meta
  (Some (Build_desc (Some (bs "[149]\d\d(?:\d{2,3})?")) [(3)%Z; (5)%Z; (6)%Z] [] None))
  None
  None
  (Some (Build_desc (Some (bs "116\d{3}|911")) [(3)%Z; (6)%Z] [] (Some (bs "911"))))
  (Some (Build_desc None [(-1)%Z] [] None))
  None
  None
  None
  None
  None
  (Some (Build_desc (Some (bs "91[13]")) [(3)%Z] [] (Some (bs "911"))))
  None
  (Some (Build_desc (Some (bs "1(?:1(?:2|6111)|2[136-8]|3[0-6]|9[05])|40404|9(?:1\d|29)")) [] [] (Some (bs "112"))))
  (Some (Build_desc None [(-1)%Z] [] None))
  (Some (Build_desc (Some (bs "404\d\d")) [(5)%Z] [] (Some (bs "40400"))))
  (Some (Build_desc (Some (bs "404\d\d")) [(5)%Z] [] (Some (bs "40400"))))
  None
  (Some (bs "SV")) None None None None
  None None None None
  []
  []
  None None None.

Definition sh_SX : meta := Eval vm_compute in Build_meta
  (Some (Build_desc (Some (bs "9\d\d")) [(3)%Z] [] None))
  None
  None
  (Some (Build_desc (Some (bs "9(?:19|88)")) [] [] (Some (bs "919"))))
  (Some (Build_desc None [(-1)%Z] [] None))
  None
  None
  None
  None
  None
  (Some (Build_desc (Some (bs "919")) [] [] (Some (bs "919"))))
  None
  (Some (Build_desc (Some (bs "9(?:19|88)")) [] [] (Some (bs "919"))))
  (Some (Build_desc None [(-1)%Z] [] None))
  (Some (Build_desc None [(-1)%Z] [] None))
  (Some (Build_desc None [(-1)%Z] [] None))
  None
  (Some (bs "SX")) None None None None
  None None None None
  []
  []
  None None None.

Definition sh_SY : meta := Eval vm_compute in Build_meta
  (Some (Build_desc (Some (bs "1\d\d")) [(3)%Z] [] None))
  None
  None
  (Some (Build_desc (Some (bs "11[023]")) [] [] (Some (bs "110"))))
  (Some (Build_desc None [(-1)%Z] [] None))
  None
  None
  None
  None
  None
  (Some (Build_desc (Some (bs "11[023]")) [] [] (Some (bs "110"))))
  None
  (Some (Build_desc (Some (bs "11[023]")) [] [] (Some (bs "110"))))
  (Some (Build_desc None [(-1)%Z] [] None))
  (Some (Build_desc None [(-1)%Z] [] None))
  (Some (Build_desc None [(-1)%Z] [] None))
  None
  (Some (bs "SY")) None None None None
  None None None None
  []
  []
  None None None.

Definition sh_SZ : meta := Eval vm_compute in Build_meta
  (Some (Build_desc (Some (bs "9\d\d")) [(3)%Z] [] None))
  None
  None
  (Some (Build_desc (Some (bs "999")) [] [] (Some (bs "999"))))
  (Some (Build_desc None [(-1)%Z] [] None))
  None
  None
  None
  None
  None
  (Some (Build_desc (Some (bs "999")) [] [] (Some (bs "999"))))
  None
  (Some (Build_desc (Some (bs "999")) [] [] (Some (bs "999"))))
  (Some (Build_desc None [(-1)%Z] [] None))
  (Some (Build_desc None [(-1)%Z] [] None))
  (Some (Build_desc None [(-1)%Z] [] None))
  None
  (Some (bs "SZ")) None None None None
  None None None None
  []
  []
  None None None.

Definition sh_TC : meta := Eval vm_compute in Build_meta
  (Some (Build_desc (Some (bs "9\d\d")) [(3)%Z] [] None))
  None
  None
  (Some (Build_desc (Some (bs "9(?:11|88|99)")) [] [] (Some (bs "911"))))
  (Some (Build_desc None [(-1)%Z] [] None))
  None
  None
  None
  None
  None
  (Some (Build_desc (Some (bs "9(?:11|99)")) [] [] (Some (bs "911"))))
  None
  (Some (Build_desc (Some (bs "9(?:11|88|99)")) [] [] (Some (bs "911"))))
  (Some (Build_desc None [(-1)%Z] [] None))
  (Some (Build_desc None [(-1)%Z] [] None))
  (Some (Build_desc None [(-1)%Z] [] None))
  None
  (Some (bs "TC")) None None None None
  None None None None
  []
  []
  None None None.

Definition sh_TD : meta := Eval vm_compute in Build_meta
  (Some (Build_desc (Some (bs "1\d")) [(2)%Z] [] None))
  None
  None
  (Some (Build_desc (Some (bs "1[78]")) [] [] (Some (bs "17"))))
  (Some (Build_desc None [(-1)%Z] [] None))
  None
  None
  None
  None
  None
  (Some (Build_desc (Some (bs "1[78]")) [] [] (Some (bs "17"))))
  None
  (Some (Build_desc (Some (bs "1[78]")) [] [] (Some (bs "17"))))
  (Some (Build_desc None [(-1)%Z] [] None))
  (Some (Build_desc None [(-1)%Z] [] None))
  (Some (Build_desc None [(-1)%Z] [] None))
  None
  (Some (bs "TD")) None None None None
  None None None None
  []
  []
  None None None.

Definition sh_TG : meta := Eval vm_compute in Build_meta
  (Some (Build_desc (Some (bs "1\d{2,3}")) [(3)%Z; (4)%Z] [] None))
  None
  None
  (Some (Build_desc (Some (bs "1(?:1[78]|7[127])")) [(3)%Z] [] (Some (bs "117"))))
  (Some (Build_desc None [(-1)%Z] [] None))
  None
  None
  None
  None
  None
  (Some (Build_desc (Some (bs "1(?:1[78]|7[127])")) [(3)%Z] [] (Some (bs "117"))))
  None
  (Some (Build_desc (Some (bs "1(?:011|1[078]|7[127])")) [] [] (Some (bs "110"))))
  (Some (Build_desc None [(-1)%Z] [] None))
  (Some (Build_desc None [(-1)%Z] [] None))
  (Some (Build_desc None [(-1)%Z] [] None))
  None
  (Some (bs "TG")) None None None None
  None None None None
  []
  []
  None None None.

Definition sh_TH : meta := Eval vm_compute in Build_meta
  (Some (Build_desc (Some (bs "1\d{2,3}")) [(3)%Z; (4)%Z] [] None))
  None
  None
  (Some (Build_desc (Some (bs "1(?:1(?:00|2[03]|3[3479]|7[67]|9[0246])|578|6(?:44|6[79]|88|9[16])|88\d|9[19])|1[15]55")) [] [] (Some (bs "191"))))
  (Some (Build_desc (Some (bs "1(?:113|2[23]\d|5(?:09|56))")) [(4)%Z] [] (Some (bs "1113"))))
  None
  None
  None
  None
  None
  (Some (Build_desc (Some (bs "1(?:669|9[19])")) [] [] (Some (bs "191"))))
  None
  (Some (Build_desc (Some (bs "1(?:0[0-2]|1(?:0[03]|1[1-35]|2[0358]|3[03-79]|4[02-489]|5[04-9]|6[04-79]|7[03-9]|8[027-9]|9[02-9])|2(?:22|3[89]|66)|3(?:18|2[23]|3[013]|5[56]|6[45]|73)|477|5(?:0\d|4[0-37-9]|5[1-8]|6[01679]|7[12568]|8[0-24589]|9[013589])|6(?:0[0-29]|2[03]|4[3-6]|6[1-9]|7[0257-9]|8[0158]|9[014-9])|7(?:[14]9|7[27]|90)|888|9[19])")) [] [] (Some (bs "100"))))
  (Some (Build_desc (Some (bs "1(?:1(?:03|1[15]|2[58]|3[056]|4[02-49]|5[046-9]|7[03-589]|9[57-9])|5(?:0[0-8]|4[0-378]|5[1-478]|7[156])|6(?:20|4[356]|6[1-68]|7[057-9]|8[015]|9[0457-9]))|1(?:1[68]|26|3[1-35]|5[689]|60|7[17])\d")) [(4)%Z] [] (Some (bs "1103"))))
  (Some (Build_desc (Some (bs "114[89]")) [(4)%Z] [] (Some (bs "1148"))))
  (Some (Build_desc None [(-1)%Z] [] None))
  None
  (Some (bs "TH")) None None None None
  None None None None
  []
  []
  None None None.

Definition sh_TJ : meta := Eval vm_compute in Build_meta
  (Some (Build_desc (Some (bs "1\d\d")) [(3)%Z] [] None))
  None
  None
  (Some (Build_desc (Some (bs "1(?:0[1-3]|12)")) [] [] (Some (bs "101"))))
  (Some (Build_desc None [(-1)%Z] [] None))
  None
  None
  None
  None
  None
  (Some (Build_desc (Some (bs "1(?:0[1-3]|12)")) [] [] (Some (bs "101"))))
  None
  (Some (Build_desc (Some (bs "1(?:0[1-3]|12)")) [] [] (Some (bs "101"))))
  (Some (Build_desc None [(-1)%Z] [] None))
  (Some (Build_desc None [(-1)%Z] [] None))
  (Some (Build_desc None [(-1)%Z] [] None))
  None
  (Some (bs "TJ")) None None None None
  None None None None
  []
  []
  None None None.

Definition sh_TL : meta := Eval vm_compute in Build_meta
  (Some (Build_desc (Some (bs "1\d\d")) [(3)%Z] [] None))
  None
  None
  (Some (Build_desc (Some (bs "11[25]")) [] [] (Some (bs "112"))))
  (Some (Build_desc None [(-1)%Z] [] None))
  None
  None
  None
  None
  None
  (Some (Build_desc (Some (bs "11[25]")) [] [] (Some (bs "112"))))
  None
  (Some (Build_desc (Some (bs "1(?:0[02]|1[25]|2[0138]|72|9[07])")) [] [] (Some (bs "100"))))
  (Some (Build_desc None [(-1)%Z] [] None))
  (Some (Build_desc None [(-1)%Z] [] None))
  (Some (Build_desc None [(-1)%Z] [] None))
  None
  (Some (bs "TL")) None None None None
  None None None None
  []
  []
  None None None.

Definition sh_TM : meta := Eval vm_compute in Build_meta
  (Some (Build_desc (Some (bs "0\d")) [(2)%Z] [] None))
  None
  None
  (Some (Build_desc (Some (bs "0[1-49]")) [] [] (Some (bs "01"))))
  (Some (Build_desc None [(-1)%Z] [] None))
  None
  None
  None
  None
  None
  (Some (Build_desc (Some (bs "0[1-3]")) [] [] (Some (bs "01"))))
  None
  (Some (Build_desc (Some (bs "0[1-49]")) [] [] (Some (bs "01"))))
  (Some (Build_desc None [(-1)%Z] [] None))
  (Some (Build_desc None [(-1)%Z] [] None))
  (Some (Build_desc None [(-1)%Z] [] None))
  None
  (Some (bs "TM")) None None None None
  None None None None
  []
  []
  None None None.

Definition sh_TN : meta := Eval vm_compute in Build_meta
  (Some (Build_desc (Some (bs "1\d\d")) [(3)%Z] [] None))
  None
  None
  (Some (Build_desc (Some (bs "19[078]")) [] [] (Some (bs "190"))))
  (Some (Build_desc None [(-1)%Z] [] None))
  None
  None
  None
  None
  None
  (Some (Build_desc (Some (bs "19[078]")) [] [] (Some (bs "190"))))
  None
  (Some (Build_desc (Some (bs "19[078]")) [] [] (Some (bs "190"))))
  (Some (Build_desc None [(-1)%Z] [] None))
  (Some (Build_desc None [(-1)%Z] [] None))
  (Some (Build_desc None [(-1)%Z] [] None))
  None
  (Some (bs "TN")) None None None None
  None None None None
  []
  []
  None None None.

Definition sh_TO : meta := Eval vm_compute in Build_meta
  (Some (Build_desc (Some (bs "9\d\d")) [(3)%Z] [] None))
  None
  None
  (Some (Build_desc (Some (bs "9(?:11|22|33|99)")) [] [] (Some (bs "911"))))
  (Some (Build_desc None [(-1)%Z] [] None))
  None
  None
  None
  None
  None
  (Some (Build_desc (Some (bs "9(?:11|22|33|99)")) [] [] (Some (bs "911"))))
  None
  (Some (Build_desc (Some (bs "9(?:11|22|33|99)")) [] [] (Some (bs "911"))))
  (Some (Build_desc None [(-1)%Z] [] None))
  (Some (Build_desc None [(-1)%Z] [] None))
  (Some (Build_desc None [(-1)%Z] [] None))
  None
  (Some (bs "TO")) None None None None
  None None None None
  []
  []
  None None None.

Definition sh_TR : meta := Eval vm_compute in Build_meta
  (Some (Build_desc (Some (bs "[1-9]\d{2,4}")) [(3)%Z; (4)%Z; (5)%Z] [] None))
  None
  None
  (Some (Build_desc (Some (bs "1(?:1[02]|22|3[126]|4[04]|5[15-9]|6[18]|77|83)")) [(3)%Z] [] (Some (bs "110"))))
  (Some (Build_desc None [(-1)%Z] [] None))
  None
  None
  None
  None
  None
  (Some (Build_desc (Some (bs "1(?:1[02]|55)")) [(3)%Z] [] (Some (bs "110"))))
  None
  (Some (Build_desc (Some (bs "1(?:1(?:[02-79]|8(?:1[018]|2[0245]|3[2-4]|42|5[058]|6[06]|7[07]|8[01389]|9[089]))|3(?:37|[58]6|65)|471|5(?:07|78)|6(?:[02]6|99)|8(?:63|95))|2(?:077|268|4(?:17|23)|5(?:7[26]|82)|6[14]4|8\d\d|9(?:30|89))|3(?:0(?:05|72)|353|4(?:06|30|64)|502|674|747|851|9(?:1[29]|60))|4(?:0(?:25|3[12]|[47]2)|3(?:3[13]|[89]1)|439|5(?:43|55)|717|832)|5(?:145|290|[4-6]\d\d|772|833|9(?:[06]1|92))|6(?:236|6(?:12|39|8[59])|769)|7890|8(?:688|7(?:28|65)|85[06])|9(?:159|290)|1[2-9]\d")) [] [] (Some (bs "110"))))
  (Some (Build_desc (Some (bs "(?:285|542)0")) [(4)%Z] [] (Some (bs "2850"))))
  (Some (Build_desc None [(-1)%Z] [] None))
  (Some (Build_desc (Some (bs "1(?:3(?:37|[58]6|65)|4(?:4|71)|5(?:07|78)|6(?:[02]6|99)|8(?:3|63|95))|(?:2(?:07|26|4[12]|5[78]|6[14]|8\d|9[38])|3(?:0[07]|[38]5|4[036]|50|67|74|9[16])|4(?:0[2-47]|3[389]|[48]3|5[45]|71)|5(?:14|29|[4-6]\d|77|83|9[069])|6(?:23|6[138]|76)|789|8(?:68|7[26]|85)|9(?:15|29))\d")) [(3)%Z; (4)%Z] [] (Some (bs "144"))))
  None
  (Some (bs "TR")) None None None None
  None None None None
  []
  []
  None None None.

Definition sh_TT : meta := Eval vm_compute in Build_meta
  (Some (Build_desc (Some (bs "9\d\d")) [(3)%Z] [] None))
  None
  None
  (Some (Build_desc (Some (bs "9(?:88|9[09])")) [] [] (Some (bs "988"))))
  (Some (Build_desc None [(-1)%Z] [] None))
  None
  None
  None
  None
  None
  (Some (Build_desc (Some (bs "99[09]")) [] [] (Some (bs "990"))))
  None
  (Some (Build_desc (Some (bs "9(?:88|9[09])")) [] [] (Some (bs "988"))))
  (Some (Build_desc None [(-1)%Z] [] None))
  (Some (Build_desc None [(-1)%Z] [] None))
  (Some (Build_desc None [(-1)%Z] [] None))
  None
  (Some (bs "TT")) None None None None
  None None None None
  []
  []
  None None None.

Definition sh_TV : meta := Eval vm_compute in Build_meta
  (Some (Build_desc (Some (bs "[19]\d\d")) [(3)%Z] [] None))
  None
  None
  (Some (Build_desc (Some (bs "911")) [] [] (Some (bs "911"))))
  (Some (Build_desc None [(-1)%Z] [] None))
  None
  None
  None
  None
  None
  (Some (Build_desc (Some (bs "911")) [] [] (Some (bs "911"))))
  None
  (Some (Build_desc (Some (bs "1\d\d|911")) [] [] (Some (bs "100"))))
  (Some (Build_desc None [(-1)%Z] [] None))
  (Some (Build_desc None [(-1)%Z] [] None))
  (Some (Build_desc None [(-1)%Z] [] None))
  None
  (Some (bs "TV")) None None None None
  None None None None
  []
  []
  None None None.

Definition sh_TW : meta := Eval vm_compute in Build_meta
  (Some (Build_desc (Some (bs "1\d{2,3}")) [(3)%Z; (4)%Z] [] None))
  None
  None
  (Some (Build_desc (Some (bs "11[0289]|1(?:81|92)\d")) [] [] (Some (bs "110"))))
  (Some (Build_desc (Some (bs "10[56]")) [(3)%Z] [] (Some (bs "105"))))
  None
  None
  None
  None
  None
  (Some (Build_desc (Some (bs "11[029]")) [(3)%Z] [] (Some (bs "110"))))
  None
  (Some (Build_desc (Some (bs "1(?:0[04-6]|1[0237-9]|3[389]|6[05-8]|7[07]|8(?:0|11)|9(?:19|22|5[057]|68|8[05]|9[15689]))")) [] [] (Some (bs "100"))))
  (Some (Build_desc (Some (bs "1(?:65|9(?:1\d|50|85|98))")) [] [] (Some (bs "165"))))
  (Some (Build_desc None [(-1)%Z] [] None))
  (Some (Build_desc None [(-1)%Z] [] None))
  None
  (Some (bs "TW")) None None None None
  None None None None
  []
  []
  None None None.

Definition sh_TZ : meta := Eval vm_compute in Build_meta
  (Some (Build_desc (Some (bs "[149]\d\d(?:\d{2})?")) [(3)%Z; (5)%Z] [] None))
  None
  None
  (Some (Build_desc (Some (bs "1(?:1[0-79]|9[09])|999")) [(3)%Z] [] (Some (bs "110"))))
  (Some (Build_desc None [(-1)%Z] [] None))
  None
  None
  None
  None
  None
  (Some (Build_desc (Some (bs "11[0-245]|999")) [(3)%Z] [] (Some (bs "110"))))
  None
  (Some (Build_desc (Some (bs "1(?:1\d|9[09])|46400|999")) [] [] (Some (bs "110"))))
  (Some (Build_desc None [(-1)%Z] [] None))
  (Some (Build_desc (Some (bs "464\d\d")) [(5)%Z] [] (Some (bs "46400"))))
  (Some (Build_desc (Some (bs "464\d\d")) [(5)%Z] [] (Some (bs "46400"))))
  None
  (Some (bs "TZ")) None None None None
  None None None None
  []
  []
  None None None.

Definition sh_UA : meta := Eval vm_compute in Build_meta
  (Some (Build_desc (Some (bs "[189]\d{2,5}")) [(3)%Z; (4)%Z; (5)%Z; (6)%Z] [] None))
  None
  None
  (Some (Build_desc (Some (bs "1(?:0[1-3]|1(?:2|6\d{3}))")) [(3)%Z; (6)%Z] [] (Some (bs "101"))))
  (Some (Build_desc None [(-1)%Z] [] None))
  None
  None
  None
  None
  None
  (Some (Build_desc (Some (bs "1(?:0[1-3]|12)")) [(3)%Z] [] (Some (bs "101"))))
  None
  (Some (Build_desc (Some (bs "1(?:0[1-49]|1(?:2|6(?:000|1(?:11|23))|8\d\d?)|(?:[278]|5\d)\d)|[89]00\d\d?|151|1(?:06|4\d|6)\d\d")) [] [] (Some (bs "101"))))
  (Some (Build_desc None [(-1)%Z] [] None))
  (Some (Build_desc (Some (bs "(?:118|[89]00)\d\d?")) [(4)%Z; (5)%Z] [] (Some (bs "1180"))))
  (Some (Build_desc None [(-1)%Z] [] None))
  None
  (Some (bs "UA")) None None None None
  None None None None
  []
  []
  None None None.

Definition sh_UG : meta := Eval vm_compute in Build_meta
  (Some (Build_desc (Some (bs "9\d\d")) [(3)%Z] [] None))
  None
  None
  (Some (Build_desc (Some (bs "999")) [] [] (Some (bs "999"))))
  (Some (Build_desc None [(-1)%Z] [] None))
  None
  None
  None
  None
  None
  (Some (Build_desc (Some (bs "999")) [] [] (Some (bs "999"))))
  None
  (Some (Build_desc (Some (bs "999")) [] [] (Some (bs "999"))))
  (Some (Build_desc None [(-1)%Z] [] None))
  (Some (Build_desc None [(-1)%Z] [] None))
  (Some (Build_desc None [(-1)%Z] [] None))
  None
  (Some (bs "UG")) None None None None
  None None None None
  []
  []
  None None None.

Definition sh_US : meta := Eval vm_compute in Build_meta
  (Some (Build_desc (Some (bs "[1-9]\d{2,5}")) [(3)%Z; (4)%Z; (5)%Z; (6)%Z] [] None))
  None
  None
  (Some (Build_desc (Some (bs "112|611|9(?:11|33|88)")) [(3)%Z] [] (Some (bs "112"))))
  (Some (Build_desc (Some (bs "24280|(?:381|968)35|4(?:3355|7553|8221)|5(?:(?:489|934)2|5928)|72078|(?:323|960)40|(?:276|414)63|(?:2(?:520|744)|7390|9968)9|(?:693|732|976)88|(?:3(?:556|825)|5294|8623|9729)4|(?:3378|4136|7642|8961|9979)6|(?:4(?:6(?:15|32)|827)|(?:591|720)8|9529)7")) [(5)%Z] [] (Some (bs "24280"))))
  None
  None
  None
  None
  None
  (Some (Build_desc (Some (bs "112|911")) [(3)%Z] [] (Some (bs "112"))))
  None
  (Some (Build_desc (Some (bs "11(?:2|5[1-47]|[68]\d|7[0-57]|98)|[2-9]\d{3,5}|[2-8]11|9(?:11|33|88)")) [] [] (Some (bs "112"))))
  (Some (Build_desc (Some (bs "2(?:3333|(?:4224|7562|900)2|56447|6688)|3(?:1010|2665|7404)|40404|560560|6(?:0060|22639|5246|7622)|7(?:0701|3822|4666)|8(?:(?:3825|7226)5|4816)|99099")) [(5)%Z; (6)%Z] [] (Some (bs "23333"))))
  (Some (Build_desc (Some (bs "336\d\d|[2-9]\d{3}|[2356]11")) [(3)%Z; (4)%Z; (5)%Z] [] (Some (bs "211"))))
  (Some (Build_desc (Some (bs "[2-9]\d{4,5}")) [(5)%Z; (6)%Z] [] (Some (bs "20000"))))
  None
  (Some (bs "US")) None None None None
  None None None None
  []
  []
  None None None.

Definition sh_UY : meta := Eval vm_compute in Build_meta
  (Some (Build_desc (Some (bs "[19]\d{2,4}")) [(3)%Z; (4)%Z; (5)%Z] [] None))
  None
  None
  (Some (Build_desc (Some (bs "128|911")) [(3)%Z] [] (Some (bs "128"))))
  (Some (Build_desc None [(-1)%Z] [] None))
  None
  None
  None
  None
  None
  (Some (Build_desc (Some (bs "128|911")) [(3)%Z] [] (Some (bs "128"))))
  None
  (Some (Build_desc (Some (bs "1(?:0[4-9]|1[2368]|2[0-3568]|787|997\d?)|911")) [] [] (Some (bs "104"))))
  (Some (Build_desc (Some (bs "178\d")) [(4)%Z] [] (Some (bs "1780"))))
  (Some (Build_desc None [(-1)%Z] [] None))
  (Some (Build_desc None [(-1)%Z] [] None))
  None
  (Some (bs "UY")) None None None None
  None None None None
  []
  []
  None None None.

Definition sh_UZ : meta := Eval vm_compute in Build_meta
  (Some (Build_desc (Some (bs "[04]\d(?:\d(?:\d{2})?)?")) [(2)%Z; (3)%Z; (5)%Z] [] None))
  None
  None
  (Some (Build_desc (Some (bs "0(?:0[1-3]|[1-3]|50)")) [(2)%Z; (3)%Z] [] (Some (bs "01"))))
  (Some (Build_desc None [(-1)%Z] [] None))
  None
  None
  None
  None
  None
  (Some (Build_desc (Some (bs "0(?:0[1-3]|[1-3]|50)")) [(2)%Z; (3)%Z] [] (Some (bs "01"))))
  None
  (Some (Build_desc (Some (bs "0(?:0[1-3]|[1-3]|50)|45400")) [] [] (Some (bs "01"))))
  (Some (Build_desc None [(-1)%Z] [] None))
  (Some (Build_desc (Some (bs "454\d\d")) [(5)%Z] [] (Some (bs "45400"))))
  (Some (Build_desc (Some (bs "454\d\d")) [(5)%Z] [] (Some (bs "45400"))))
  None
  (Some (bs "UZ")) None None None None
  None None None None
  []
  []
  None None None.

Definition sh_VA : meta := Eval vm_compute in Build_meta
  (Some (Build_desc (Some (bs "1\d\d")) [(3)%Z] [] None))
  None
  None
  (Some (Build_desc (Some (bs "11[2358]")) [] [] (Some (bs "112"))))
  (Some (Build_desc None [(-1)%Z] [] None))
  None
  None
  None
  None
  None
  (Some (Build_desc (Some (bs "11[2358]")) [] [] (Some (bs "112"))))
  None
  (Some (Build_desc (Some (bs "11[2358]")) [] [] (Some (bs "112"))))
  (Some (Build_desc None [(-1)%Z] [] None))
  (Some (Build_desc None [(-1)%Z] [] None))
  (Some (Build_desc None [(-1)%Z] [] None))
  None
  (Some (bs "VA")) None None None None
  None None None None
  []
  []
  None None None.

Definition sh_VC : meta := Eval vm_compute in Build_meta
  (Some (Build_desc (Some (bs "9\d\d")) [(3)%Z] [] None))
  None
  None
  (Some (Build_desc (Some (bs "9(?:11|88|99)")) [] [] (Some (bs "911"))))
  (Some (Build_desc None [(-1)%Z] [] None))
  None
  None
  None
  None
  None
  (Some (Build_desc (Some (bs "9(?:11|99)")) [] [] (Some (bs "911"))))
  None
  (Some (Build_desc (Some (bs "9(?:11|88|99)")) [] [] (Some (bs "911"))))
  (Some (Build_desc None [(-1)%Z] [] None))
  (Some (Build_desc None [(-1)%Z] [] None))
  (Some (Build_desc None [(-1)%Z] [] None))
  None
  (Some (bs "VC")) None None None None
  None None None None
  []
  []
  None None None.

Definition sh_VE : meta := Eval vm_compute in Build_meta
  (Some (Build_desc (Some (bs "[19]\d\d")) [(3)%Z] [] None))
  None
  None
  (Some (Build_desc (Some (bs "1(?:12|71)|911")) [] [] (Some (bs "112"))))
  (Some (Build_desc None [(-1)%Z] [] None))
  None
  None
  None
  None
  None
  (Some (Build_desc (Some (bs "1(?:12|71)|911")) [] [] (Some (bs "112"))))
  None
  (Some (Build_desc (Some (bs "1(?:12|71)|911")) [] [] (Some (bs "112"))))
  (Some (Build_desc None [(-1)%Z] [] None))
  (Some (Build_desc None [(-1)%Z] [] None))
  (Some (Build_desc None [(-1)%Z] [] None))
  None
  (Some (bs "VE")) None None None None
  None None None None
  []
  []
  None None None.

Definition sh_VG : meta := Eval vm_compute in Build_meta
  (Some (Build_desc (Some (bs "9\d\d")) [(3)%Z] [] None))
  None
  None
  (Some (Build_desc (Some (bs "9(?:11|88|99)")) [] [] (Some (bs "911"))))
  (Some (Build_desc None [(-1)%Z] [] None))
  None
  None
  None
  None
  None
  (Some (Build_desc (Some (bs "9(?:11|99)")) [] [] (Some (bs "911"))))
  None
  (Some (Build_desc (Some (bs "9(?:11|88|99)")) [] [] (Some (bs "911"))))
  (Some (Build_desc None [(-1)%Z] [] None))
  (Some (Build_desc None [(-1)%Z] [] None))
  (Some (Build_desc None [(-1)%Z] [] None))
  None
  (Some (bs "VG")) None None None None
  None None None None
  []
  []
  None None None.

Definition sh_VI : meta := Eval vm_compute in Build_meta
  (Some (Build_desc (Some (bs "9\d\d")) [(3)%Z] [] None))
  None
  None
  (Some (Build_desc (Some (bs "9(?:11|88)")) [] [] (Some (bs "911"))))
  (Some (Build_desc None [(-1)%Z] [] None))
  None
  None
  None
  None
  None
  (Some (Build_desc (Some (bs "911")) [] [] (Some (bs "911"))))
  None
  (Some (Build_desc (Some (bs "9(?:11|88)")) [] [] (Some (bs "911"))))
  (Some (Build_desc None [(-1)%Z] [] None))
  (Some (Build_desc None [(-1)%Z] [] None))
  (Some (Build_desc None [(-1)%Z] [] None))
  None
  (Some (bs "VI")) None None None None
  None None None None
  []
  []
  None None None.

Definition sh_VN : meta := Eval vm_compute in Build_meta
  (Some (Build_desc (Some (bs "1\d\d")) [(3)%Z] [] None))
  None
  None
  (Some (Build_desc (Some (bs "11[3-5]")) [] [] (Some (bs "113"))))
  (Some (Build_desc None [(-1)%Z] [] None))
  None
  None
  None
  None
  None
  (Some (Build_desc (Some (bs "11[3-5]")) [] [] (Some (bs "113"))))
  None
  (Some (Build_desc (Some (bs "11[3-5]")) [] [] (Some (bs "113"))))
  (Some (Build_desc None [(-1)%Z] [] None))
  (Some (Build_desc None [(-1)%Z] [] None))
  (Some (Build_desc None [(-1)%Z] [] None))
  None
  (Some (bs "VN")) None None None None
  None None None None
  []
  []
  None None None.

Definition sh_VU : meta := Eval vm_compute in Build_meta
  (Some (Build_desc (Some (bs "1\d\d")) [(3)%Z] [] None))
  None
  None
  (Some (Build_desc (Some (bs "112")) [] [] (Some (bs "112"))))
  (Some (Build_desc None [(-1)%Z] [] None))
  None
  None
  None
  None
  None
  (Some (Build_desc (Some (bs "112")) [] [] (Some (bs "112"))))
  None
  (Some (Build_desc (Some (bs "112")) [] [] (Some (bs "112"))))
  (Some (Build_desc None [(-1)%Z] [] None))
  (Some (Build_desc None [(-1)%Z] [] None))
  (Some (Build_desc None [(-1)%Z] [] None))
  None
  (Some (bs "VU")) None None None None
  None None None None
  []
  []
  None None None.

Definition sh_WF : meta := Eval vm_compute in Build_meta
  (Some (Build_desc (Some (bs "1\d")) [(2)%Z] [] None))
  None
  None
  (Some (Build_desc (Some (bs "1[578]")) [] [] (Some (bs "15"))))
  (Some (Build_desc None [(-1)%Z] [] None))
  None
  None
  None
  None
  None
  (Some (Build_desc (Some (bs "1[578]")) [] [] (Some (bs "15"))))
  None
  (Some (Build_desc (Some (bs "1[578]")) [] [] (Some (bs "15"))))
  (Some (Build_desc None [(-1)%Z] [] None))
  (Some (Build_desc None [(-1)%Z] [] None))
  (Some (Build_desc None [(-1)%Z] [] None))
  None
  (Some (bs "WF")) None None None None
  None None None None
  []
  []
  None None None.

Definition sh_WS : meta := Eval vm_compute in Build_meta
  (Some (Build_desc (Some (bs "[19]\d\d")) [(3)%Z] [] None))
  None
  None
  (Some (Build_desc (Some (bs "9(?:11|9[4-69])")) [] [] (Some (bs "911"))))
  (Some (Build_desc None [(-1)%Z] [] None))
  None
  None
  None
  None
  None
  (Some (Build_desc (Some (bs "9(?:11|9[4-69])")) [] [] (Some (bs "911"))))
  None
  (Some (Build_desc (Some (bs "1(?:1[12]|2[0-6]|[39]0)|9(?:11|9[4-79])")) [] [] (Some (bs "111"))))
  (Some (Build_desc None [(-1)%Z] [] None))
  (Some (Build_desc (Some (bs "12[0-6]")) [] [] (Some (bs "120"))))
  (Some (Build_desc None [(-1)%Z] [] None))
  None
  (Some (bs "WS")) None None None None
  None None None None
  []
  []
  None None None.

Definition sh_XK : meta := Eval vm_compute in Build_meta
  (Some (Build_desc (Some (bs "1\d\d")) [(3)%Z] [] None))
  None
  None
  (Some (Build_desc (Some (bs "1(?:12|9[2-4])")) [] [] (Some (bs "112"))))
  (Some (Build_desc None [(-1)%Z] [] None))
  None
  None
  None
  None
  None
  (Some (Build_desc (Some (bs "1(?:12|9[2-4])")) [] [] (Some (bs "112"))))
  None
  (Some (Build_desc (Some (bs "1(?:12|9[2-4])")) [] [] (Some (bs "112"))))
  (Some (Build_desc None [(-1)%Z] [] None))
  (Some (Build_desc None [(-1)%Z] [] None))
  (Some (Build_desc None [(-1)%Z] [] None))
  None
  (Some (bs "XK")) None None None None
  None None None None
  []
  []
  None None None.

Definition sh_YE : meta := Eval vm_compute in Build_meta
  (Some (Build_desc (Some (bs "1\d\d")) [(3)%Z] [] None))
  None
  None
  (Some (Build_desc (Some (bs "19[1459]")) [] [] (Some (bs "191"))))
  (Some (Build_desc None [(-1)%Z] [] None))
  None
  None
  None
  None
  None
  (Some (Build_desc (Some (bs "19[1459]")) [] [] (Some (bs "191"))))
  None
  (Some (Build_desc (Some (bs "19[1459]")) [] [] (Some (bs "191"))))
  (Some (Build_desc None [(-1)%Z] [] None))
  (Some (Build_desc None [(-1)%Z] [] None))
  (Some (Build_desc None [(-1)%Z] [] None))
  None
  (Some (bs "YE")) None None None None
  None None None None
  []
  []
  None None None.

Definition sh_YT : meta := Eval vm_compute in Build_meta
  (Some (Build_desc (Some (bs "1\d\d?")) [(2)%Z; (3)%Z] [] None))
  None
  None
  (Some (Build_desc (Some (bs "1(?:12|5)")) [] [] (Some (bs "15"))))
  (Some (Build_desc None [(-1)%Z] [] None))
  None
  None
  None
  None
  None
  (Some (Build_desc (Some (bs "1(?:12|5)")) [] [] (Some (bs "15"))))
  None
  (Some (Build_desc (Some (bs "1(?:12|5)")) [] [] (Some (bs "15"))))
  (Some (Build_desc None [(-1)%Z] [] None))
  (Some (Build_desc None [(-1)%Z] [] None))
  (Some (Build_desc None [(-1)%Z] [] None))
  None
  (Some (bs "YT")) None None None None
  None None None None
  []
  []
  None None None.

Definition sh_ZA : meta := Eval vm_compute in Build_meta
  (Some (Build_desc (Some (bs "[134]\d{2,4}")) [(3)%Z; (4)%Z; (5)%Z] [] None))
  None
  None
  (Some (Build_desc (Some (bs "1(?:01\d\d|12)")) [(3)%Z; (5)%Z] [] (Some (bs "112"))))
  (Some (Build_desc (Some (bs "41(?:348|851)")) [(5)%Z] [] (Some (bs "41348"))))
  None
  None
  None
  None
  None
  (Some (Build_desc (Some (bs "1(?:01(?:11|77)|12)")) [(3)%Z; (5)%Z] [] (Some (bs "112"))))
  None
  (Some (Build_desc (Some (bs "1(?:0(?:1(?:11|77)|20|7)|1[12]|77(?:3[237]|[45]7|6[279]|9[26]))|[34]\d{4}")) [] [] (Some (bs "107"))))
  (Some (Build_desc (Some (bs "3(?:078[23]|7(?:064|567)|8126)|4(?:394[16]|7751|8837)|4[23]699")) [(5)%Z] [] (Some (bs "30782"))))
  (Some (Build_desc (Some (bs "111")) [(3)%Z] [] (Some (bs "111"))))
  (Some (Build_desc (Some (bs "[34]\d{4}")) [(5)%Z] [] (Some (bs "30000"))))
  None
  (Some (bs "ZA")) None None None None
  None None None None
  []
  []
  None None None.

Definition sh_ZM : meta := Eval vm_compute in Build_meta
  (Some (Build_desc (Some (bs "[19]\d\d")) [(3)%Z] [] None))
  None
  None
  (Some (Build_desc (Some (bs "112|99[139]")) [] [] (Some (bs "112"))))
  (Some (Build_desc None [(-1)%Z] [] None))
  None
  None
  None
  None
  None
  (Some (Build_desc (Some (bs "112|99[139]")) [] [] (Some (bs "112"))))
  None
  (Some (Build_desc (Some (bs "112|99[139]")) [] [] (Some (bs "112"))))
  (Some (Build_desc None [(-1)%Z] [] None))
  (Some (Build_desc None [(-1)%Z] [] None))
  (Some (Build_desc None [(-1)%Z] [] None))
  None
  (Some (bs "ZM")) None None None None
  None None None None
  []
  []
  None None None.

Definition sh_ZW : meta := Eval vm_compute in Build_meta
  (Some (Build_desc (Some (bs "[139]\d\d(?:\d{2})?")) [(3)%Z; (5)%Z] [] None))
  None
  None
  (Some (Build_desc (Some (bs "112|9(?:5[023]|61|9[3-59])")) [(3)%Z] [] (Some (bs "112"))))
  (Some (Build_desc (Some (bs "3[013-57-9]\d{3}")) [(5)%Z] [] (Some (bs "30000"))))
  None
  None
  None
  None
  None
  (Some (Build_desc (Some (bs "112|99[3-59]")) [(3)%Z] [] (Some (bs "112"))))
  None
  (Some (Build_desc (Some (bs "11[2469]|3[013-57-9]\d{3}|9(?:5[023]|6[0-25]|9[3-59])")) [] [] (Some (bs "112"))))
  (Some (Build_desc None [(-1)%Z] [] None))
  (Some (Build_desc (Some (bs "114|9(?:5[023]|6[0-25])")) [(3)%Z] [] (Some (bs "114"))))
  (Some (Build_desc None [(-1)%Z] [] None))
  None
  (Some (bs "ZW")) None None None None
  None None None None
  []
  []
  None None None.

(** The short-number collection, in file order. *)
Definition short_collection : list meta :=
  [sh_AC;
   sh_AD;
   sh_AE;
   sh_AF;
   sh_AG;
   sh_AI;
   sh_AL;
   sh_AM;
   sh_AO;
   sh_AR;
   sh_AS;
   sh_AT;
   sh_AU;
   sh_AW;
   sh_AX;
   sh_AZ;
   sh_BA;
   sh_BB;
   sh_BD;
   sh_BE;
   sh_BF;
   sh_BG;
   sh_BH;
   sh_BI;
   sh_BJ;
   sh_BL;
   sh_BM;
   sh_BN;
   sh_BO;
   sh_BQ;
   sh_BR;
   sh_BS;
   sh_BT;
   sh_BW;
   sh_BY;
   sh_BZ;
   sh_CA;
   sh_CC;
   sh_CD;
   sh_CF;
   sh_CG;
   sh_CH;
   sh_CI;
   sh_CK;
   sh_CL;
   sh_CM;
   sh_CN;
   sh_CO;
   sh_CR;
   sh_CU;
   sh_CV;
   sh_CW;
   sh_CX;
   sh_CY;
   sh_CZ;
   sh_DE;
   sh_DJ;
   sh_DK;
   sh_DM;
   sh_DO;
   sh_DZ;
   sh_EC;
   sh_EE;
   sh_EG;
   sh_EH;
   sh_ER;
   sh_ES;
   sh_ET;
   sh_FI;
   sh_FJ;
   sh_FK;
   sh_FM;
   sh_FO;
   sh_FR;
   sh_GA;
   sh_GB;
   sh_GD;
   sh_GE;
   sh_GF;
   sh_GG;
   sh_GH;
   sh_GI;
   sh_GL;
   sh_GM;
   sh_GN;
   sh_GP;
   sh_GR;
   sh_GT;
   sh_GU;
   sh_GW;
   sh_GY;
   sh_HK;
   sh_HN;
   sh_HR;
   sh_HT;
   sh_HU;
   sh_ID;
   sh_IE;
   sh_IL;
   sh_IM;
   sh_IN;
   sh_IQ;
   sh_IR;
   sh_IS;
   sh_IT;
   sh_JE;
   sh_JM;
   sh_JO;
   sh_JP;
   sh_KE;
   sh_KG;
   sh_KH;
   sh_KI;
   sh_KM;
   sh_KN;
   sh_KP;
   sh_KR;
   sh_KW;
   sh_KY;
   sh_KZ;
   sh_LA;
   sh_LB;
   sh_LC;
   sh_LI;
   sh_LK;
   sh_LR;
   sh_LS;
   sh_LT;
   sh_LU;
   sh_LV;
   sh_LY;
   sh_MA;
   sh_MC;
   sh_MD;
   sh_ME;
   sh_MF;
   sh_MG;
   sh_MH;
   sh_MK;
   sh_ML;
   sh_MM;
   sh_MN;
   sh_MO;
   sh_MP;
   sh_MQ;
   sh_MR;
   sh_MS;
   sh_MT;
   sh_MU;
   sh_MV;
   sh_MW;
   sh_MX;
   sh_MY;
   sh_MZ;
   sh_NA;
   sh_NC;
   sh_NE;
   sh_NF;
   sh_NG;
   sh_NI;
   sh_NL;
   sh_NO;
   sh_NP;
   sh_NR;
   sh_NU;
   sh_NZ;
   sh_OM;
   sh_PA;
   sh_PE;
   sh_PF;
   sh_PG;
   sh_PH;
   sh_PK;
   sh_PL;
   sh_PM;
   sh_PR;
   sh_PS;
   sh_PT;
   sh_PW;
   sh_PY;
   sh_QA;
   sh_RE;
   sh_RO;
   sh_RS;
   sh_RU;
   sh_RW;
   sh_SA;
   sh_SB;
   sh_SC;
   sh_SD;
   sh_SE;
   sh_SG;
   sh_SH;
   sh_SI;
   sh_SJ;
   sh_SK;
   sh_SL;
   sh_SM;
   sh_SN;
   sh_SO;
   sh_SR;
   sh_SS;
   sh_ST;
   sh_SV;
   sh_SX;
   sh_SY;
   sh_SZ;
   sh_TC;
   sh_TD;
   sh_TG;
   sh_TH;
   sh_TJ;
   sh_TL;
   sh_TM;
   sh_TN;
   sh_TO;
   sh_TR;
   sh_TT;
   sh_TV;
   sh_TW;
   sh_TZ;
   sh_UA;
   sh_UG;
   sh_US;
   sh_UY;
   sh_UZ;
   sh_VA;
   sh_VC;
   sh_VE;
   sh_VG;
   sh_VI;
   sh_VN;
   sh_VU;
   sh_WF;
   sh_WS;
   sh_XK;
   sh_YE;
   sh_YT;
   sh_ZA;
   sh_ZM;
   sh_ZW].
