(** Generated by gen/metadata.py from data/alternateformats_metadata.xml.gz. Do not edit. *)
From Verif Require Import Base Types.

Definition alt_971 : meta := Eval vm_compute in Build_meta
  None
  None
  None
  None
  None
  None
  None
  None
  None
  None
  None
  None
  None
  None
  None
  None
  None
  (Some (bs "")) (Some (971)%Z) None None None
  None None None None
  [Build_nfmt (Some (bs "(\d{2})(\d{4})(\d{3})")) (Some (bs "$1 $2 $3")) [bs "5"] None None None]
  []
  None None None.

Definition alt_54 : meta := Eval vm_compute in Build_meta
  None
  None
  None
  None
  None
  None
  None
  None
  None
  None
  None
  None
  None
  None
  None
  None
  None
  (Some (bs "")) (Some (54)%Z) None None None
  None None None None
  [Build_nfmt (Some (bs "(\d{4})(\d{3})(\d{3})")) (Some (bs "$1 $2 $3")) [bs "2(?:[23]02|6(?:[25]|4[6-8])|9(?:[02356]|4[02568]|72|8[23]))|3(?:3[28]|4(?:[04-79]|3[5-8]|8[2379])|5(?:[2467]|3[237]|8[2-5])|7[1-578]|8(?:[2469]|3[2578]|5[4-8]|7[36-8]|8[5-8]))|2(?:2[24-9]|3[1-59]|47)"] None None None;
    Build_nfmt (Some (bs "(\d)(\d{4})(\d{3})(\d{3})")) (Some (bs "$1 $2 $3 $4")) [bs "9(?:2(?:2[024-9]|3[0-59]|47|6[245]|9[02-8])|3(?:3[28]|4[03-9]|5[2-46-8]|7[1-578]|8[2-9]))"] None None None]
  []
  None None None.

Definition alt_43 : meta := Eval vm_compute in Build_meta
  None
  None
  None
  None
  None
  None
  None
  None
  None
  None
  None
  None
  None
  None
  None
  None
  None
  (Some (bs "")) (Some (43)%Z) None None None
  None None None None
  [Build_nfmt (Some (bs "(\d)(\d{3})(\d{2})(\d{2,3})")) (Some (bs "$1 $2 $3 $4")) [bs "1"] None None None;
    Build_nfmt (Some (bs "(\d)(\d{4,6})")) (Some (bs "$1 $2")) [bs "5[079]"] None None None;
    Build_nfmt (Some (bs "(\d)(\d{7,8})")) (Some (bs "$1 $2")) [bs "5[079]"] None None None;
    Build_nfmt (Some (bs "(\d{2})(\d{2})(\d{2})(\d{2,3})")) (Some (bs "$1 $2 $3 $4")) [bs "5[079]"] None None None;
    Build_nfmt (Some (bs "(\d{2})(\d{6,7})")) (Some (bs "$1 $2")) [bs "5[079]"] None None None;
    Build_nfmt (Some (bs "(\d)(\d{9,12})")) (Some (bs "$1 $2")) [bs "5[079]"] None None None;
    Build_nfmt (Some (bs "(\d{2})(\d{2})(\d{2})(\d{4})")) (Some (bs "$1 $2 $3 $4")) [bs "5[079]"] None None None;
    Build_nfmt (Some (bs "(\d{2})(\d{2})(\d{2})(\d{2})(\d{2,4})")) (Some (bs "$1 $2 $3 $4 $5")) [bs "5[079]"] None None None;
    Build_nfmt (Some (bs "(\d{2})(\d{5})(\d{4,6})")) (Some (bs "$1 $2 $3")) [bs "5[079]"] None None None;
    Build_nfmt (Some (bs "(\d{3})(\d{3})(\d{3})(\d{3,4})")) (Some (bs "$1 $2 $3 $4")) [bs "(?:31|4)6|51|6(?:485|5[0-3579]|[6-9])|7(?:20|32|8)|[89]"] None None None;
    Build_nfmt (Some (bs "(\d{3})(\d{3})(\d{2})(\d{2,3})")) (Some (bs "$1 $2 $3 $4")) [bs "(?:31|4)6|51|6(?:485|5[0-3579]|[6-9])|7(?:20|32|8)|[89]"] None None None;
    Build_nfmt (Some (bs "(\d{3})(\d{2})(\d{2})(\d{2,3})")) (Some (bs "$1 $2 $3 $4")) [bs "(?:31|4)6|51|6(?:485|5[0-3579]|[6-9])|7(?:20|32|8)|[89]"] None None None;
    Build_nfmt (Some (bs "(\d{4})(\d{3})(\d{3,4})")) (Some (bs "$1 $2 $3")) [bs "2|3(?:1[1-578]|[3-68])|4[2378]|5[2-6]|6(?:[12]|4(?:[135-7]|8[34])|5[468])|7(?:2[1-8]|35|[4-79])"] None None None]
  []
  None None None.

Definition alt_61 : meta := Eval vm_compute in Build_meta
  None
  None
  None
  None
  None
  None
  None
  None
  None
  None
  None
  None
  None
  None
  None
  None
  None
  (Some (bs "")) (Some (61)%Z) None None None
  None None None None
  [Build_nfmt (Some (bs "(\d{4})(\d{2})(\d{2})(\d{2})")) (Some (bs "$1 $2 $3 $4")) [] None None None;
    Build_nfmt (Some (bs "(\d{4})(\d{6})")) (Some (bs "$1 $2")) [] None None None;
    Build_nfmt (Some (bs "(\d)(\d{3})(\d{3})(\d{3})")) (Some (bs "$1 $2 $3 $4")) [] None None None;
    Build_nfmt (Some (bs "(\d)(\d{8})")) (Some (bs "$1 $2")) [bs "[2378]"] None None None]
  []
  None None None.

Definition alt_359 : meta := Eval vm_compute in Build_meta
  None
  None
  None
  None
  None
  None
  None
  None
  None
  None
  None
  None
  None
  None
  None
  None
  None
  (Some (bs "")) (Some (359)%Z) None None None
  None None None None
  [Build_nfmt (Some (bs "(\d)(\d{3})(\d{2})(\d{2})")) (Some (bs "$1 $2 $3 $4")) [bs "2"] None None None;
    Build_nfmt (Some (bs "(\d{3})(\d{3})(\d{3})")) (Some (bs "$1 $2 $3")) [bs "8|98"] None None None;
    Build_nfmt (Some (bs "(\d{3})(\d{2})(\d{2})(\d{2})")) (Some (bs "$1 $2 $3 $4")) [bs "8|98"] None None None]
  []
  None None None.

Definition alt_55 : meta := Eval vm_compute in Build_meta
  None
  None
  None
  None
  None
  None
  None
  None
  None
  None
  None
  None
  None
  None
  None
  None
  None
  (Some (bs "")) (Some (55)%Z) None None None
  None None None None
  [Build_nfmt (Some (bs "(\d{2})(\d{8})")) (Some (bs "$1 $2")) [bs "[12467]|3[1-578]|5[13-5]|[89][1-9]"] None None None]
  []
  None None None.

Definition alt_506 : meta := Eval vm_compute in Build_meta
  None
  None
  None
  None
  None
  None
  None
  None
  None
  None
  None
  None
  None
  None
  None
  None
  None
  (Some (bs "")) (Some (506)%Z) None None None
  None None None None
  [Build_nfmt (Some (bs "(\d{4})(\d{2})(\d{2})")) (Some (bs "$1 $2 $3")) [] None None None]
  []
  None None None.

Definition alt_49 : meta := Eval vm_compute in Build_meta
  None
  None
  None
  None
  None
  None
  None
  None
  None
  None
  None
  None
  None
  None
  None
  None
  None
  (Some (bs "")) (Some (49)%Z) None None None
  None None None None
  [Build_nfmt (Some (bs "(\d{2})(\d{3})(\d{3,4})")) (Some (bs "$1 $2 $3")) [bs "3[02]|40|[68]9"] None None None;
    Build_nfmt (Some (bs "(\d{2})(\d{2})(\d{2})(\d{2})(\d{2})")) (Some (bs "$1 $2 $3 $4 $5")) [bs "2(?:0[4-6]|1(?:[035-9]|29)|3[0235-9]|7[2-7])|3(?:0|3(?:0[1-467]|2[127-9]|3[124578]|7[1257-9]|8[1256]|9[145])|4(?:2[135]|4[13578]|9[1346])|5(?:0[14]|2[1-3589]|6[1-4]|7[13468]|8[13568])|6(?:2[1-489]|3[124-6]|6[13]|7[12579]|8[1-356]|9[135])|7(?:2[1-7]|4[145]|6[1-5]|7[1-4])|8(?:21|6|7[1467]|8[136])|9(?:0[12479]|2[1358]|4[134679]|6[1-9]|7[136]|8[147]))|4[01]|50|6[09]|7(?:0|8[02-5]|9[03-7])|8(?:3[02-46-9]|5[03-9]|6[2-8]|8[024-6]|9)|9(?:0[7-9]|7[02-467])|(?:45|84)[02-6]|3(?:83|99)[1468]|3[68]4[1347]|3(?:47|60)[1356]|(?:66|71|80)[2-9]|3(?:3[46]|46|5[49])[1246]|(?:22|47|81)[02-79]|3[4579]3[1357]|(?:28|49|5[79]|7[27]|9[589])[02-7]|(?:2[569]|4[2-48]|5[124-6]|6[1-358]|73|82|9[1-4])[02-9]|(?:24|[49]6|5[38]|6[47]|7[4-6]|87)[02-8]"] None None None;
    Build_nfmt (Some (bs "(\d{2})(\d{4})(\d{3,4})")) (Some (bs "$1 $2 $3")) [bs "3[02]|40|[68]9"] None None None;
    Build_nfmt (Some (bs "(\d{2})(\d{3})(\d{2})(\d{1,2})")) (Some (bs "$1 $2 $3 $4")) [bs "3[02]|40|[68]9"] None None None;
    Build_nfmt (Some (bs "(\d{2})(\d{3})(\d{3})(\d{2,3})")) (Some (bs "$1 $2 $3 $4")) [bs "3[02]|40|[68]9"] None None None;
    Build_nfmt (Some (bs "(\d{2})(\d{2})(\d{2})(\d)(\d{2})(\d{2})")) (Some (bs "$1 $2 $3 $4 $5 $6")) [bs "3[02]|40|[68]9"] None None None;
    Build_nfmt (Some (bs "(\d{3})(\d{3})(\d{2,4})")) (Some (bs "$1 $2 $3")) [bs "2(?:0[1-389]|12[0-8])|3(?:[35-9][15]|4[015])|906|2(?:[13][14]|2[18])|(?:2[4-9]|4[2-9]|[579][1-9]|[68][1-8])1"] None None None;
    Build_nfmt (Some (bs "(\d{3})(\d{4})(\d{3,4})")) (Some (bs "$1 $2 $3")) [bs "2(?:0[1-389]|12[0-8])|3(?:[35-9][15]|4[015])|906|2(?:[13][14]|2[18])|(?:2[4-9]|4[2-9]|[579][1-9]|[68][1-8])1"] None None None;
    Build_nfmt (Some (bs "(\d{3})(\d{2})(\d{2})(\d{1,2})")) (Some (bs "$1 $2 $3 $4")) [bs "2(?:0[1-389]|12[0-8])|3(?:[35-9][15]|4[015])|906|2(?:[13][14]|2[18])|(?:2[4-9]|4[2-9]|[579][1-9]|[68][1-8])1"] None None None;
    Build_nfmt (Some (bs "(\d{3})(\d{2})(\d{2})(\d{2})(\d{2})")) (Some (bs "$1 $2 $3 $4 $5")) [bs "2(?:0[1-389]|12[0-8])|3(?:[35-9][15]|4[015])|906|2(?:[13][14]|2[18])|(?:2[4-9]|4[2-9]|[579][1-9]|[68][1-8])1"] None None None;
    Build_nfmt (Some (bs "(\d{3})(\d{3})(\d{2})(\d{2})")) (Some (bs "$1 $2 $3 $4")) [bs "2(?:0[1-389]|12[0-8])|3(?:[35-9][15]|4[015])|906|2(?:[13][14]|2[18])|(?:2[4-9]|4[2-9]|[579][1-9]|[68][1-8])1"] None None None;
    Build_nfmt (Some (bs "(\d{3})(\d{3})(\d{2})(\d{2})(\d)")) (Some (bs "$1 $2 $3 $4 $5")) [bs "2(?:0[1-389]|12[0-8])|3(?:[35-9][15]|4[015])|906|2(?:[13][14]|2[18])|(?:2[4-9]|4[2-9]|[579][1-9]|[68][1-8])1"] None None None;
    Build_nfmt (Some (bs "(\d{3})(\d{3})(\d{3})(\d{2,3})")) (Some (bs "$1 $2 $3 $4")) [bs "2(?:0[1-389]|12[0-8])|3(?:[35-9][15]|4[015])|906|2(?:[13][14]|2[18])|(?:2[4-9]|4[2-9]|[579][1-9]|[68][1-8])1"] None None None;
    Build_nfmt (Some (bs "(\d{4})(\d{3})(\d{1,4})")) (Some (bs "$1 $2 $3")) [bs "2(?:0[4-6]|1(?:[035-9]|29)|3[0235-9]|7[2-7])|3(?:3(?:0[1-467]|2[127-9]|3[124578]|7[1257-9]|8[1256]|9[145])|4(?:2[135]|4[13578]|9[1346])|5(?:0[14]|2[1-3589]|6[1-4]|7[13468]|8[13568])|6(?:2[1-489]|3[124-6]|6[13]|7[12579]|8[1-356]|9[135])|7(?:2[1-7]|4[145]|6[1-5]|7[1-4])|8(?:21|6|7[1467]|8[136])|9(?:0[12479]|2[1358]|4[134679]|6[1-9]|7[136]|8[147]))|41|[56]0|7(?:0[2-8]|8[02-5]|9[03-7])|8(?:3[02-46-9]|5[03-9]|6[2-8]|8[024-6])|9(?:0[7-9]|7[02-467])|(?:45|84)[02-6]|3(?:83|99)[1468]|3[68]4[1347]|3(?:47|60)[1356]|(?:66|71|80)[2-9]|3(?:3[46]|46|5[49])[1246]|(?:22|47|81)[02-79]|3[4579]3[1357]|(?:28|49|5[79]|7[27]|9[589])[02-7]|(?:2[569]|4[2-48]|5[124-6]|6[1-358]|73|82|9[1-4])[02-9]|(?:24|[49]6|5[38]|6[47]|7[4-6]|87)[02-8]"] None None None;
    Build_nfmt (Some (bs "(\d{2})(\d{2})(\d{2})(\d{2})")) (Some (bs "$1 $2 $3 $4")) [bs "2(?:0[4-6]|1(?:[035-9]|29)|3[0235-9]|7[2-7])|3(?:3(?:0[1-467]|2[127-9]|3[124578]|7[1257-9]|8[1256]|9[145])|4(?:2[135]|4[13578]|9[1346])|5(?:0[14]|2[1-3589]|6[1-4]|7[13468]|8[13568])|6(?:2[1-489]|3[124-6]|6[13]|7[12579]|8[1-356]|9[135])|7(?:2[1-7]|4[145]|6[1-5]|7[1-4])|8(?:21|6|7[1467]|8[136])|9(?:0[12479]|2[1358]|4[134679]|6[1-9]|7[136]|8[147]))|41|66[2-9]|7(?:1[2-9]|8[02-5]|9[03-7])|8(?:3[02-46-9]|5[03-9]|6[2-8]|8[024-6])|9(?:0[7-9]|7[02-467])|[5-8]0|(?:45|84)[02-6]|3(?:83|99)[1468]|3[68]4[1347]|3(?:47|60)[1356]|3(?:3[46]|46|5[49])[1246]|(?:22|47|81)[02-79]|3[4579]3[1357]|(?:28|49|5[79]|7[27]|9[589])[02-7]|(?:2[569]|4[2-48]|5[124-6]|6[1-358]|73|82|9[1-4])[02-9]|(?:24|[49]6|5[38]|6[47]|7[4-6]|87)[02-8]"] None None None;
    Build_nfmt (Some (bs "(\d{2})(\d{2})(\d)(\d{2})(\d{2})")) (Some (bs "$1 $2 $3 $4 $5")) [bs "2(?:0[4-6]|1(?:[035-9]|29)|3[0235-9]|7[2-7])|3(?:3(?:0[1-467]|2[127-9]|3[124578]|7[1257-9]|8[1256]|9[145])|4(?:2[135]|4[13578]|9[1346])|5(?:0[14]|2[1-3589]|6[1-4]|7[13468]|8[13568])|6(?:2[1-489]|3[124-6]|6[13]|7[12579]|8[1-356]|9[135])|7(?:2[1-7]|4[145]|6[1-5]|7[1-4])|8(?:21|6|7[1467]|8[136])|9(?:0[12479]|2[1358]|4[134679]|6[1-9]|7[136]|8[147]))|41|66[2-9]|7(?:1[2-9]|8[02-5]|9[03-7])|8(?:3[02-46-9]|5[03-9]|6[2-8]|8[024-6])|9(?:0[7-9]|7[02-467])|[5-8]0|(?:45|84)[02-6]|3(?:83|99)[1468]|3[68]4[1347]|3(?:47|60)[1356]|3(?:3[46]|46|5[49])[1246]|(?:22|47|81)[02-79]|3[4579]3[1357]|(?:28|49|5[79]|7[27]|9[589])[02-7]|(?:2[569]|4[2-48]|5[124-6]|6[1-358]|73|82|9[1-4])[02-9]|(?:24|[49]6|5[38]|6[47]|7[4-6]|87)[02-8]"] None None None;
    Build_nfmt (Some (bs "(\d{2})(\d{2})(\d)(\d{2})(\d{2})(\d{2})")) (Some (bs "$1 $2 $3 $4 $5 $6")) [bs "2(?:0[4-6]|1(?:[035-9]|29)|3[0235-9]|7[2-7])|3(?:3(?:0[1-467]|2[127-9]|3[124578]|7[1257-9]|8[1256]|9[145])|4(?:2[135]|4[13578]|9[1346])|5(?:0[14]|2[1-3589]|6[1-4]|7[13468]|8[13568])|6(?:2[1-489]|3[124-6]|6[13]|7[12579]|8[1-356]|9[135])|7(?:2[1-7]|4[145]|6[1-5]|7[1-4])|8(?:21|6|7[1467]|8[136])|9(?:0[12479]|2[1358]|4[134679]|6[1-9]|7[136]|8[147]))|41|[56]0|7(?:0[2-8]|8[02-5]|9[03-7])|8(?:3[02-46-9]|5[03-9]|6[2-8]|8[024-6])|9(?:0[7-9]|7[02-467])|(?:45|84)[02-6]|3(?:83|99)[1468]|3[68]4[1347]|3(?:47|60)[1356]|(?:66|71|80)[2-9]|3(?:3[46]|46|5[49])[1246]|(?:22|47|81)[02-79]|3[4579]3[1357]|(?:28|49|5[79]|7[27]|9[589])[02-7]|(?:2[569]|4[2-48]|5[124-6]|6[1-358]|73|82|9[1-4])[02-9]|(?:24|[49]6|5[38]|6[47]|7[4-6]|87)[02-8]"] None None None;
    Build_nfmt (Some (bs "(\d{2})(\d{2})(\d{2})(\d{2})(\d{2})(\d{2})")) (Some (bs "$1 $2 $3 $4 $5 $6")) [bs "2(?:0[4-6]|1(?:[035-9]|29)|3[0235-9]|7[2-7])|3(?:3(?:0[1-467]|2[127-9]|3[124578]|7[1257-9]|8[1256]|9[145])|4(?:2[135]|4[13578]|9[1346])|5(?:0[14]|2[1-3589]|6[1-4]|7[13468]|8[13568])|6(?:2[1-489]|3[124-6]|6[13]|7[12579]|8[1-356]|9[135])|7(?:2[1-7]|4[145]|6[1-5]|7[1-4])|8(?:21|6|7[1467]|8[136])|9(?:0[12479]|2[1358]|4[134679]|6[1-9]|7[136]|8[147]))|41|7(?:8[02-5]|9[03-7])|8(?:3[02-46-9]|5[03-9]|6[2-8]|8[024-6])|9(?:0[7-9]|7[02-467])|[5-7]0|(?:45|84)[02-6]|3(?:83|99)[1468]|3[68]4[1347]|3(?:47|60)[1356]|(?:66|71|80)[2-9]|3(?:3[46]|46|5[49])[1246]|(?:22|47|81)[02-79]|3[4579]3[1357]|(?:28|49|5[79]|7[27]|9[589])[02-7]|(?:2[569]|4[2-48]|5[124-6]|6[1-358]|73|82|9[1-4])[02-9]|(?:24|[49]6|5[38]|6[47]|7[4-6]|87)[02-8]"] None None None;
    Build_nfmt (Some (bs "(\d{4})(\d{4})(\d{1,4})")) (Some (bs "$1 $2 $3")) [bs "2(?:0[4-6]|1(?:[035-9]|29)|3[0235-9]|7[2-7])|3(?:3(?:0[1-467]|2[127-9]|3[124578]|7[1257-9]|8[1256]|9[145])|4(?:2[135]|4[13578]|9[1346])|5(?:0[14]|2[1-3589]|6[1-4]|7[13468]|8[13568])|6(?:2[1-489]|3[124-6]|6[13]|7[12579]|8[1-356]|9[135])|7(?:2[1-7]|4[145]|6[1-5]|7[1-4])|8(?:21|6|7[1467]|8[136])|9(?:0[12479]|2[1358]|4[134679]|6[1-9]|7[136]|8[147]))|41|[56]0|7(?:0[2-8]|8[02-5]|9[03-7])|8(?:3[02-46-9]|5[03-9]|6[2-8]|8[024-6])|9(?:0[7-9]|7[02-467])|(?:45|84)[02-6]|3(?:83|99)[1468]|3[68]4[1347]|3(?:47|60)[1356]|(?:66|71|80)[2-9]|3(?:3[46]|46|5[49])[1246]|(?:22|47|81)[02-79]|3[4579]3[1357]|(?:28|49|5[79]|7[27]|9[589])[02-7]|(?:2[569]|4[2-48]|5[124-6]|6[1-358]|73|82|9[1-4])[02-9]|(?:24|[49]6|5[38]|6[47]|7[4-6]|87)[02-8]"] None None None;
    Build_nfmt (Some (bs "(\d{4})(\d{3})(\d{3})(\d{3})")) (Some (bs "$1 $2 $3 $4")) [bs "2(?:0[4-6]|1(?:[035-9]|29)|3[0235-9]|7[2-7])|3(?:3(?:0[1-467]|2[127-9]|3[124578]|7[1257-9]|8[1256]|9[145])|4(?:2[135]|4[13578]|9[1346])|5(?:0[14]|2[1-3589]|6[1-4]|7[13468]|8[13568])|6(?:2[1-489]|3[124-6]|6[13]|7[12579]|8[1-356]|9[135])|7(?:2[1-7]|4[145]|6[1-5]|7[1-4])|8(?:21|3[1468]|6|7[1467]|8[136])|9(?:0[12479]|2[1358]|4[134679]|6[1-9]|7[136]|8[147]|9[1468]))|4(?:1|5[02-6]|9[2-6])|7(?:8[02-5]|9[03-7])|8(?:3[02-46-9]|4[02-6]|5[03-9]|6[2-8]|8[024-6])|9(?:0[7-9]|7[02-467])|[5-7]0|3[68]4[1347]|3(?:47|60)[1356]|(?:66|71|80)[2-9]|3(?:3[46]|46|5[49])[1246]|(?:22|47|81)[02-79]|3[4579]3[1357]|(?:28|5[79]|7[27]|9[589])[02-7]|(?:2[569]|4[2-48]|5[124-6]|6[1-358]|73|82|9[1-4])[02-9]|(?:24|[49]6|5[38]|6[47]|7[4-6]|87)[02-8]"] None None None;
    Build_nfmt (Some (bs "(\d{4})(\d{2})(\d{3})(\d{2})")) (Some (bs "$1 $2 $3 $4")) [bs "15[1279]|2(?:0[4-6]|1(?:[035-9]|29)|3[0235-9]|7[2-7])|3(?:3(?:0[1-467]|2[127-9]|3[124578]|7[1257-9]|8[1256]|9[145])|4(?:2[135]|4[13578]|9[1346])|5(?:0[14]|2[1-3589]|6[1-4]|7[13468]|8[13568])|6(?:2[1-489]|3[124-6]|6[13]|7[12579]|8[1-356]|9[135])|7(?:2[1-7]|4[145]|6[1-5]|7[1-4])|8(?:21|6|7[1467]|8[136])|9(?:0[12479]|2[1358]|4[134679]|6[1-9]|7[136]|8[147]))|41|[56]0|7(?:0[2-8]|8[02-5]|9[03-7])|8(?:3[02-46-9]|5[03-9]|6[2-8]|8[024-6])|9(?:0[7-9]|7[02-467])|(?:45|84)[02-6]|3(?:83|99)[1468]|3[68]4[1347]|3(?:47|60)[1356]|(?:66|71|80)[2-9]|3(?:3[46]|46|5[49])[1246]|(?:22|47|81)[02-79]|3[4579]3[1357]|(?:28|49|5[79]|7[27]|9[589])[02-7]|(?:2[569]|4[2-48]|5[124-6]|6[1-358]|73|82|9[1-4])[02-9]|(?:24|[49]6|5[38]|6[47]|7[4-6]|87)[02-8]"] None None None;
    Build_nfmt (Some (bs "(\d{4})(\d{3})(\d{2})(\d{2})")) (Some (bs "$1 $2 $3 $4")) [bs "2(?:0[4-6]|1(?:[035-9]|29)|3[0235-9]|7[2-7])|3(?:3(?:0[1-467]|2[127-9]|3[124578]|7[1257-9]|8[1256]|9[145])|4(?:2[135]|4[13578]|9[1346])|5(?:0[14]|2[1-3589]|6[1-4]|7[13468]|8[13568])|6(?:2[1-489]|3[124-6]|6[13]|7[12579]|8[1-356]|9[135])|7(?:2[1-7]|4[145]|6[1-5]|7[1-4])|8(?:21|6|7[1467]|8[136])|9(?:0[12479]|2[1358]|4[134679]|6[1-9]|7[136]|8[147]))|41|[56]0|7(?:0[2-8]|8[02-5]|9[03-7])|8(?:3[02-46-9]|5[03-9]|6[2-8]|8[024-6])|9(?:0[7-9]|7[02-467])|(?:45|84)[02-6]|3(?:83|99)[1468]|3[68]4[1347]|3(?:47|60)[1356]|(?:66|71|80)[2-9]|3(?:3[46]|46|5[49])[1246]|(?:22|47|81)[02-79]|3[4579]3[1357]|(?:28|49|5[79]|7[27]|9[589])[02-7]|(?:2[569]|4[2-48]|5[124-6]|6[1-358]|73|82|9[1-4])[02-9]|(?:24|[49]6|5[38]|6[47]|7[4-6]|87)[02-8]"] None None None;
    Build_nfmt (Some (bs "(\d{4})(\d{2})(\d{2})(\d{2,3})")) (Some (bs "$1 $2 $3 $4")) [bs "2(?:0[4-6]|1(?:[035-9]|29)|3[0235-9]|7[2-7])|3(?:3(?:0[1-467]|2[127-9]|3[124578]|7[1257-9]|8[1256]|9[145])|4(?:2[135]|4[13578]|9[1346])|5(?:0[14]|2[1-3589]|6[1-4]|7[13468]|8[13568])|6(?:2[1-489]|3[124-6]|6[13]|7[12579]|8[1-356]|9[135])|7(?:2[1-7]|4[145]|6[1-5]|7[1-4])|8(?:21|6|7[1467]|8[136])|9(?:0[12479]|2[1358]|4[134679]|6[1-9]|7[136]|8[147]))|41|[56]0|7(?:0[2-8]|8[02-5]|9[03-7])|8(?:3[02-46-9]|5[03-9]|6[2-8]|8[024-6])|9(?:0[7-9]|7[02-467])|(?:45|84)[02-6]|3(?:83|99)[1468]|3[68]4[1347]|3(?:47|60)[1356]|(?:66|71|80)[2-9]|3(?:3[46]|46|5[49])[1246]|(?:22|47|81)[02-79]|3[4579]3[1357]|(?:28|49|5[79]|7[27]|9[589])[02-7]|(?:2[569]|4[2-48]|5[124-6]|6[1-358]|73|82|9[1-4])[02-9]|(?:24|[49]6|5[38]|6[47]|7[4-6]|87)[02-8]"] None None None;
    Build_nfmt (Some (bs "(\d{5})(\d{3})(\d{3,4})")) (Some (bs "$1 $2 $3")) [bs "3(?:3(?:0[589]|2[03]|3[369]|4[357]|6[0357]|7[0346]|8[347]|9[236-8])|4(?:4[2469]|6[03579]|9[0257])|5(?:0[235]|2[046]|[49][357]|6[09]|7[2579]|8[2479])|6(?:2[05]|3[37]|6[02459]|7[03468]|8[47]|9[246])|7(?:2[09]|4[236]|60|75)|8(?:2[0239]|3[023579]|7[23589]|8[2457])|9(?:0[03568]|3[24689]|4[0258]|60|7[2457]|8[23568]|9[23579]))|3[68]4[2568]|3(?:47|60)[2478]|3[49]2[02469]|3[457]3[2468]"] None None None;
    Build_nfmt (Some (bs "(\d{5})(\d{4})(\d{3,4})")) (Some (bs "$1 $2 $3")) [bs "3(?:3(?:0[589]|2[03]|3[369]|4[357]|6[0357]|7[0346]|8[347]|9[236-8])|4(?:4[2469]|6[03579]|9[0257])|5(?:0[235]|2[046]|[49][357]|6[09]|7[2579]|8[2479])|6(?:2[05]|3[37]|6[02459]|7[03468]|8[47]|9[246])|7(?:2[09]|4[236]|60|75)|8(?:2[0239]|3[023579]|7[23589]|8[2457])|9(?:0[03568]|3[24689]|4[0258]|60|7[2457]|8[23568]|9[23579]))|3[68]4[2568]|3(?:47|60)[2478]|3[49]2[02469]|3[457]3[2468]"] None None None;
    Build_nfmt (Some (bs "(\d{5})(\d{3})(\d{3})(\d{3})")) (Some (bs "$1 $2 $3 $4")) [bs "3(?:3(?:0[589]|2[03]|3[369]|4[357]|6[0357]|7[0346]|8[347]|9[236-8])|4(?:4[2469]|6[03579]|9[0257])|5(?:0[235]|2[046]|[49][357]|6[09]|7[2579]|8[2479])|6(?:2[05]|3[37]|6[02459]|7[03468]|8[47]|9[246])|7(?:2[09]|4[236]|60|75)|8(?:2[0239]|3[023579]|7[23589]|8[2457])|9(?:0[03568]|3[24689]|4[0258]|60|7[2457]|8[23568]|9[23579]))|3[68]4[2568]|3(?:47|60)[2478]|3[49]2[02469]|3[457]3[2468]"] None None None;
    Build_nfmt (Some (bs "(\d{4})(\d{3})(\d{4})")) (Some (bs "$1 $2 $3")) [bs "15[1279]"] None None None;
    Build_nfmt (Some (bs "(\d{4})(\d{4})(\d{3})")) (Some (bs "$1 $2 $3")) [bs "15[1279]"] None None None;
    Build_nfmt (Some (bs "(\d{3})(\d{8})")) (Some (bs "$1 $2")) [bs "15[1279]"] None None None;
    Build_nfmt (Some (bs "(\d{3})(\d{3})(\d{3})(\d{2})")) (Some (bs "$1 $2 $3 $4")) [bs "15[1279]"] None None None;
    Build_nfmt (Some (bs "(\d{3})(\d{3})(\d{3})(\d)")) (Some (bs "$1 $2 $3 $4")) [bs "1[67]|800"] None None None;
    Build_nfmt (Some (bs "(\d{3})(\d{2,3})(\d{3})(\d{2})")) (Some (bs "$1 $2 $3 $4")) [bs "1[67]|800"] None None None;
    Build_nfmt (Some (bs "(\d{3})(\d{4})(\d{3})")) (Some (bs "$1 $2 $3")) [bs "800"] None None None;
    Build_nfmt (Some (bs "(\d{3})(\d{3})(\d{2})(\d{2,3})")) (Some (bs "$1 $2 $3 $4")) [bs "800"] None None None;
    Build_nfmt (Some (bs "(\d{3})(\d{6})(\d{2})(\d{1,4})")) (Some (bs "$1 $2 $3 $4")) [bs "800"] None None None;
    Build_nfmt (Some (bs "(\d{3})(\d)(\d{3})(\d{3,4})")) (Some (bs "$1 $2 $3 $4")) [bs "900"] None None None;
    Build_nfmt (Some (bs "(\d{3})(\d)(\d{4})(\d{3,4})")) (Some (bs "$1 $2 $3 $4")) [bs "900"] None None None;
    Build_nfmt (Some (bs "(\d{3})(\d)(\d{3})(\d{3})")) (Some (bs "$1 $2 $3 $4")) [bs "180"] None None None;
    Build_nfmt (Some (bs "(\d{4})(\d{4,6})")) (Some (bs "$1 $2")) [bs "180"] None None None;
    Build_nfmt (Some (bs "(\d{4})(\d{2})(\d{2})(\d{2})")) (Some (bs "$1 $2 $3 $4")) [bs "180"] None None None;
    Build_nfmt (Some (bs "(\d{4})(\d{4,10})")) (Some (bs "$1 $2")) [bs "900"] None None None]
  []
  None None None.

Definition alt_372 : meta := Eval vm_compute in Build_meta
  None
  None
  None
  None
  None
  None
  None
  None
  None
  None
  None
  None
  None
  None
  None
  None
  None
  (Some (bs "")) (Some (372)%Z) None None None
  None None None None
  [Build_nfmt (Some (bs "(\d)(\d{3})(\d{3})")) (Some (bs "$1 $2 $3")) [bs "6"] None None None;
    Build_nfmt (Some (bs "(\d{2})(\d{2})(\d{3})")) (Some (bs "$1 $2 $3")) [bs "[4-79]"] None None None;
    Build_nfmt (Some (bs "(\d{2})(\d{3})(\d{2})")) (Some (bs "$1 $2 $3")) [bs "[4-79]"] None None None]
  []
  None None None.

Definition alt_34 : meta := Eval vm_compute in Build_meta
  None
  None
  None
  None
  None
  None
  None
  None
  None
  None
  None
  None
  None
  None
  None
  None
  None
  (Some (bs "")) (Some (34)%Z) None None None
  None None None None
  [Build_nfmt (Some (bs "(\d{3})(\d{3})(\d{3})")) (Some (bs "$1 $2 $3")) [bs "[4-7]|80[367]|90[12589]|[89][1-8]"] None None None;
    Build_nfmt (Some (bs "(\d{2})(\d{3})(\d{2})(\d{2})")) (Some (bs "$1 $2 $3 $4")) [bs "9(?:0[12589]|[1-8])"] None None None]
  []
  None None None.

Definition alt_358 : meta := Eval vm_compute in Build_meta
  None
  None
  None
  None
  None
  None
  None
  None
  None
  None
  None
  None
  None
  None
  None
  None
  None
  (Some (bs "")) (Some (358)%Z) None None None
  None None None None
  [Build_nfmt (Some (bs "(\d)(\d{3})(\d{3,4})")) (Some (bs "$1 $2 $3")) [bs "[2568][1-8]|3(?:0[1-9]|[1-9])|9"] None None None;
    Build_nfmt (Some (bs "(\d{2})(\d{3})(\d{3,4})")) (Some (bs "$1 $2 $3")) [bs "[12]0[1-9]|4|1[3-9]|29|50|7[15]"] None None None;
    Build_nfmt (Some (bs "(\d)(\d{4})(\d{3})")) (Some (bs "$1 $2 $3")) [bs "[2568][1-8]|3(?:0[1-9]|[1-9])|9"] None None None]
  []
  None None None.

Definition alt_679 : meta := Eval vm_compute in Build_meta
  None
  None
  None
  None
  None
  None
  None
  None
  None
  None
  None
  None
  None
  None
  None
  None
  None
  (Some (bs "")) (Some (679)%Z) None None None
  None None None None
  [Build_nfmt (Some (bs "(\d{2})(\d{3})(\d{2})")) (Some (bs "$1 $2 $3")) [bs "7"] None None None]
  []
  None None None.

Definition alt_44 : meta := Eval vm_compute in Build_meta
  None
  None
  None
  None
  None
  None
  None
  None
  None
  None
  None
  None
  None
  None
  None
  None
  None
  (Some (bs "")) (Some (44)%Z) None None None
  None None None None
  [Build_nfmt (Some (bs "(\d{3})(\d{3})(\d{4})")) (Some (bs "$1 $2 $3")) [bs "20"] None None None;
    Build_nfmt (Some (bs "(\d{3})(\d{4})(\d{3})")) (Some (bs "$1 $2 $3")) [bs "1(?:1|[2-69]1)|20|[389]|7(?:[1-57-9]|624)"] None None None;
    Build_nfmt (Some (bs "(\d{2})(\d{4})(\d{2})(\d{2})")) (Some (bs "$1 $2 $3 $4")) [bs "20"] None None None;
    Build_nfmt (Some (bs "(\d{4})(\d{3})(\d{3})")) (Some (bs "$1 $2 $3")) [bs "1(?:[2-69][02-9]|[78])|3|7(?:[1-57-9]|624)"] None None None;
    Build_nfmt (Some (bs "(\d{3})(\d{3})(\d{3})")) (Some (bs "$1 $2 $3")) [bs "8"] None None None]
  []
  None None None.

Definition alt_995 : meta := Eval vm_compute in Build_meta
  None
  None
  None
  None
  None
  None
  None
  None
  None
  None
  None
  None
  None
  None
  None
  None
  None
  (Some (bs "")) (Some (995)%Z) None None None
  None None None None
  [Build_nfmt (Some (bs "(\d{3})(\d{2})(\d{2})(\d{2})")) (Some (bs "$1 $2 $3 $4")) [bs "32"] None None None;
    Build_nfmt (Some (bs "(\d{2})(\d)(\d{2})(\d{2})(\d{2})")) (Some (bs "$1 $2 $3 $4 $5")) [bs "32"] None None None;
    Build_nfmt (Some (bs "(\d{3})(\d{6})")) (Some (bs "$1 $2")) [bs "[348]"] None None None;
    Build_nfmt (Some (bs "(\d{3})(\d{3})(\d{3})")) (Some (bs "$1 $2 $3")) [bs "[348]"] None None None;
    Build_nfmt (Some (bs "(\d{2})(\d{2})(\d{3})(\d{2})")) (Some (bs "$1 $2 $3 $4")) [bs "32"] None None None;
    Build_nfmt (Some (bs "(\d{5})(\d{2})(\d{2})")) (Some (bs "$1 $2 $3")) [bs "32"] None None None]
  []
  None None None.

Definition alt_350 : meta := Eval vm_compute in Build_meta
  None
  None
  None
  None
  None
  None
  None
  None
  None
  None
  None
  None
  None
  None
  None
  None
  None
  (Some (bs "")) (Some (350)%Z) None None None
  None None None None
  [Build_nfmt (Some (bs "(\d{4})(\d{4})")) (Some (bs "$1 $2")) [bs "2"] None None None]
  []
  None None None.

Definition alt_30 : meta := Eval vm_compute in Build_meta
  None
  None
  None
  None
  None
  None
  None
  None
  None
  None
  None
  None
  None
  None
  None
  None
  None
  (Some (bs "")) (Some (30)%Z) None None None
  None None None None
  [Build_nfmt (Some (bs "(\d{3})(\d{3})(\d{4})")) (Some (bs "$1 $2 $3")) [bs "21"] None None None]
  []
  None None None.

Definition alt_385 : meta := Eval vm_compute in Build_meta
  None
  None
  None
  None
  None
  None
  None
  None
  None
  None
  None
  None
  None
  None
  None
  None
  None
  (Some (bs "")) (Some (385)%Z) None None None
  None None None None
  [Build_nfmt (Some (bs "(\d)(\d{3})(\d{4})")) (Some (bs "$1 $2 $3")) [bs "1"] None None None;
    Build_nfmt (Some (bs "(\d)(\d{3})(\d{2})(\d{2})")) (Some (bs "$1 $2 $3 $4")) [bs "1"] None None None;
    Build_nfmt (Some (bs "(\d{2})(\d{2})(\d{4})")) (Some (bs "$1 $2 $3")) [bs "[2-69]|7[67]"] None None None;
    Build_nfmt (Some (bs "(\d{2})(\d{3})(\d{4})")) (Some (bs "$1 $2 $3")) [bs "6"] None None None]
  []
  None None None.

Definition alt_36 : meta := Eval vm_compute in Build_meta
  None
  None
  None
  None
  None
  None
  None
  None
  None
  None
  None
  None
  None
  None
  None
  None
  None
  (Some (bs "")) (Some (36)%Z) None None None
  None None None None
  [Build_nfmt (Some (bs "(\d)(\d{4})(\d{3})")) (Some (bs "$1 $2 $3")) [bs "1"] None None None;
    Build_nfmt (Some (bs "(\d{2})(\d{4})(\d{3})")) (Some (bs "$1 $2 $3")) [] None None None]
  []
  None None None.

Definition alt_62 : meta := Eval vm_compute in Build_meta
  None
  None
  None
  None
  None
  None
  None
  None
  None
  None
  None
  None
  None
  None
  None
  None
  None
  (Some (bs "")) (Some (62)%Z) None None None
  None None None None
  [Build_nfmt (Some (bs "(\d{2})(\d{3,4})(\d{4})")) (Some (bs "$1 $2 $3")) [bs "2[124]|[36]1"] None None None;
    Build_nfmt (Some (bs "(\d{2})(\d{3})(\d{5})")) (Some (bs "$1 $2 $3")) [bs "2[124]|[36]1"] None None None;
    Build_nfmt (Some (bs "(\d{2})(\d{2})(\d{3})(\d{3})")) (Some (bs "$1 $2 $3 $4")) [bs "2[124]|[36]1"] None None None;
    Build_nfmt (Some (bs "(\d{3})(\d{3})(\d{4})")) (Some (bs "$1 $2 $3")) [bs "8[1-35-9]"] None None None;
    Build_nfmt (Some (bs "(\d{3})(\d{3})(\d{5,6})")) (Some (bs "$1 $2 $3")) [bs "8"] None None None;
    Build_nfmt (Some (bs "(\d{3})(\d{3})(\d{2})(\d{3})")) (Some (bs "$1 $2 $3 $4")) [bs "8"] None None None]
  []
  None None None.

Definition alt_972 : meta := Eval vm_compute in Build_meta
  None
  None
  None
  None
  None
  None
  None
  None
  None
  None
  None
  None
  None
  None
  None
  None
  None
  (Some (bs "")) (Some (972)%Z) None None None
  None None None None
  [Build_nfmt (Some (bs "(\d)(\d{3})(\d{2})(\d{2})")) (Some (bs "$1 $2 $3 $4")) [bs "[2-489]"] None None None]
  []
  None None None.

Definition alt_91 : meta := Eval vm_compute in Build_meta
  None
  None
  None
  None
  None
  None
  None
  None
  None
  None
  None
  None
  None
  None
  None
  None
  None
  (Some (bs "")) (Some (91)%Z) None None None
  None None None None
  [Build_nfmt (Some (bs "(\d{2})(\d{2})(\d{6})")) (Some (bs "$1 $2 $3")) [bs "160[01]|6(?:[09]|2(?:[02-7]|8[0-35-9])|5[02-689]|6[024-9]|7[0235-9]|8[124-9])|7(?:[0247]|3[025-9]|6(?:[02-9]|1[0-257-9])|8[0-79]|9(?:[089]|31))|8(?:0(?:[01589]|6[67])|1[0-57-9]|2[235-9]|3[03-57-9]|[45]|6[02457-9]|7[1-69]|8(?:[0-25-9]|4[0147-9])|9(?:[02-9]|1[0-27-9]))|9|[67]1[013-9]|(?:63|75)[02-46-9]|6(?:29|35)[0-46-9]|(?:64|(?:79|80)7)[02-9]|(?:6(?:[2-4]1|5[17]|6[13]|7[14]|80)|7(?:12|88))[0189]|(?:612|7(?:3[134]|5[15])|8(?:16|2[014]|3[126]|6[136]|7[078]|83))[017-9]"] None None None;
    Build_nfmt (Some (bs "(\d{2})(\d{2})(\d{2})(\d{2})(\d{2})")) (Some (bs "$1 $2 $3 $4 $5")) [bs "160[01]|6(?:[09]|2(?:[02-7]|8[0-35-9])|5[02-689]|6[024-9]|7[0235-9]|8[124-9])|7(?:[0247]|3[025-9]|6(?:[02-9]|1[0-257-9])|8[0-79]|9(?:[089]|31))|8(?:0(?:[01589]|6[67])|1[0-57-9]|2[235-9]|3[03-57-9]|[45]|6[02457-9]|7[1-69]|8(?:[0-25-9]|4[0147-9])|9(?:[02-9]|1[0-27-9]))|9|[67]1[013-9]|(?:63|75)[02-46-9]|6(?:29|35)[0-46-9]|(?:64|(?:79|80)7)[02-9]|(?:6(?:[2-4]1|5[17]|6[13]|7[14]|80)|7(?:12|88))[0189]|(?:612|7(?:3[134]|5[15])|8(?:16|2[014]|3[126]|6[136]|7[078]|83))[017-9]"] None None None;
    Build_nfmt (Some (bs "(\d{2})(\d{4})(\d{4})")) (Some (bs "$1 $2 $3")) [bs "79(?:[089]|31|7[02-9])|80(?:[01589]|6[67]|7[02-9])"] None None None;
    Build_nfmt (Some (bs "(\d{3})(\d{3})(\d{4})")) (Some (bs "$1 $2 $3")) [bs "7(?:1[013-9]|[247]|3[025-9]|5[02-46-9]|6(?:[02-9]|1[0-257-9])|8[0-79])|8(?:1[0-57-9]|2[235-9]|3[03-57-9]|[45]|6[02457-9]|7[1-69]|8(?:[0-25-9]|4[0147-9])|9(?:[02-9]|1[0-27-9]))|7(?:12|88)[0189]|(?:7(?:3[134]|5[15])|8(?:16|2[014]|3[126]|6[136]|7[078]|83))[017-9]"] None None None;
    Build_nfmt (Some (bs "(\d{4})(\d{3})(\d{3})")) (Some (bs "$1 $2 $3")) [bs "7(?:1(?:[013-9]|2[0189])|[247]|3[025-9]|5[02-46-9]|6(?:[02-9]|1[0-257-9]))|80(?:[01589]|6[67]|7[02-9])|7(?:3[134]|5[15])[017-9]"] None None None]
  []
  None None None.

Definition alt_39 : meta := Eval vm_compute in Build_meta
  None
  None
  None
  None
  None
  None
  None
  None
  None
  None
  None
  None
  None
  None
  None
  None
  None
  (Some (bs "")) (Some (39)%Z) None None None
  None None None None
  [Build_nfmt (Some (bs "(\d{4})(\d{2})(\d{2})(\d{2})")) (Some (bs "$1 $2 $3 $4")) [bs "0(?:[13-579][2-46-8]|8[236-8])"] None None None;
    Build_nfmt (Some (bs "(\d{4})(\d{2})(\d{3})")) (Some (bs "$1 $2 $3")) [bs "0(?:[13-579][2-46-8]|8[236-8])"] None None None]
  []
  None None None.

Definition alt_81 : meta := Eval vm_compute in Build_meta
  None
  None
  None
  None
  None
  None
  None
  None
  None
  None
  None
  None
  None
  None
  None
  None
  None
  (Some (bs "")) (Some (81)%Z) None None None
  None None None None
  [Build_nfmt (Some (bs "(\d{3})(\d{2})(\d{4})")) (Some (bs "$1 $2 $3")) [bs "(?:12|57|99)0"] None None None;
    Build_nfmt (Some (bs "(\d{3})(\d{2})(\d{2})(\d{2})")) (Some (bs "$1 $2 $3 $4")) [bs "(?:12|57|99)0"] None None None;
    Build_nfmt (Some (bs "(\d{3})(\d{4})(\d{2})")) (Some (bs "$1 $2 $3")) [bs "(?:12|57|99)0"] None None None]
  []
  None None None.

Definition alt_855 : meta := Eval vm_compute in Build_meta
  None
  None
  None
  None
  None
  None
  None
  None
  None
  None
  None
  None
  None
  None
  None
  None
  None
  (Some (bs "")) (Some (855)%Z) None None None
  None None None None
  [Build_nfmt (Some (bs "(\d{2})(\d{2})(\d{2})(\d{2,3})")) (Some (bs "$1 $2 $3 $4")) [] None None None]
  []
  None None None.

Definition alt_856 : meta := Eval vm_compute in Build_meta
  None
  None
  None
  None
  None
  None
  None
  None
  None
  None
  None
  None
  None
  None
  None
  None
  None
  (Some (bs "")) (Some (856)%Z) None None None
  None None None None
  [Build_nfmt (Some (bs "(\d{3})(\d{3})(\d{4})")) (Some (bs "$1 $2 $3")) [] None None None;
    Build_nfmt (Some (bs "(\d{2})(\d{4})(\d{4})")) (Some (bs "$1 $2 $3")) [] None None None;
    Build_nfmt (Some (bs "(\d{2})(\d{8})")) (Some (bs "$1 $2")) [] None None None]
  []
  None None None.

Definition alt_94 : meta := Eval vm_compute in Build_meta
  None
  None
  None
  None
  None
  None
  None
  None
  None
  None
  None
  None
  None
  None
  None
  None
  None
  (Some (bs "")) (Some (94)%Z) None None None
  None None None None
  [Build_nfmt (Some (bs "(\d{2})(\d)(\d{6})")) (Some (bs "$1 $2 $3")) [bs "[1-689]"] None None None;
    Build_nfmt (Some (bs "(\d{3})(\d{6})")) (Some (bs "$1 $2")) [bs "[1-689]"] None None None;
    Build_nfmt (Some (bs "(\d{3})(\d{3})(\d{3})")) (Some (bs "$1 $2 $3")) [bs "7"] None None None]
  []
  None None None.

Definition alt_352 : meta := Eval vm_compute in Build_meta
  None
  None
  None
  None
  None
  None
  None
  None
  None
  None
  None
  None
  None
  None
  None
  None
  None
  (Some (bs "")) (Some (352)%Z) None None None
  None None None None
  [Build_nfmt (Some (bs "(\d{2})(\d{3})(\d{3})")) (Some (bs "$1 $2 $3")) [bs "20"] None None None]
  []
  None None None.

Definition alt_373 : meta := Eval vm_compute in Build_meta
  None
  None
  None
  None
  None
  None
  None
  None
  None
  None
  None
  None
  None
  None
  None
  None
  None
  (Some (bs "")) (Some (373)%Z) None None None
  None None None None
  [Build_nfmt (Some (bs "(\d{2})(\d{2})(\d{2})(\d{2})")) (Some (bs "$1 $2 $3 $4")) [bs "22|[367]"] None None None;
    Build_nfmt (Some (bs "(\d{2})(\d{3})(\d{3})")) (Some (bs "$1 $2 $3")) [bs "[67]"] None None None]
  []
  None None None.

Definition alt_95 : meta := Eval vm_compute in Build_meta
  None
  None
  None
  None
  None
  None
  None
  None
  None
  None
  None
  None
  None
  None
  None
  None
  None
  (Some (bs "")) (Some (95)%Z) None None None
  None None None None
  [Build_nfmt (Some (bs "(\d)(\d{4})(\d{5})")) (Some (bs "$1 $2 $3")) [bs "92"] None None None]
  []
  None None None.

Definition alt_52 : meta := Eval vm_compute in Build_meta
  None
  None
  None
  None
  None
  None
  None
  None
  None
  None
  None
  None
  None
  None
  None
  None
  None
  (Some (bs "")) (Some (52)%Z) None None None
  None None None None
  [Build_nfmt (Some (bs "(\d{2})(\d{2})(\d{2})(\d{2})(\d{2})")) (Some (bs "$1 $2 $3 $4 $5")) [bs "33|5[56]|81"] None None None;
    Build_nfmt (Some (bs "(\d{3})(\d{3})(\d{2})(\d{2})")) (Some (bs "$1 $2 $3 $4")) [bs "[24679]|3[0-2457-9]|5[089]|8[02-46-9]"] None None None]
  []
  None None None.

Definition alt_505 : meta := Eval vm_compute in Build_meta
  None
  None
  None
  None
  None
  None
  None
  None
  None
  None
  None
  None
  None
  None
  None
  None
  None
  (Some (bs "")) (Some (505)%Z) None None None
  None None None None
  [Build_nfmt (Some (bs "(\d)(\d{3})(\d{4})")) (Some (bs "$1 $2 $3")) [bs "2"] None None None]
  []
  None None None.

Definition alt_31 : meta := Eval vm_compute in Build_meta
  None
  None
  None
  None
  None
  None
  None
  None
  None
  None
  None
  None
  None
  None
  None
  None
  None
  (Some (bs "")) (Some (31)%Z) None None None
  None None None None
  [Build_nfmt (Some (bs "(\d{2})(\d{4})(\d{3})")) (Some (bs "$1 $2 $3")) [bs "1[035]|2[0346]|3[03568]|4[0356]|5[0358]|7|8[4578]|91"] None None None;
    Build_nfmt (Some (bs "(\d{3})(\d{2})(\d{2})(\d{2})")) (Some (bs "$1 $2 $3 $4")) [bs "1[16-8]|2[259]|3[124]|4[17-9]|5[124679]"] None None None]
  []
  None None None.

Definition alt_64 : meta := Eval vm_compute in Build_meta
  None
  None
  None
  None
  None
  None
  None
  None
  None
  None
  None
  None
  None
  None
  None
  None
  None
  (Some (bs "")) (Some (64)%Z) None None None
  None None None None
  [Build_nfmt (Some (bs "(\d)(\d{4})(\d{3})")) (Some (bs "$1 $2 $3")) [bs "[3467]|9[2-9]"] None None None;
    Build_nfmt (Some (bs "(\d{3})(\d{3})(\d{2})")) (Some (bs "$1 $2 $3")) [bs "[89]0"] None None None]
  []
  None None None.

Definition alt_675 : meta := Eval vm_compute in Build_meta
  None
  None
  None
  None
  None
  None
  None
  None
  None
  None
  None
  None
  None
  None
  None
  None
  None
  (Some (bs "")) (Some (675)%Z) None None None
  None None None None
  [Build_nfmt (Some (bs "(\d{3})(\d{2})(\d{3})")) (Some (bs "$1 $2 $3")) [bs "7"] None None None]
  []
  None None None.

Definition alt_351 : meta := Eval vm_compute in Build_meta
  None
  None
  None
  None
  None
  None
  None
  None
  None
  None
  None
  None
  None
  None
  None
  None
  None
  (Some (bs "")) (Some (351)%Z) None None None
  None None None None
  [Build_nfmt (Some (bs "(\d{3})(\d{3})(\d{3})")) (Some (bs "$1 $2 $3")) [bs "2[12]"] None None None;
    Build_nfmt (Some (bs "(\d{2})(\d{3})(\d{2})(\d{2})")) (Some (bs "$1 $2 $3 $4")) [bs "2[12]|9"] None None None;
    Build_nfmt (Some (bs "(\d{2})(\d{3})(\d{4})")) (Some (bs "$1 $2 $3")) [bs "9"] None None None]
  []
  None None None.

Definition alt_595 : meta := Eval vm_compute in Build_meta
  None
  None
  None
  None
  None
  None
  None
  None
  None
  None
  None
  None
  None
  None
  None
  None
  None
  (Some (bs "")) (Some (595)%Z) None None None
  None None None None
  [Build_nfmt (Some (bs "(\d{2})(\d{2})(\d{3})")) (Some (bs "$1 $2 $3")) [bs "3[289]|4|61|7[1-3]|8[1-36]"] None None None;
    Build_nfmt (Some (bs "(\d{2})(\d{6,7})")) (Some (bs "$1 $2")) [bs "2[14-68]|3[26-9]|4[1246-8]|6(?:1|75)|7[1-35]|8[1-36]"] None None None;
    Build_nfmt (Some (bs "(\d{3})(\d{6})")) (Some (bs "$1 $2")) [bs "2[279]|3[13-5]|4[359]|5[1-5]|6(?:[34]|7[1-46-8])|7[46-8]|85"] None None None]
  []
  None None None.

Definition alt_381 : meta := Eval vm_compute in Build_meta
  None
  None
  None
  None
  None
  None
  None
  None
  None
  None
  None
  None
  None
  None
  None
  None
  None
  (Some (bs "")) (Some (381)%Z) None None None
  None None None None
  [Build_nfmt (Some (bs "(\d{2})(\d{3})(\d{3})")) (Some (bs "$1 $2 $3")) [bs "[16]|2[0-24-7]|3[0-8]|(?:2[389]|39)[2-9]"] None None None;
    Build_nfmt (Some (bs "(\d{2})(\d{2})(\d{2})(\d{3})")) (Some (bs "$1 $2 $3 $4")) [bs "1|2[0-24-7]|3[0-8]|(?:2[389]|39)[2-9]"] None None None;
    Build_nfmt (Some (bs "(\d{2})(\d{3})(\d{2})(\d{2})")) (Some (bs "$1 $2 $3 $4")) [bs "6"] None None None]
  []
  None None None.

Definition alt_7 : meta := Eval vm_compute in Build_meta
  None
  None
  None
  None
  None
  None
  None
  None
  None
  None
  None
  None
  None
  None
  None
  None
  None
  (Some (bs "")) (Some (7)%Z) None None None
  None None None None
  [Build_nfmt (Some (bs "(\d{4})(\d{3})(\d{3})")) (Some (bs "$1 $2 $3")) [bs "[3489]|7(?:1(?:[0-356]2|4[29]|7|8[27])|2(?:1[23]|[2-9]2))"] None None None;
    Build_nfmt (Some (bs "(\d{5})(\d{5})")) (Some (bs "$1 $2")) [bs "[3489]|72(?:6|7[457])|7(?:12|2[49])[35]|7(?:1[13-58]|2[1-38])[3-5]|7(?:1[06]|25)[3-6]"] None None None;
    Build_nfmt (Some (bs "(\d{3})(\d{3})(\d{2})(\d{2})")) (Some (bs "$1 $2 $3 $4")) [bs "7(?:1|2(?:[1-689]|7[2457]))"] None None None;
    Build_nfmt (Some (bs "(\d{3})(\d{2})(\d{2})(\d{3})")) (Some (bs "$1 $2 $3 $4")) [bs "[3489]|7(?:[04-9]|1(?:04|[236]3|4[3-5]|5[34])|2(?:13|34|7[39]))"] None None None;
    Build_nfmt (Some (bs "(\d{3})(\d)(\d{2})(\d{2})(\d{2})")) (Some (bs "$1 $2 $3 $4 $5")) [bs "[3489]|7(?:[04-9]|1(?:04|[236]3|4[3-5]|5[34])|2(?:13|34|7[39]))"] None None None;
    Build_nfmt (Some (bs "(\d{4})(\d{2})(\d{2})(\d{2})")) (Some (bs "$1 $2 $3 $4")) [bs "[3489]"] None None None]
  []
  None None None.

Definition alt_66 : meta := Eval vm_compute in Build_meta
  None
  None
  None
  None
  None
  None
  None
  None
  None
  None
  None
  None
  None
  None
  None
  None
  None
  (Some (bs "")) (Some (66)%Z) None None None
  None None None None
  [Build_nfmt (Some (bs "(\d{4})(\d{4})")) (Some (bs "$1 $2")) [bs "2"] None None None]
  []
  None None None.

Definition alt_676 : meta := Eval vm_compute in Build_meta
  None
  None
  None
  None
  None
  None
  None
  None
  None
  None
  None
  None
  None
  None
  None
  None
  None
  (Some (bs "")) (Some (676)%Z) None None None
  None None None None
  [Build_nfmt (Some (bs "(\d{2})(\d{5})")) (Some (bs "$1 $2")) [bs "[5-9]"] None None None]
  []
  None None None.

Definition alt_90 : meta := Eval vm_compute in Build_meta
  None
  None
  None
  None
  None
  None
  None
  None
  None
  None
  None
  None
  None
  None
  None
  None
  None
  (Some (bs "")) (Some (90)%Z) None None None
  None None None None
  [Build_nfmt (Some (bs "(\d{3})(\d{3})(\d{4})")) (Some (bs "$1 $2 $3")) [bs "[2-4]|5(?:[02-9]|1[06])"] None None None;
    Build_nfmt (Some (bs "(\d{3})(\d{3})(\d{2})(\d{2})")) (Some (bs "$1 $2 $3 $4")) [bs "512|[89]"] None None None]
  []
  None None None.

Definition alt_255 : meta := Eval vm_compute in Build_meta
  None
  None
  None
  None
  None
  None
  None
  None
  None
  None
  None
  None
  None
  None
  None
  None
  None
  (Some (bs "")) (Some (255)%Z) None None None
  None None None None
  [Build_nfmt (Some (bs "(\d{2})(\d{3})(\d{4})")) (Some (bs "$1 $2 $3")) [bs "[67]"] None None None;
    Build_nfmt (Some (bs "(\d{2})(\d{4})(\d{3})")) (Some (bs "$1 $2 $3")) [bs "[67]"] None None None]
  []
  None None None.

Definition alt_380 : meta := Eval vm_compute in Build_meta
  None
  None
  None
  None
  None
  None
  None
  None
  None
  None
  None
  None
  None
  None
  None
  None
  None
  (Some (bs "")) (Some (380)%Z) None None None
  None None None None
  [Build_nfmt (Some (bs "(\d{2})(\d{3})(\d{2})(\d{2})")) (Some (bs "$1 $2 $3 $4")) [bs "[38]9|4[45][0-5]|5(?:0|6(?:3[14-7]|7))|6(?:[12][018]|[36-8])|7|9[1-9]|(?:48|57)[0137-9]"] None None None;
    Build_nfmt (Some (bs "(\d{2})(\d{2})(\d{3})(\d{2})")) (Some (bs "$1 $2 $3 $4")) [bs "[38]9|4[45][0-5]|5(?:0|6(?:3[14-7]|7))|6(?:[12][018]|[36-8])|7|9[1-9]|(?:48|57)[0137-9]"] None None None]
  []
  None None None.

Definition alt_58 : meta := Eval vm_compute in Build_meta
  None
  None
  None
  None
  None
  None
  None
  None
  None
  None
  None
  None
  None
  None
  None
  None
  None
  (Some (bs "")) (Some (58)%Z) None None None
  None None None None
  [Build_nfmt (Some (bs "(\d{3})(\d{3})(\d{4})")) (Some (bs "$1 $2 $3")) [] None None None]
  []
  None None None.

Definition alt_84 : meta := Eval vm_compute in Build_meta
  None
  None
  None
  None
  None
  None
  None
  None
  None
  None
  None
  None
  None
  None
  None
  None
  None
  (Some (bs "")) (Some (84)%Z) None None None
  None None None None
  [Build_nfmt (Some (bs "(\d{3})(\d{3})(\d{3})")) (Some (bs "$1 $2 $3")) [bs "1[26]|6"] None None None;
    Build_nfmt (Some (bs "(\d{2})(\d{2})(\d{3})(\d{3})")) (Some (bs "$1 $2 $3 $4")) [bs "2[48]"] None None None;
    Build_nfmt (Some (bs "(\d{4})(\d{3})(\d{3})")) (Some (bs "$1 $2 $3")) [bs "1"] None None None]
  []
  None None None.

Definition alt_27 : meta := Eval vm_compute in Build_meta
  None
  None
  None
  None
  None
  None
  None
  None
  None
  None
  None
  None
  None
  None
  None
  None
  None
  (Some (bs "")) (Some (27)%Z) None None None
  None None None None
  [Build_nfmt (Some (bs "(\d{3})(\d{3})(\d{3})")) (Some (bs "$1 $2 $3")) [bs "86[1-9]"] None None None]
  []
  None None None.

(** The alternate-formats collection, in file order. *)
Definition alt_collection : list meta :=
  [alt_971;
   alt_54;
   alt_43;
   alt_61;
   alt_359;
   alt_55;
   alt_506;
   alt_49;
   alt_372;
   alt_34;
   alt_358;
   alt_679;
   alt_44;
   alt_995;
   alt_350;
   alt_30;
   alt_385;
   alt_36;
   alt_62;
   alt_972;
   alt_91;
   alt_39;
   alt_81;
   alt_855;
   alt_856;
   alt_94;
   alt_352;
   alt_373;
   alt_95;
   alt_52;
   alt_505;
   alt_31;
   alt_64;
   alt_675;
   alt_351;
   alt_595;
   alt_381;
   alt_7;
   alt_66;
   alt_676;
   alt_90;
   alt_255;
   alt_380;
   alt_58;
   alt_84;
   alt_27].
