(** Generated by gen/testxml.py from testdata/PhoneNumberMetadataForTesting.xml. Do not edit. *)
From Verif Require Import Base Types Builder Container.

Definition tx_0 : terr_e := Eval vm_compute in Build_terr_e (bs "AD") false (bs "") (376)%Z (bs "") (bs "00")
  (bs "") (bs "") false (bs "") (bs "")
  (bs "") false (bs "")
  []
  (Some (Build_desc_e (bs "\d{6}") None (bs "")))
  None
  (Some (Build_desc_e (bs "\d{6}") (Some (Build_length_e (bs "6") (bs ""))) (bs "123456")))
  None
  None
  None
  None
  None
  None
  None
  None
  None
  None
  None
  None
  None
  None
  .

Definition tx_1 : terr_e := Eval vm_compute in Build_terr_e (bs "AE") false (bs "") (971)%Z (bs "") (bs "00")
  (bs "") (bs "") false (bs "") (bs "")
  (bs "") false (bs "")
  []
  (Some (Build_desc_e (bs "[1-9]\d{8}") None (bs "")))
  None
  None
  None
  None
  None
  None
  None
  None
  None
  (Some (Build_desc_e (bs "600\d{6}") (Some (Build_length_e (bs "9") (bs ""))) (bs "600123456")))
  None
  None
  None
  None
  None
  None
  .

Definition tx_2 : terr_e := Eval vm_compute in Build_terr_e (bs "AM") false (bs "") (374)%Z (bs "0") (bs "00")
  (bs "") (bs "") false (bs "") (bs "")
  (bs "") false (bs "")
  []
  (Some (Build_desc_e (bs "[1-9]\d{7}") None (bs "")))
  None
  (Some (Build_desc_e (bs "[1-9]\d{7}") (Some (Build_length_e (bs "8") (bs "5,6"))) (bs "10123456")))
  (Some (Build_desc_e (bs "[1-9]\d{7}") (Some (Build_length_e (bs "8") (bs "5,6"))) (bs "10123456")))
  None
  None
  None
  None
  None
  None
  None
  None
  None
  None
  None
  None
  None
  .

Definition tx_3 : terr_e := Eval vm_compute in Build_terr_e (bs "AO") false (bs "") (244)%Z (bs "0~0") (bs "00")
  (bs "") (bs "") false (bs "") (bs "")
  (bs "") false (bs "")
  [Build_nfmt_e [] (bs "$1 $2 $3") [] (bs "") None (bs "") (bs "(\d{3})(\d{3})(\d{3})")]
  (Some (Build_desc_e (bs "[29]\d{8}") None (bs "")))
  None
  (Some (Build_desc_e (bs "2\d(?:[26-9]\d|\d[26-9])\d{5}") (Some (Build_length_e (bs "9") (bs ""))) (bs "222123456")))
  (Some (Build_desc_e (bs "9[1-3]\d{7}") (Some (Build_length_e (bs "9") (bs ""))) (bs "923123456")))
  None
  None
  None
  None
  None
  None
  None
  None
  None
  None
  None
  None
  None
  .

Definition tx_4 : terr_e := Eval vm_compute in Build_terr_e (bs "AR") false (bs "") (54)%Z (bs "0") (bs "00")
  (bs "") (bs "$NP$FG") false (bs "0(?:(11|343|3715)15)?") (bs "9$1")
  (bs "") false (bs "")
  [Build_nfmt_e [bs "11"] (bs "$1 $2-$3") [] (bs "") None (bs "") (bs "(\d{2})(\d{4})(\d{4})");
   Build_nfmt_e [bs "1[02-9]|[23]"] (bs "$1 $2-$3") [] (bs "") None (bs "") (bs "(\d{4})(\d{2})(\d{4})");
   Build_nfmt_e [bs "911"] (bs "$2 15 $3-$4") [bs "$1 $2 $3 $4"] (bs "") None (bs "") (bs "(\d)(\d{2})(\d{4})(\d{4})");
   Build_nfmt_e [bs "9(?:1[02-9]|[23])"] (bs "$2 $3-$4") [bs "$1 $2 $3 $4"] (bs "") None (bs "$NP$FG $CC") (bs "(\d)(\d{4})(\d{2})(\d{4})");
   Build_nfmt_e [bs "[68]"] (bs "$1-$2-$3") [] (bs "") None (bs "") (bs "(\d{3})(\d{3})(\d{4})")]
  (Some (Build_desc_e (bs "[1-3689]\d{9,10}") None (bs "")))
  None
  (Some (Build_desc_e (bs "[1-3]\d{5,9}") (Some (Build_length_e (bs "[6-10]") (bs ""))) (bs "1234567890")))
  (Some (Build_desc_e (bs "9\d{10}|[1-3]\d{9}") (Some (Build_length_e (bs "10,11") (bs ""))) (bs "9234567890")))
  None
  (Some (Build_desc_e (bs "80\d{8}") (Some (Build_length_e (bs "10") (bs ""))) (bs "8034567890")))
  (Some (Build_desc_e (bs "6(0\d|10)\d{7}") (Some (Build_length_e (bs "10") (bs ""))) (bs "6234567890")))
  None
  None
  None
  None
  None
  None
  None
  None
  None
  None
  .

Definition tx_5 : terr_e := Eval vm_compute in Build_terr_e (bs "AU") false (bs "") (61)%Z (bs "0") (bs "001[12]")
  (bs "0011") (bs "$NP$FG") false (bs "") (bs "")
  (bs "") false (bs "")
  [Build_nfmt_e [bs "1"] (bs "$1 $2 $3") [] (bs "$FG") None (bs "") (bs "(\d{4})(\d{3})(\d{3})");
   Build_nfmt_e [bs "[2-478]"] (bs "$1 $2 $3") [] (bs "") None (bs "") (bs "(\d)(\d{4})(\d{4})")]
  (Some (Build_desc_e (bs "[1-578]\d{4,14}") None (bs "")))
  None
  (Some (Build_desc_e (bs "[2378]\d{8}") (Some (Build_length_e (bs "9") (bs ""))) (bs "212345678")))
  (Some (Build_desc_e (bs "4\d{8}") (Some (Build_length_e (bs "9") (bs ""))) (bs "412345678")))
  None
  (Some (Build_desc_e (bs "1800\d{6}") (Some (Build_length_e (bs "10") (bs ""))) (bs "1800123456")))
  (Some (Build_desc_e (bs "190[0126]\d{6}") (Some (Build_length_e (bs "10") (bs ""))) (bs "1900123456")))
  None
  None
  None
  None
  None
  None
  None
  None
  None
  None
  .

Definition tx_6 : terr_e := Eval vm_compute in Build_terr_e (bs "BB") false (bs "") (1)%Z (bs "") (bs "011")
  (bs "") (bs "") false (bs "") (bs "")
  (bs "") false (bs "")
  []
  (Some (Build_desc_e (bs "246\d{7}") None (bs "")))
  None
  (Some (Build_desc_e (bs "") (Some (Build_length_e (bs "10") (bs "7"))) (bs "2464567890")))
  None
  None
  None
  None
  None
  None
  None
  None
  None
  None
  None
  None
  None
  None
  .

Definition tx_7 : terr_e := Eval vm_compute in Build_terr_e (bs "BR") false (bs "") (55)%Z (bs "") (bs "00")
  (bs "") (bs "") false (bs "") (bs "")
  (bs "") false (bs "")
  []
  (Some (Build_desc_e (bs "\d{8,10}") None (bs "")))
  None
  (Some (Build_desc_e (bs "\d{8,10}") (Some (Build_length_e (bs "10") (bs "8"))) (bs "12345678")))
  None
  None
  None
  None
  None
  None
  None
  None
  None
  None
  None
  None
  None
  None
  .

Definition tx_8 : terr_e := Eval vm_compute in Build_terr_e (bs "BS") false (bs "") (1)%Z (bs "1") (bs "011")
  (bs "") (bs "") false (bs "") (bs "")
  (bs "") false (bs "")
  []
  (Some (Build_desc_e (bs "(242|8(00|66|77|88)|900)\d{7}") None (bs "")))
  None
  (Some (Build_desc_e (bs "
          242(?:
            3(?:
              02|
              [236][1-9]|
              4[0-24-9]|
              5[0-68]|
              7[3-57]|
              9[2-5]
            )|
            4(?:
              2[237]|
              51|
              64|
              77
            )|
            502|
            636|
            702
          )\d{4}
        ") (Some (Build_length_e (bs "10") (bs "7"))) (bs "2425027890")))
  (Some (Build_desc_e (bs "242(357|359|457|557)\d{4}") (Some (Build_length_e (bs "10") (bs ""))) (bs "2423577890")))
  None
  (Some (Build_desc_e (bs "8(00|66|77|88)\d{7}") (Some (Build_length_e (bs "10") (bs ""))) (bs "8001234567")))
  (Some (Build_desc_e (bs "900\d{7}") (Some (Build_length_e (bs "10") (bs ""))) (bs "9001234567")))
  None
  None
  None
  None
  None
  None
  None
  None
  None
  None
  .

Definition tx_9 : terr_e := Eval vm_compute in Build_terr_e (bs "BY") false (bs "") (375)%Z (bs "8") (bs "810")
  (bs "") (bs "$NP $FG") false (bs "80?|99999") (bs "")
  (bs "") false (bs "")
  [Build_nfmt_e [bs "[1-8]"] (bs "$1") [] (bs "") None (bs "") (bs "(\d{4})");
   Build_nfmt_e [bs "[1-8]"] (bs "$1 $2") [] (bs "$NP$FG") None (bs "") (bs "(\d{2})(\d{3})");
   Build_nfmt_e [bs "[1-8]"] (bs "$1 $2") [] (bs "") None (bs "") (bs "(\d{3})(\d{3})")]
  (Some (Build_desc_e (bs "[1-9]\d{5}") None (bs "")))
  None
  (Some (Build_desc_e (bs "[1-9]\d{5}") (Some (Build_length_e (bs "6") (bs ""))) (bs "112345")))
  None
  None
  None
  None
  None
  None
  None
  None
  None
  None
  None
  None
  None
  None
  .

Definition tx_10 : terr_e := Eval vm_compute in Build_terr_e (bs "CA") false (bs "") (1)%Z (bs "") (bs "011")
  (bs "") (bs "") false (bs "") (bs "")
  (bs "") false (bs "")
  []
  (Some (Build_desc_e (bs "226\d{7}") None (bs "")))
  None
  (Some (Build_desc_e (bs "226\d{7}") (Some (Build_length_e (bs "10") (bs "7"))) (bs "2261234567")))
  None
  None
  None
  None
  None
  None
  None
  None
  None
  None
  None
  None
  None
  None
  .

Definition tx_11 : terr_e := Eval vm_compute in Build_terr_e (bs "CC") false (bs "") (61)%Z (bs "") (bs "00")
  (bs "") (bs "") false (bs "") (bs "")
  (bs "") false (bs "")
  []
  (Some (Build_desc_e (bs "\d{6,10}") None (bs "")))
  None
  (Some (Build_desc_e (bs "\d{6,10}") (Some (Build_length_e (bs "10") (bs "6"))) (bs "2261234567")))
  None
  None
  None
  None
  None
  None
  None
  None
  None
  None
  None
  None
  None
  None
  .

Definition tx_12 : terr_e := Eval vm_compute in Build_terr_e (bs "CN") false (bs "") (86)%Z (bs "0") (bs "00")
  (bs "") (bs "") false (bs "") (bs "")
  (bs "") false (bs "")
  [Build_nfmt_e [bs "[3-9]"; bs "[3-9]\d{2}[19]"; bs "
            [3-9]\d{2}(?:
              10|
              95
            )
          "] (bs "$1 $2") [] (bs "$NP$FG") None (bs "$CC $FG") (bs "(\d{3})(\d{5,6})");
   Build_nfmt_e [bs "1"] (bs "$1 $2") [] (bs "$FG") None (bs "") (bs "(\d{3})(\d{8})")]
  (Some (Build_desc_e (bs "
          [1-7]\d{6,11}|
          8[0-357-9]\d{6,9}|
          9\d{7,10}
        ") None (bs "")))
  None
  (Some (Build_desc_e (bs "[2-9]\d{10}") (Some (Build_length_e (bs "11") (bs ""))) (bs "91234567")))
  (Some (Build_desc_e (bs "
          1(?:
            [38]\d|
            4[57]|
            5[0-35-9]|
            7[0136-8]
          )\d{8}
        ") (Some (Build_length_e (bs "11") (bs ""))) (bs "13123456789")))
  None
  None
  None
  None
  None
  None
  None
  None
  None
  None
  None
  None
  None
  .

Definition tx_13 : terr_e := Eval vm_compute in Build_terr_e (bs "CO") false (bs "") (57)%Z (bs "0") (bs "")
  (bs "") (bs "") true (bs "0(4(?:[14]4|56)|[579])?") (bs "")
  (bs "") false (bs "")
  [Build_nfmt_e [bs "6"] (bs "$1 $2") [] (bs "($FG)") None (bs "$NP$CC $FG") (bs "(\d{3})(\d{7})");
   Build_nfmt_e [bs "3"] (bs "$1 $2") [] (bs "") None (bs "$NP$CC $FG") (bs "(\d{3})(\d{7})")]
  (Some (Build_desc_e (bs "
          (?:
            60|
            3\d
          )\d{8}
        ") None (bs "")))
  None
  (Some (Build_desc_e (bs "60\d{8}") (Some (Build_length_e (bs "10") (bs ""))) (bs "6012345678")))
  (Some (Build_desc_e (bs "
          3(?:
            0[0-5]|
            1\d|
            2[0-3]|
            5[01]|
            70
          )\d{7}
        ") (Some (Build_length_e (bs "10") (bs ""))) (bs "3211234567")))
  None
  None
  None
  None
  None
  None
  None
  None
  None
  None
  None
  None
  None
  .

Definition tx_14 : terr_e := Eval vm_compute in Build_terr_e (bs "CX") false (bs "") (61)%Z (bs "") (bs "00")
  (bs "") (bs "") false (bs "") (bs "")
  (bs "") false (bs "")
  []
  (Some (Build_desc_e (bs "\d{8,10}") None (bs "")))
  None
  (Some (Build_desc_e (bs "\d{8,10}") (Some (Build_length_e (bs "10") (bs "8"))) (bs "2261234567")))
  None
  None
  None
  None
  None
  None
  None
  None
  None
  None
  None
  None
  None
  None
  .

Definition tx_15 : terr_e := Eval vm_compute in Build_terr_e (bs "DE") false (bs "") (49)%Z (bs "0") (bs "00")
  (bs "") (bs "$NP$FG") false (bs "") (bs "")
  (bs "") false (bs "")
  [Build_nfmt_e [bs "2|3[3-9]|906|[4-9][1-9]1"] (bs "$1 $2") [] (bs "") None (bs "") (bs "(\d{3})(\d{3,8})");
   Build_nfmt_e [bs "[34]0|[68]9"] (bs "$1/$2") [] (bs "") None (bs "") (bs "(\d{2})(\d{4,11})");
   Build_nfmt_e [bs "[4-9]"; bs "[4-6]|[7-9](?:\d[1-9]|[1-9]\d)"] (bs "$1 $2") [] (bs "") None (bs "") (bs "(\d{2})(\d{2})");
   Build_nfmt_e [bs "[4-9]"; bs "[4-6]|[7-9](?:\d[1-9]|[1-9]\d)"] (bs "$1 $2") [] (bs "") None (bs "") (bs "(\d{4})(\d{2,7})");
   Build_nfmt_e [bs "800"] (bs "$1 $2 $3") [] (bs "") None (bs "") (bs "(\d{3})(\d{1})(\d{6})");
   Build_nfmt_e [bs "900"] (bs "$1 $2 $3") [] (bs "") None (bs "") (bs "(\d{3})(\d{3,4})(\d{4})")]
  (Some (Build_desc_e (bs "\d{4,14}") None (bs "")))
  None
  (Some (Build_desc_e (bs "
          (?:
            [24-6]\d{2}|
            3[03-9]\d|
            [789](?:
              0[2-9]|
              [1-9]\d
            )
          )\d{1,8}
        ") (Some (Build_length_e (bs "[4-11]") (bs "2,3"))) (bs "30123456")))
  (Some (Build_desc_e (bs "1(5\d{9}|7\d{8}|6[02]\d{8}|63\d{7})") (Some (Build_length_e (bs "10,11") (bs ""))) (bs "15123456789")))
  None
  (Some (Build_desc_e (bs "800\d{7}") (Some (Build_length_e (bs "10") (bs ""))) (bs "8001234567")))
  (Some (Build_desc_e (bs "900([135]\d{6}|9\d{7})") (Some (Build_length_e (bs "10,11") (bs ""))) (bs "9001234567")))
  None
  None
  None
  None
  None
  None
  None
  None
  None
  None
  .

Definition tx_16 : terr_e := Eval vm_compute in Build_terr_e (bs "FR") false (bs "") (33)%Z (bs "0") (bs "00")
  (bs "") (bs "$NP$FG") false (bs "") (bs "")
  (bs "") false (bs "")
  [Build_nfmt_e [bs "3"] (bs "$1 $2 $3 $4") [] (bs "") None (bs "") (bs "(\d)(\d{2})(\d{2})(\d{2})")]
  (Some (Build_desc_e (bs "3\d{6}") None (bs "")))
  None
  (Some (Build_desc_e (bs "3\d{6}") (Some (Build_length_e (bs "7") (bs ""))) (bs "3123456")))
  None
  None
  None
  None
  None
  None
  None
  None
  None
  None
  None
  None
  None
  None
  .

Definition tx_17 : terr_e := Eval vm_compute in Build_terr_e (bs "GB") false (bs "") (44)%Z (bs "0") (bs "00")
  (bs "") (bs "($NP$FG)") true (bs "") (bs "")
  (bs "") false (bs "")
  [Build_nfmt_e [bs "[1-59]|[78]0"] (bs "$1 $2 $3") [] (bs "") None (bs "") (bs "(\d{2})(\d{4})(\d{4})");
   Build_nfmt_e [bs "6"] (bs "$1 $2 $3 $4") [] (bs "") None (bs "") (bs "(\d)(\d{3})(\d{3})(\d{3})");
   Build_nfmt_e [bs "7[1-57-9]"] (bs "$1 $2 $3") [] (bs "") None (bs "") (bs "(\d{4})(\d{3})(\d{3})");
   Build_nfmt_e [bs "8[47]"] (bs "$1 $2 $3") [] (bs "") None (bs "") (bs "(\d{3})(\d{3})(\d{4})")]
  (Some (Build_desc_e (bs "\d{10}") None (bs "")))
  None
  (Some (Build_desc_e (bs "[1-6]\d{9}") (Some (Build_length_e (bs "9,10") (bs "6,7,8"))) (bs "3123456789")))
  (Some (Build_desc_e (bs "7[1-57-9]\d{8}") (Some (Build_length_e (bs "10") (bs ""))) (bs "7123456789")))
  (Some (Build_desc_e (bs "76\d{8}") (Some (Build_length_e (bs "10") (bs ""))) (bs "7623456789")))
  (Some (Build_desc_e (bs "80\d{8}") (Some (Build_length_e (bs "10") (bs ""))) (bs "8023456789")))
  (Some (Build_desc_e (bs "9[018]\d{8}") (Some (Build_length_e (bs "10") (bs ""))) (bs "9023456789")))
  (Some (Build_desc_e (bs "8(?:4[3-5]|7[0-2])\d{7}") (Some (Build_length_e (bs "10") (bs ""))) (bs "8433456789")))
  (Some (Build_desc_e (bs "70\d{8}") (Some (Build_length_e (bs "10") (bs ""))) (bs "7033456789")))
  (Some (Build_desc_e (bs "56\d{8}") (Some (Build_length_e (bs "10") (bs ""))) (bs "5633456789")))
  None
  None
  None
  None
  None
  None
  None
  .

Definition tx_18 : terr_e := Eval vm_compute in Build_terr_e (bs "GG") false (bs "") (44)%Z (bs "") (bs "00")
  (bs "") (bs "") false (bs "") (bs "")
  (bs "") false (bs "")
  []
  (Some (Build_desc_e (bs "\d{6,10}") None (bs "")))
  None
  (Some (Build_desc_e (bs "\d{6,10}") (Some (Build_length_e (bs "10") (bs "6"))) (bs "7033456789")))
  None
  None
  None
  None
  None
  None
  None
  None
  None
  None
  None
  None
  None
  None
  .

Definition tx_19 : terr_e := Eval vm_compute in Build_terr_e (bs "IT") false (bs "") (39)%Z (bs "") (bs "00")
  (bs "") (bs "") false (bs "") (bs "")
  (bs "") false (bs "")
  [Build_nfmt_e [bs "0[26]"] (bs "$1 $2 $3") [] (bs "") None (bs "") (bs "(\d{2})(\d{4})(\d{4})");
   Build_nfmt_e [bs "0[13-57-9]"] (bs "$1 $2 $3") [] (bs "") None (bs "") (bs "(\d{3})(\d{4})(\d{3,4})");
   Build_nfmt_e [bs "3"] (bs "$1 $2 $3") [] (bs "") None (bs "") (bs "(\d{3})(\d{3})(\d{3,4})");
   Build_nfmt_e [bs "8"] (bs "$1 $2") [] (bs "") None (bs "") (bs "(\d{3})(\d{3,6})")]
  (Some (Build_desc_e (bs "[0389]\d{5,10}") None (bs "")))
  None
  (Some (Build_desc_e (bs "0\d{9,10}") (Some (Build_length_e (bs "10,11") (bs ""))) (bs "0123456789")))
  (Some (Build_desc_e (bs "3\d{8,9}") (Some (Build_length_e (bs "9,10") (bs ""))) (bs "3123456789")))
  None
  (Some (Build_desc_e (bs "80(?:0\d{6}|3\d{3})") (Some (Build_length_e (bs "6,9") (bs ""))) (bs "800123456")))
  (Some (Build_desc_e (bs "89(?:2\d{3}|9\d{6})") (Some (Build_length_e (bs "6,9") (bs ""))) (bs "892123")))
  None
  None
  None
  None
  None
  None
  None
  None
  None
  None
  .

Definition tx_20 : terr_e := Eval vm_compute in Build_terr_e (bs "JP") false (bs "") (81)%Z (bs "0") (bs "010")
  (bs "") (bs "$NP$FG") false (bs "") (bs "")
  (bs "") false (bs "")
  [Build_nfmt_e [bs "[57-9]0"] (bs "$1 $2 $3") [] (bs "") None (bs "") (bs "(\d{2})(\d{4})(\d{4})");
   Build_nfmt_e [bs "[57-9]0"] (bs "$1 $2 $3 $4") [] (bs "") None (bs "") (bs "(\d{2})(\d{2})(\d{3})(\d{4})");
   Build_nfmt_e [bs "111|222|333"; bs "(?:111|222|333)1"; bs "(?:111|222|333)11"] (bs "$1 $2 $3") [] (bs "") None (bs "") (bs "(\d{2})(\d{3})(\d{4})");
   Build_nfmt_e [bs "222|333"; bs "2221|3332"; bs "22212|3332"; bs "222120|3332"] (bs "$1 $2 $3") [] (bs "") None (bs "") (bs "(\d{4})(\d)(\d{4})");
   Build_nfmt_e [bs "[23]"] (bs "$1 $2 $3") [] (bs "") None (bs "") (bs "(\d{3})(\d{2})(\d{4})");
   Build_nfmt_e [bs "077"] (bs "$1-$2") [] (bs "") None (bs "") (bs "(\d{3})(\d{4})");
   Build_nfmt_e [bs "[23]"] (bs "*$1") [] (bs "$FG") None (bs "") (bs "(\d{4})")]
  (Some (Build_desc_e (bs "07\d{5}|[1-357-9]\d{3,10}") None (bs "")))
  (Some (Build_desc_e (bs "[23]\d{3}") (Some (Build_length_e (bs "4") (bs ""))) (bs "2123")))
  (Some (Build_desc_e (bs "07\d{5}|[1-357-9]\d{3,10}") (Some (Build_length_e (bs "[4-11]") (bs ""))) (bs "0712345")))
  None
  None
  (Some (Build_desc_e (bs "0777[01]\d{2}") (Some (Build_length_e (bs "7") (bs ""))) (bs "0777012")))
  None
  None
  None
  None
  None
  None
  None
  None
  None
  None
  None
  .

Definition tx_21 : terr_e := Eval vm_compute in Build_terr_e (bs "KR") false (bs "") (82)%Z (bs "0") (bs "00(?:[124-68]|[37]\d{2})")
  (bs "") (bs "$NP$FG") false (bs "0(8[1-46-8]|85\d{2})?") (bs "")
  (bs "") false (bs "")
  [Build_nfmt_e [bs "1(?:0|1[19]|[69]9|5[458])|[57]0"; bs "1(?:0|1[19]|[69]9|5(?:44|59|8))|[57]0"] (bs "$1-$2-$3") [] (bs "") None (bs "") (bs "(\d{2})(\d{4})(\d{4})");
   Build_nfmt_e [bs "1(?:[169][2-8]|[78]|5[1-4])|[68]0|[3-6][1-9][2-9]"; bs "1(?:[169][2-8]|[78]|5(?:[1-3]|4[56]))|[68]0|[3-6][1-9][2-9]"] (bs "$1-$2-$3") [] (bs "") None (bs "") (bs "(\d{2})(\d{3})(\d{4})");
   Build_nfmt_e [bs "131"; bs "1312"] (bs "$1-$2-$3") [] (bs "") None (bs "") (bs "(\d{3})(\d)(\d{4})");
   Build_nfmt_e [bs "131"; bs "131[13-9]"] (bs "$1-$2-$3") [] (bs "") None (bs "") (bs "(\d{3})(\d{2})(\d{4})");
   Build_nfmt_e [bs "13[2-9]"] (bs "$1-$2-$3") [] (bs "") None (bs "") (bs "(\d{3})(\d{3})(\d{4})");
   Build_nfmt_e [bs "30"] (bs "$1-$2-$3-$4") [] (bs "") None (bs "") (bs "(\d{2})(\d{2})(\d{3})(\d{4})");
   Build_nfmt_e [bs "2(?:[26]|3[0-467])"; bs "2(?:[26]|3(?:01|1[45]|2[17-9]|39|4|6[67]|7[078]))"] (bs "$1-$2-$3") [] (bs "") None (bs "") (bs "(\d)(\d{4})(\d{4})");
   Build_nfmt_e [bs "2(?:3[0-35-9]|[457-9])"; bs "2(?:3(?:0[02-9]|1[0-36-9]|2[02-6]|3[0-8]|6[0-589]|7[1-69]|[589])|[457-9])"] (bs "$1-$2-$3") [] (bs "") None (bs "") (bs "(\d)(\d{3})(\d{4})");
   Build_nfmt_e [bs "21[0-46-9]"; bs "21(?:[0-247-9]|3[124]|6[1269])"] (bs "$1-$2") [] (bs "") None (bs "") (bs "(\d)(\d{3})");
   Build_nfmt_e [bs "21[36]"; bs "21(?:3[035-9]|6[03-578])"] (bs "$1-$2") [] (bs "") None (bs "") (bs "(\d)(\d{4})");
   Build_nfmt_e [bs "[3-6][1-9]1"; bs "[3-6][1-9]1(?:[0-46-9])"; bs "[3-6][1-9]1(?:[0-247-9]|3[124]|6[1269])"] (bs "$1-$2") [] (bs "") None (bs "") (bs "(\d{2})(\d{3})");
   Build_nfmt_e [bs "[3-6][1-9]1"; bs "[3-6][1-9]1[36]"; bs "[3-6][1-9]1(?:3[035-9]|6[03-578])"] (bs "$1-$2") [] (bs "") None (bs "") (bs "(\d{2})(\d{4})")]
  (Some (Build_desc_e (bs "[1-7]\d{3,9}|8\d{8}") None (bs "")))
  None
  (Some (Build_desc_e (bs "(?:2|[34][1-3]|5[1-5]|6[1-4])(?:1\d{2,3}|[2-9]\d{6,7})") (Some (Build_length_e (bs "[4-10]") (bs ""))) (bs "22123456")))
  (Some (Build_desc_e (bs "1[0-25-9]\d{7,8}") (Some (Build_length_e (bs "9,10") (bs ""))) (bs "1023456789")))
  None
  (Some (Build_desc_e (bs "80\d{7}") (Some (Build_length_e (bs "9") (bs ""))) (bs "801234567")))
  (Some (Build_desc_e (bs "60[2-9]\d{6}") (Some (Build_length_e (bs "9") (bs ""))) (bs "602345678")))
  None
  (Some (Build_desc_e (bs "50\d{8}") (Some (Build_length_e (bs "10") (bs ""))) (bs "5012345678")))
  (Some (Build_desc_e (bs "70\d{8}") (Some (Build_length_e (bs "10") (bs ""))) (bs "7012345678")))
  None
  None
  None
  None
  None
  None
  None
  .

Definition tx_22 : terr_e := Eval vm_compute in Build_terr_e (bs "MX") false (bs "") (52)%Z (bs "01") (bs "00")
  (bs "") (bs "$NP $FG") false (bs "01|04[45](\d{10})") (bs "1$1")
  (bs "") true (bs "")
  [Build_nfmt_e [bs "[89]00"] (bs "$1 $2 $3") [] (bs "") None (bs "") (bs "(\d{3})(\d{3})(\d{4})");
   Build_nfmt_e [bs "901"] (bs "$2 $3") [bs "$2 $3"] (bs "") None (bs "") (bs "(\d{3})(\d{2})(\d{5})");
   Build_nfmt_e [bs "33|55|81"] (bs "$1 $2 $3") [] (bs "") None (bs "") (bs "(\d{2})(\d{4})(\d{4})");
   Build_nfmt_e [bs "[2467]|3[0-24-9]|5[0-46-9]|8[2-9]|9[1-9]"] (bs "$1 $2 $3") [] (bs "") None (bs "") (bs "(\d{3})(\d{3})(\d{4})");
   Build_nfmt_e [bs "1(?:33|55|81)"] (bs "045 $2 $3 $4") [bs "$1 $2 $3 $4"] (bs "$FG") None (bs "") (bs "(\d)(\d{2})(\d{4})(\d{4})");
   Build_nfmt_e [bs "1(?:[124579]|3[0-24-9]|5[0-46-9]|8[02-9])"] (bs "045 $2 $3 $4") [bs "$1 $2 $3 $4"] (bs "$FG") None (bs "") (bs "(\d)(\d{3})(\d{3})(\d{4})")]
  (Some (Build_desc_e (bs "[1-9]\d{9,10}") None (bs "")))
  None
  (Some (Build_desc_e (bs "[2-9]\d{9}") (Some (Build_length_e (bs "10") (bs "7"))) (bs "2123456789")))
  (Some (Build_desc_e (bs "1\d{10}") (Some (Build_length_e (bs "11") (bs ""))) (bs "11234567890")))
  None
  (Some (Build_desc_e (bs "800\d{7}") (Some (Build_length_e (bs "10") (bs ""))) (bs "8001234567")))
  (Some (Build_desc_e (bs "900\d{7}") (Some (Build_length_e (bs "10") (bs ""))) (bs "9001234567")))
  None
  None
  None
  None
  None
  None
  None
  None
  None
  None
  .

Definition tx_23 : terr_e := Eval vm_compute in Build_terr_e (bs "NZ") false (bs "") (64)%Z (bs "0") (bs "00")
  (bs "") (bs "$NP$FG") false (bs "") (bs "")
  (bs "") false (bs "")
  [Build_nfmt_e [bs "24|[34679]"] (bs "$1-$2 $3") [] (bs "") None (bs "") (bs "(\d)(\d{3})(\d{4})");
   Build_nfmt_e [bs "2[179]"] (bs "$1-$2 $3") [] (bs "") None (bs "") (bs "(\d)(\d{3})(\d{3,5})");
   Build_nfmt_e [bs "[89]"] (bs "$1 $2 $3") [] (bs "") None (bs "") (bs "(\d{3})(\d{3})(\d{3,4})")]
  (Some (Build_desc_e (bs "
          [289]\d{7,9}|
          [3-7]\d{7}
        ") None (bs "")))
  None
  (Some (Build_desc_e (bs "24099\d{3}|(?:3[2-79]|[479][2-689]|6[235-9])\d{6}") (Some (Build_length_e (bs "7,8") (bs ""))) (bs "24099123")))
  (Some (Build_desc_e (bs "2(?:[027]\d{7}|9\d{6,7}|1(?:0\d{5,7}|[12]\d{5,6}|[3-9]\d{5})|4[1-9]\d{6}|8\d{7,8})") (Some (Build_length_e (bs "[8-10]") (bs ""))) (bs "201234567")))
  None
  (Some (Build_desc_e (bs "800\d{6,7}") (Some (Build_length_e (bs "9,10") (bs ""))) (bs "8001234567")))
  (Some (Build_desc_e (bs "900\d{6,7}") (Some (Build_length_e (bs "9,10") (bs ""))) (bs "9001234567")))
  None
  None
  None
  None
  None
  None
  None
  None
  None
  None
  .

Definition tx_24 : terr_e := Eval vm_compute in Build_terr_e (bs "PL") false (bs "") (48)%Z (bs "0") (bs "00")
  (bs "") (bs "$NP$FG") false (bs "") (bs "")
  (bs "") false (bs "")
  [Build_nfmt_e [] (bs "$1 $2 $3 $4") [] (bs "") None (bs "") (bs "(\d{2})(\d{3})(\d{2})(\d{2})")]
  (Some (Build_desc_e (bs "[1-9]\d{8}") None (bs "")))
  None
  None
  (Some (Build_desc_e (bs "(?:5[01]|6[069]|7[289]|88)\d{7}") (Some (Build_length_e (bs "9") (bs ""))) (bs "501234567")))
  None
  (Some (Build_desc_e (bs "800\d{6}") (Some (Build_length_e (bs "9") (bs ""))) (bs "800123456")))
  (Some (Build_desc_e (bs "70\d{7}") (Some (Build_length_e (bs "9") (bs ""))) (bs "701234567")))
  None
  None
  None
  None
  None
  None
  None
  None
  None
  None
  .

Definition tx_25 : terr_e := Eval vm_compute in Build_terr_e (bs "RE") false (bs "262|6(?:9[23]|47)|8") (262)%Z (bs "0") (bs "00")
  (bs "") (bs "$NP$FG") false (bs "") (bs "")
  (bs "") false (bs "")
  [Build_nfmt_e [] (bs "$1 $2 $3 $4") [] (bs "") None (bs "") (bs "(\d{3})(\d{2})(\d{2})(\d{2})")]
  (Some (Build_desc_e (bs "[268]\d{8}") None (bs "")))
  None
  (Some (Build_desc_e (bs "262\d{6}") (Some (Build_length_e (bs "9") (bs ""))) (bs "262161234")))
  (Some (Build_desc_e (bs "6(?:9[23]|47)\d{6}") (Some (Build_length_e (bs "9") (bs ""))) (bs "692123456")))
  None
  (Some (Build_desc_e (bs "80\d{7}") (Some (Build_length_e (bs "9") (bs ""))) (bs "801234567")))
  (Some (Build_desc_e (bs "8(?:1[01]|2[0156]|84|9[0-37-9])\d{6}") (Some (Build_length_e (bs "9") (bs ""))) (bs "810123456")))
  None
  None
  None
  None
  None
  None
  None
  None
  None
  None
  .

Definition tx_26 : terr_e := Eval vm_compute in Build_terr_e (bs "RU") false (bs "") (7)%Z (bs "8") (bs "810")
  (bs "") (bs "$NP ($FG)") false (bs "") (bs "")
  (bs "") true (bs "")
  []
  (Some (Build_desc_e (bs "[347-9]\d{9}") None (bs "")))
  None
  (Some (Build_desc_e (bs "[348]\d{9}") (Some (Build_length_e (bs "10") (bs ""))) (bs "3011234567")))
  (Some (Build_desc_e (bs "9\d{9}") (Some (Build_length_e (bs "10") (bs ""))) (bs "9123456789")))
  None
  None
  None
  None
  None
  None
  None
  None
  None
  None
  None
  None
  None
  .

Definition tx_27 : terr_e := Eval vm_compute in Build_terr_e (bs "SE") false (bs "") (46)%Z (bs "") (bs "00")
  (bs "") (bs "") false (bs "") (bs "")
  (bs "") false (bs "")
  []
  (Some (Build_desc_e (bs "\d{9}") None (bs "")))
  None
  (Some (Build_desc_e (bs "") (Some (Build_length_e (bs "9") (bs ""))) (bs "123456789")))
  None
  None
  None
  None
  None
  None
  None
  None
  None
  None
  None
  None
  None
  None
  .

Definition tx_28 : terr_e := Eval vm_compute in Build_terr_e (bs "SG") false (bs "") (65)%Z (bs "") (bs "0[0-3][0-9]")
  (bs "") (bs "") false (bs "777777") (bs "")
  (bs "") false (bs "")
  [Build_nfmt_e [bs "[369]|8[1-9]"] (bs "$1 $2") [] (bs "") None (bs "") (bs "(\d{4})(\d{4})");
   Build_nfmt_e [bs "1[89]"] (bs "$1 $2 $3") [] (bs "") None (bs "") (bs "(\d{4})(\d{3})(\d{4})");
   Build_nfmt_e [bs "800"] (bs "$1 $2 $3") [] (bs "") None (bs "") (bs "(\d{3})(\d{3})(\d{4})")]
  (Some (Build_desc_e (bs "[13689]\d{7,10}") None (bs "")))
  None
  (Some (Build_desc_e (bs "[36]\d{7}") (Some (Build_length_e (bs "8") (bs ""))) (bs "31234567")))
  (Some (Build_desc_e (bs "[89]\d{7}") (Some (Build_length_e (bs "8") (bs ""))) (bs "81234567")))
  None
  (Some (Build_desc_e (bs "1?800\d{7}") (Some (Build_length_e (bs "10,11") (bs ""))) (bs "8001234567")))
  (Some (Build_desc_e (bs "1900\d{7}") (Some (Build_length_e (bs "11") (bs ""))) (bs "19001234567")))
  None
  None
  None
  None
  None
  None
  None
  None
  None
  None
  .

Definition tx_29 : terr_e := Eval vm_compute in Build_terr_e (bs "TA") false (bs "") (290)%Z (bs "") (bs "00")
  (bs "") (bs "") false (bs "") (bs "")
  (bs "") false (bs "")
  []
  (Some (Build_desc_e (bs "8\d{3,7}") None (bs "")))
  None
  (Some (Build_desc_e (bs "8\d{5}") (Some (Build_length_e (bs "6") (bs ""))) (bs "812345")))
  (Some (Build_desc_e (bs "8\d{3}") (Some (Build_length_e (bs "4") (bs ""))) (bs "8123")))
  None
  (Some (Build_desc_e (bs "8\d{7}") (Some (Build_length_e (bs "8") (bs ""))) (bs "81234567")))
  None
  None
  None
  None
  None
  None
  None
  None
  None
  None
  None
  .

Definition tx_30 : terr_e := Eval vm_compute in Build_terr_e (bs "US") true (bs "") (1)%Z (bs "1") (bs "011")
  (bs "") (bs "") true (bs "") (bs "")
  (bs " extn. ") false (bs "")
  [Build_nfmt_e [] (bs "$1 $2") [bs "NA"] (bs "") None (bs "") (bs "(\d{3})(\d{4})");
   Build_nfmt_e [] (bs "$1 $2 $3") [] (bs "") (Some true) (bs "") (bs "(\d{3})(\d{3})(\d{4})")]
  (Some (Build_desc_e (bs "[13-689]\d{9}|2[0-35-9]\d{8}") None (bs "")))
  (Some (Build_desc_e (bs "800\d{7}") (Some (Build_length_e (bs "10") (bs ""))) (bs "8004567890")))
  (Some (Build_desc_e (bs "[13-689]\d{9}|2[0-35-9]\d{8}") (Some (Build_length_e (bs "10") (bs "7"))) (bs "1234567890")))
  (Some (Build_desc_e (bs "[13-689]\d{9}|2[0-35-9]\d{8}") (Some (Build_length_e (bs "10") (bs "7"))) (bs "1234567890")))
  None
  (Some (Build_desc_e (bs "8(?:00|66|77|88)\d{7}") (Some (Build_length_e (bs "10") (bs ""))) (bs "8004567890")))
  (Some (Build_desc_e (bs "900\d{7}") (Some (Build_length_e (bs "10") (bs ""))) (bs "9004567890")))
  None
  None
  None
  None
  None
  None
  None
  None
  None
  None
  .

Definition tx_31 : terr_e := Eval vm_compute in Build_terr_e (bs "UZ") false (bs "") (998)%Z (bs "8") (bs "810")
  (bs "8~10") (bs "$NP $FG") false (bs "") (bs "")
  (bs "") false (bs "")
  [Build_nfmt_e [bs "[679]"] (bs "$1 $2 $3 $4") [] (bs "") None (bs "") (bs "(\d{2})(\d{3})(\d{2})(\d{2})")]
  (Some (Build_desc_e (bs "[69]\d{8}") None (bs "")))
  None
  (Some (Build_desc_e (bs "6122\d{5}") (Some (Build_length_e (bs "9") (bs "7"))) (bs "662345678")))
  (Some (Build_desc_e (bs "9[0-57-9]\d{7}") (Some (Build_length_e (bs "9") (bs ""))) (bs "912345678")))
  None
  None
  None
  None
  None
  None
  None
  None
  None
  None
  None
  None
  None
  .

Definition tx_32 : terr_e := Eval vm_compute in Build_terr_e (bs "YT") false (bs "269|639") (262)%Z (bs "0") (bs "00")
  (bs "") (bs "$NP$FG") false (bs "") (bs "")
  (bs "") false (bs "")
  []
  (Some (Build_desc_e (bs "[268]\d{8}") None (bs "")))
  None
  (Some (Build_desc_e (bs "2696[0-4]\d{4}") (Some (Build_length_e (bs "9") (bs ""))) (bs "269601234")))
  (Some (Build_desc_e (bs "639\d{6}") (Some (Build_length_e (bs "9") (bs ""))) (bs "639123456")))
  None
  (Some (Build_desc_e (bs "80\d{7}") (Some (Build_length_e (bs "9") (bs ""))) (bs "801234567")))
  None
  None
  None
  None
  None
  None
  None
  None
  None
  None
  None
  .

Definition tx_33 : terr_e := Eval vm_compute in Build_terr_e (bs "001") false (bs "") (800)%Z (bs "") (bs "")
  (bs "") (bs "") false (bs "") (bs "")
  (bs "") false (bs "")
  [Build_nfmt_e [] (bs "$1 $2") [] (bs "") None (bs "") (bs "(\d{4})(\d{4})")]
  (Some (Build_desc_e (bs "\d{8}") None (bs "")))
  None
  None
  None
  None
  (Some (Build_desc_e (bs "\d{8}") (Some (Build_length_e (bs "8") (bs ""))) (bs "12345678")))
  None
  None
  None
  None
  None
  None
  None
  None
  None
  None
  None
  .

Definition tx_34 : terr_e := Eval vm_compute in Build_terr_e (bs "001") false (bs "") (882)%Z (bs "") (bs "")
  (bs "") (bs "") false (bs "") (bs "")
  (bs "") false (bs "")
  [Build_nfmt_e [] (bs "$1 $2 $3") [] (bs "") None (bs "") (bs "(\d)(\d{4})(\d{4})")]
  (Some (Build_desc_e (bs "\d{9}") None (bs "")))
  None
  None
  (Some (Build_desc_e (bs "\d{9}") (Some (Build_length_e (bs "9") (bs ""))) (bs "123456789")))
  None
  None
  None
  None
  None
  None
  None
  None
  None
  None
  None
  None
  None
  .

Definition tx_35 : terr_e := Eval vm_compute in Build_terr_e (bs "001") false (bs "") (979)%Z (bs "") (bs "")
  (bs "") (bs "") false (bs "") (bs "")
  (bs "") false (bs "")
  [Build_nfmt_e [] (bs "$1 $2 $3") [] (bs "") None (bs "") (bs "(\d)(\d{4})(\d{4})")]
  (Some (Build_desc_e (bs "\d{9}") None (bs "")))
  None
  None
  None
  None
  None
  (Some (Build_desc_e (bs "\d{9}") (Some (Build_length_e (bs "9") (bs ""))) (bs "123456789")))
  None
  None
  None
  None
  None
  None
  None
  None
  None
  None
  .

Definition test_doc : list terr_e := [tx_0; tx_1; tx_2; tx_3; tx_4; tx_5; tx_6; tx_7; tx_8; tx_9; tx_10; tx_11; tx_12; tx_13; tx_14; tx_15; tx_16; tx_17; tx_18; tx_19; tx_20; tx_21; tx_22; tx_23; tx_24; tx_25; tx_26; tx_27; tx_28; tx_29; tx_30; tx_31; tx_32; tx_33; tx_34; tx_35].

(** The synthetic metadata, compiled the way testmetadata_test.go:48-62 does: by the (modelled) builder. *)
Definition test_built : M (list meta) := Eval vm_compute in BuildPhoneMetadataCollection test_doc false.
Definition test_collection : list meta := Eval vm_compute in match test_built with Ret l => l | _ => [] end.
Definition test_made : M container := Eval vm_compute in NewContainer test_collection (BuildCountryCodeToRegionMap test_collection).
Definition test_container : container := Eval vm_compute in
  match test_made with Ret c => c | _ => Build_container [] [] [] [] [] [] [] end.
