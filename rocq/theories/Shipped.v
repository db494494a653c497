(** Generated by gen/metadata.py. Do not edit.
    The container the library builds at start-up from the embedded metadata (metadata/source.go:66-91, init and Load),
    and a proof that it is what the modelled NewContainer returns. *)
From Verif Require Import Base Types Consts Container MetadataData.

Definition shipped_regions : list bytes := Eval vm_compute in
  [bs "US"; bs "AG"; bs "AI"; bs "AS"; bs "BB"; bs "BM"; bs "BS"; bs "CA"; bs "DM"; bs "DO"; bs "GD"; bs "GU"; bs "JM"; bs "KN"; bs "KY"; bs "LC"; bs "MP"; bs "MS"; bs "PR"; bs "SX"; bs "TC"; bs "TT"; bs "VC"; bs "VG"; bs "VI"; bs "RU"; bs "KZ"; bs "EG"; bs "ZA"; bs "GR"; bs "NL"; bs "BE"; bs "FR"; bs "ES"; bs "HU"; bs "IT"; bs "VA"; bs "RO"; bs "CH"; bs "AT"; bs "GB"; bs "GG"; bs "IM"; bs "JE"; bs "DK"; bs "SE"; bs "NO"; bs "SJ"; bs "PL"; bs "DE"; bs "PE"; bs "MX"; bs "CU"; bs "AR"; bs "BR"; bs "CL"; bs "CO"; bs "VE"; bs "MY"; bs "AU"; bs "CC"; bs "CX"; bs "ID"; bs "PH"; bs "NZ"; bs "SG"; bs "TH"; bs "JP"; bs "KR"; bs "VN"; bs "CN"; bs "TR"; bs "IN"; bs "PK"; bs "AF"; bs "LK"; bs "MM"; bs "IR"; bs "SS"; bs "MA"; bs "EH"; bs "DZ"; bs "TN"; bs "LY"; bs "GM"; bs "SN"; bs "MR"; bs "ML"; bs "GN"; bs "CI"; bs "BF"; bs "NE"; bs "TG"; bs "BJ"; bs "MU"; bs "LR"; bs "SL"; bs "GH"; bs "NG"; bs "TD"; bs "CF"; bs "CM"; bs "CV"; bs "ST"; bs "GQ"; bs "GA"; bs "CG"; bs "CD"; bs "AO"; bs "GW"; bs "IO"; bs "AC"; bs "SC"; bs "SD"; bs "RW"; bs "ET"; bs "SO"; bs "DJ"; bs "KE"; bs "TZ"; bs "UG"; bs "BI"; bs "MZ"; bs "ZM"; bs "MG"; bs "RE"; bs "YT"; bs "ZW"; bs "NA"; bs "MW"; bs "LS"; bs "BW"; bs "SZ"; bs "KM"; bs "SH"; bs "TA"; bs "ER"; bs "AW"; bs "FO"; bs "GL"; bs "GI"; bs "PT"; bs "LU"; bs "IE"; bs "IS"; bs "AL"; bs "MT"; bs "CY"; bs "FI"; bs "AX"; bs "BG"; bs "LT"; bs "LV"; bs "EE"; bs "MD"; bs "AM"; bs "BY"; bs "AD"; bs "MC"; bs "SM"; bs "UA"; bs "RS"; bs "ME"; bs "XK"; bs "HR"; bs "SI"; bs "BA"; bs "MK"; bs "CZ"; bs "SK"; bs "LI"; bs "FK"; bs "BZ"; bs "GT"; bs "SV"; bs "HN"; bs "NI"; bs "CR"; bs "PA"; bs "PM"; bs "HT"; bs "GP"; bs "BL"; bs "MF"; bs "BO"; bs "GY"; bs "EC"; bs "GF"; bs "PY"; bs "MQ"; bs "SR"; bs "UY"; bs "CW"; bs "BQ"; bs "TL"; bs "NF"; bs "BN"; bs "NR"; bs "PG"; bs "TO"; bs "SB"; bs "VU"; bs "FJ"; bs "PW"; bs "WF"; bs "CK"; bs "NU"; bs "WS"; bs "KI"; bs "NC"; bs "TV"; bs "PF"; bs "TK"; bs "FM"; bs "MH"; bs "KP"; bs "HK"; bs "MO"; bs "KH"; bs "LA"; bs "BD"; bs "TW"; bs "MV"; bs "LB"; bs "JO"; bs "SY"; bs "IQ"; bs "KW"; bs "SA"; bs "YE"; bs "OM"; bs "PS"; bs "AE"; bs "IL"; bs "BH"; bs "QA"; bs "BT"; bs "MN"; bs "NP"; bs "TJ"; bs "TM"; bs "AZ"; bs "GE"; bs "KG"; bs "UZ"].

Definition shipped_region_map : list (bytes * meta) :=
  [(bs "AC", md_AC);
   (bs "AD", md_AD);
   (bs "AE", md_AE);
   (bs "AF", md_AF);
   (bs "AG", md_AG);
   (bs "AI", md_AI);
   (bs "AL", md_AL);
   (bs "AM", md_AM);
   (bs "AO", md_AO);
   (bs "AR", md_AR);
   (bs "AS", md_AS);
   (bs "AT", md_AT);
   (bs "AU", md_AU);
   (bs "AW", md_AW);
   (bs "AX", md_AX);
   (bs "AZ", md_AZ);
   (bs "BA", md_BA);
   (bs "BB", md_BB);
   (bs "BD", md_BD);
   (bs "BE", md_BE);
   (bs "BF", md_BF);
   (bs "BG", md_BG);
   (bs "BH", md_BH);
   (bs "BI", md_BI);
   (bs "BJ", md_BJ);
   (bs "BL", md_BL);
   (bs "BM", md_BM);
   (bs "BN", md_BN);
   (bs "BO", md_BO);
   (bs "BQ", md_BQ);
   (bs "BR", md_BR);
   (bs "BS", md_BS);
   (bs "BT", md_BT);
   (bs "BW", md_BW);
   (bs "BY", md_BY);
   (bs "BZ", md_BZ);
   (bs "CA", md_CA);
   (bs "CC", md_CC);
   (bs "CD", md_CD);
   (bs "CF", md_CF);
   (bs "CG", md_CG);
   (bs "CH", md_CH);
   (bs "CI", md_CI);
   (bs "CK", md_CK);
   (bs "CL", md_CL);
   (bs "CM", md_CM);
   (bs "CN", md_CN);
   (bs "CO", md_CO);
   (bs "CR", md_CR);
   (bs "CU", md_CU);
   (bs "CV", md_CV);
   (bs "CW", md_CW);
   (bs "CX", md_CX);
   (bs "CY", md_CY);
   (bs "CZ", md_CZ);
   (bs "DE", md_DE);
   (bs "DJ", md_DJ);
   (bs "DK", md_DK);
   (bs "DM", md_DM);
   (bs "DO", md_DO);
   (bs "DZ", md_DZ);
   (bs "EC", md_EC);
   (bs "EE", md_EE);
   (bs "EG", md_EG);
   (bs "EH", md_EH);
   (bs "ER", md_ER);
   (bs "ES", md_ES);
   (bs "ET", md_ET);
   (bs "FI", md_FI);
   (bs "FJ", md_FJ);
   (bs "FK", md_FK);
   (bs "FM", md_FM);
   (bs "FO", md_FO);
   (bs "FR", md_FR);
   (bs "GA", md_GA);
   (bs "GB", md_GB);
   (bs "GD", md_GD);
   (bs "GE", md_GE);
   (bs "GF", md_GF);
   (bs "GG", md_GG);
   (bs "GH", md_GH);
   (bs "GI", md_GI);
   (bs "GL", md_GL);
   (bs "GM", md_GM);
   (bs "GN", md_GN);
   (bs "GP", md_GP);
   (bs "GQ", md_GQ);
   (bs "GR", md_GR);
   (bs "GT", md_GT);
   (bs "GU", md_GU);
   (bs "GW", md_GW);
   (bs "GY", md_GY);
   (bs "HK", md_HK);
   (bs "HN", md_HN);
   (bs "HR", md_HR);
   (bs "HT", md_HT);
   (bs "HU", md_HU);
   (bs "ID", md_ID);
   (bs "IE", md_IE);
   (bs "IL", md_IL);
   (bs "IM", md_IM);
   (bs "IN", md_IN);
   (bs "IO", md_IO);
   (bs "IQ", md_IQ);
   (bs "IR", md_IR);
   (bs "IS", md_IS);
   (bs "IT", md_IT);
   (bs "JE", md_JE);
   (bs "JM", md_JM);
   (bs "JO", md_JO);
   (bs "JP", md_JP);
   (bs "KE", md_KE);
   (bs "KG", md_KG);
   (bs "KH", md_KH);
   (bs "KI", md_KI);
   (bs "KM", md_KM);
   (bs "KN", md_KN);
   (bs "KP", md_KP);
   (bs "KR", md_KR);
   (bs "KW", md_KW);
   (bs "KY", md_KY);
   (bs "KZ", md_KZ);
   (bs "LA", md_LA);
   (bs "LB", md_LB);
   (bs "LC", md_LC);
   (bs "LI", md_LI);
   (bs "LK", md_LK);
   (bs "LR", md_LR);
   (bs "LS", md_LS);
   (bs "LT", md_LT);
   (bs "LU", md_LU);
   (bs "LV", md_LV);
   (bs "LY", md_LY);
   (bs "MA", md_MA);
   (bs "MC", md_MC);
   (bs "MD", md_MD);
   (bs "ME", md_ME);
   (bs "MF", md_MF);
   (bs "MG", md_MG);
   (bs "MH", md_MH);
   (bs "MK", md_MK);
   (bs "ML", md_ML);
   (bs "MM", md_MM);
   (bs "MN", md_MN);
   (bs "MO", md_MO);
   (bs "MP", md_MP);
   (bs "MQ", md_MQ);
   (bs "MR", md_MR);
   (bs "MS", md_MS);
   (bs "MT", md_MT);
   (bs "MU", md_MU);
   (bs "MV", md_MV);
   (bs "MW", md_MW);
   (bs "MX", md_MX);
   (bs "MY", md_MY);
   (bs "MZ", md_MZ);
   (bs "NA", md_NA);
   (bs "NC", md_NC);
   (bs "NE", md_NE);
   (bs "NF", md_NF);
   (bs "NG", md_NG);
   (bs "NI", md_NI);
   (bs "NL", md_NL);
   (bs "NO", md_NO);
   (bs "NP", md_NP);
   (bs "NR", md_NR);
   (bs "NU", md_NU);
   (bs "NZ", md_NZ);
   (bs "OM", md_OM);
   (bs "PA", md_PA);
   (bs "PE", md_PE);
   (bs "PF", md_PF);
   (bs "PG", md_PG);
   (bs "PH", md_PH);
   (bs "PK", md_PK);
   (bs "PL", md_PL);
   (bs "PM", md_PM);
   (bs "PR", md_PR);
   (bs "PS", md_PS);
   (bs "PT", md_PT);
   (bs "PW", md_PW);
   (bs "PY", md_PY);
   (bs "QA", md_QA);
   (bs "RE", md_RE);
   (bs "RO", md_RO);
   (bs "RS", md_RS);
   (bs "RU", md_RU);
   (bs "RW", md_RW);
   (bs "SA", md_SA);
   (bs "SB", md_SB);
   (bs "SC", md_SC);
   (bs "SD", md_SD);
   (bs "SE", md_SE);
   (bs "SG", md_SG);
   (bs "SH", md_SH);
   (bs "SI", md_SI);
   (bs "SJ", md_SJ);
   (bs "SK", md_SK);
   (bs "SL", md_SL);
   (bs "SM", md_SM);
   (bs "SN", md_SN);
   (bs "SO", md_SO);
   (bs "SR", md_SR);
   (bs "SS", md_SS);
   (bs "ST", md_ST);
   (bs "SV", md_SV);
   (bs "SX", md_SX);
   (bs "SY", md_SY);
   (bs "SZ", md_SZ);
   (bs "TA", md_TA);
   (bs "TC", md_TC);
   (bs "TD", md_TD);
   (bs "TG", md_TG);
   (bs "TH", md_TH);
   (bs "TJ", md_TJ);
   (bs "TK", md_TK);
   (bs "TL", md_TL);
   (bs "TM", md_TM);
   (bs "TN", md_TN);
   (bs "TO", md_TO);
   (bs "TR", md_TR);
   (bs "TT", md_TT);
   (bs "TV", md_TV);
   (bs "TW", md_TW);
   (bs "TZ", md_TZ);
   (bs "UA", md_UA);
   (bs "UG", md_UG);
   (bs "US", md_US);
   (bs "UY", md_UY);
   (bs "UZ", md_UZ);
   (bs "VA", md_VA);
   (bs "VC", md_VC);
   (bs "VE", md_VE);
   (bs "VG", md_VG);
   (bs "VI", md_VI);
   (bs "VN", md_VN);
   (bs "VU", md_VU);
   (bs "WF", md_WF);
   (bs "WS", md_WS);
   (bs "XK", md_XK);
   (bs "YE", md_YE);
   (bs "YT", md_YT);
   (bs "ZA", md_ZA);
   (bs "ZM", md_ZM);
   (bs "ZW", md_ZW)].

Definition shipped_nongeo_map : list (Z * meta) :=
  [(800%Z, md_001_800);
   (808%Z, md_001_808);
   (870%Z, md_001_870);
   (878%Z, md_001_878);
   (881%Z, md_001_881);
   (882%Z, md_001_882);
   (883%Z, md_001_883);
   (888%Z, md_001_888);
   (979%Z, md_001_979)].

Definition shipped : container :=
  {| c_cc2region := shipped_cc2region;
     c_region := shipped_region_map;
     c_nongeo := shipped_nongeo_map;
     c_nanpa := [bs "US"; bs "AG"; bs "AI"; bs "AS"; bs "BB"; bs "BM"; bs "BS"; bs "CA"; bs "DM"; bs "DO"; bs "GD"; bs "GU"; bs "JM"; bs "KN"; bs "KY"; bs "LC"; bs "MP"; bs "MS"; bs "PR"; bs "SX"; bs "TC"; bs "TT"; bs "VC"; bs "VG"; bs "VI"];
     c_regions := shipped_regions;
     c_codes := map fst shipped_cc2region;
     c_nongeo_codes := [800%Z; 808%Z; 870%Z; 878%Z; 881%Z; 882%Z; 883%Z; 888%Z; 979%Z] |}.

Lemma shipped_is_NewContainer : NewContainer shipped_collection shipped_cc2region = Ret shipped.
Proof. vm_cast_no_check (eq_refl (Ret shipped)). Qed.
