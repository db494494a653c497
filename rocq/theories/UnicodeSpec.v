(** GENERATED by gen/unicode_spec.pl: the decimal value of every Unicode 15.0 code point of category Nd, one by one. *)
From Coq Require Import List NArith.
Import ListNotations.
Open Scope N_scope.

Definition decimal_values : list (N * N) := [
  (48,0); (49,1); (50,2); (51,3); (52,4); (53,5); (54,6); (55,7); (56,8); (57,9);
  (1632,0); (1633,1); (1634,2); (1635,3); (1636,4); (1637,5); (1638,6); (1639,7); (1640,8); (1641,9);
  (1776,0); (1777,1); (1778,2); (1779,3); (1780,4); (1781,5); (1782,6); (1783,7); (1784,8); (1785,9);
  (1984,0); (1985,1); (1986,2); (1987,3); (1988,4); (1989,5); (1990,6); (1991,7); (1992,8); (1993,9);
  (2406,0); (2407,1); (2408,2); (2409,3); (2410,4); (2411,5); (2412,6); (2413,7); (2414,8); (2415,9);
  (2534,0); (2535,1); (2536,2); (2537,3); (2538,4); (2539,5); (2540,6); (2541,7); (2542,8); (2543,9);
  (2662,0); (2663,1); (2664,2); (2665,3); (2666,4); (2667,5); (2668,6); (2669,7); (2670,8); (2671,9);
  (2790,0); (2791,1); (2792,2); (2793,3); (2794,4); (2795,5); (2796,6); (2797,7); (2798,8); (2799,9);
  (2918,0); (2919,1); (2920,2); (2921,3); (2922,4); (2923,5); (2924,6); (2925,7); (2926,8); (2927,9);
  (3046,0); (3047,1); (3048,2); (3049,3); (3050,4); (3051,5); (3052,6); (3053,7); (3054,8); (3055,9);
  (3174,0); (3175,1); (3176,2); (3177,3); (3178,4); (3179,5); (3180,6); (3181,7); (3182,8); (3183,9);
  (3302,0); (3303,1); (3304,2); (3305,3); (3306,4); (3307,5); (3308,6); (3309,7); (3310,8); (3311,9);
  (3430,0); (3431,1); (3432,2); (3433,3); (3434,4); (3435,5); (3436,6); (3437,7); (3438,8); (3439,9);
  (3558,0); (3559,1); (3560,2); (3561,3); (3562,4); (3563,5); (3564,6); (3565,7); (3566,8); (3567,9);
  (3664,0); (3665,1); (3666,2); (3667,3); (3668,4); (3669,5); (3670,6); (3671,7); (3672,8); (3673,9);
  (3792,0); (3793,1); (3794,2); (3795,3); (3796,4); (3797,5); (3798,6); (3799,7); (3800,8); (3801,9);
  (3872,0); (3873,1); (3874,2); (3875,3); (3876,4); (3877,5); (3878,6); (3879,7); (3880,8); (3881,9);
  (4160,0); (4161,1); (4162,2); (4163,3); (4164,4); (4165,5); (4166,6); (4167,7); (4168,8); (4169,9);
  (4240,0); (4241,1); (4242,2); (4243,3); (4244,4); (4245,5); (4246,6); (4247,7); (4248,8); (4249,9);
  (6112,0); (6113,1); (6114,2); (6115,3); (6116,4); (6117,5); (6118,6); (6119,7); (6120,8); (6121,9);
  (6160,0); (6161,1); (6162,2); (6163,3); (6164,4); (6165,5); (6166,6); (6167,7); (6168,8); (6169,9);
  (6470,0); (6471,1); (6472,2); (6473,3); (6474,4); (6475,5); (6476,6); (6477,7); (6478,8); (6479,9);
  (6608,0); (6609,1); (6610,2); (6611,3); (6612,4); (6613,5); (6614,6); (6615,7); (6616,8); (6617,9);
  (6784,0); (6785,1); (6786,2); (6787,3); (6788,4); (6789,5); (6790,6); (6791,7); (6792,8); (6793,9);
  (6800,0); (6801,1); (6802,2); (6803,3); (6804,4); (6805,5); (6806,6); (6807,7); (6808,8); (6809,9);
  (6992,0); (6993,1); (6994,2); (6995,3); (6996,4); (6997,5); (6998,6); (6999,7); (7000,8); (7001,9);
  (7088,0); (7089,1); (7090,2); (7091,3); (7092,4); (7093,5); (7094,6); (7095,7); (7096,8); (7097,9);
  (7232,0); (7233,1); (7234,2); (7235,3); (7236,4); (7237,5); (7238,6); (7239,7); (7240,8); (7241,9);
  (7248,0); (7249,1); (7250,2); (7251,3); (7252,4); (7253,5); (7254,6); (7255,7); (7256,8); (7257,9);
  (42528,0); (42529,1); (42530,2); (42531,3); (42532,4); (42533,5); (42534,6); (42535,7); (42536,8); (42537,9);
  (43216,0); (43217,1); (43218,2); (43219,3); (43220,4); (43221,5); (43222,6); (43223,7); (43224,8); (43225,9);
  (43264,0); (43265,1); (43266,2); (43267,3); (43268,4); (43269,5); (43270,6); (43271,7); (43272,8); (43273,9);
  (43472,0); (43473,1); (43474,2); (43475,3); (43476,4); (43477,5); (43478,6); (43479,7); (43480,8); (43481,9);
  (43504,0); (43505,1); (43506,2); (43507,3); (43508,4); (43509,5); (43510,6); (43511,7); (43512,8); (43513,9);
  (43600,0); (43601,1); (43602,2); (43603,3); (43604,4); (43605,5); (43606,6); (43607,7); (43608,8); (43609,9);
  (44016,0); (44017,1); (44018,2); (44019,3); (44020,4); (44021,5); (44022,6); (44023,7); (44024,8); (44025,9);
  (65296,0); (65297,1); (65298,2); (65299,3); (65300,4); (65301,5); (65302,6); (65303,7); (65304,8); (65305,9);
  (66720,0); (66721,1); (66722,2); (66723,3); (66724,4); (66725,5); (66726,6); (66727,7); (66728,8); (66729,9);
  (68912,0); (68913,1); (68914,2); (68915,3); (68916,4); (68917,5); (68918,6); (68919,7); (68920,8); (68921,9);
  (69734,0); (69735,1); (69736,2); (69737,3); (69738,4); (69739,5); (69740,6); (69741,7); (69742,8); (69743,9);
  (69872,0); (69873,1); (69874,2); (69875,3); (69876,4); (69877,5); (69878,6); (69879,7); (69880,8); (69881,9);
  (69942,0); (69943,1); (69944,2); (69945,3); (69946,4); (69947,5); (69948,6); (69949,7); (69950,8); (69951,9);
  (70096,0); (70097,1); (70098,2); (70099,3); (70100,4); (70101,5); (70102,6); (70103,7); (70104,8); (70105,9);
  (70384,0); (70385,1); (70386,2); (70387,3); (70388,4); (70389,5); (70390,6); (70391,7); (70392,8); (70393,9);
  (70736,0); (70737,1); (70738,2); (70739,3); (70740,4); (70741,5); (70742,6); (70743,7); (70744,8); (70745,9);
  (70864,0); (70865,1); (70866,2); (70867,3); (70868,4); (70869,5); (70870,6); (70871,7); (70872,8); (70873,9);
  (71248,0); (71249,1); (71250,2); (71251,3); (71252,4); (71253,5); (71254,6); (71255,7); (71256,8); (71257,9);
  (71360,0); (71361,1); (71362,2); (71363,3); (71364,4); (71365,5); (71366,6); (71367,7); (71368,8); (71369,9);
  (71472,0); (71473,1); (71474,2); (71475,3); (71476,4); (71477,5); (71478,6); (71479,7); (71480,8); (71481,9);
  (71904,0); (71905,1); (71906,2); (71907,3); (71908,4); (71909,5); (71910,6); (71911,7); (71912,8); (71913,9);
  (72016,0); (72017,1); (72018,2); (72019,3); (72020,4); (72021,5); (72022,6); (72023,7); (72024,8); (72025,9);
  (72784,0); (72785,1); (72786,2); (72787,3); (72788,4); (72789,5); (72790,6); (72791,7); (72792,8); (72793,9);
  (73040,0); (73041,1); (73042,2); (73043,3); (73044,4); (73045,5); (73046,6); (73047,7); (73048,8); (73049,9);
  (73120,0); (73121,1); (73122,2); (73123,3); (73124,4); (73125,5); (73126,6); (73127,7); (73128,8); (73129,9);
  (73552,0); (73553,1); (73554,2); (73555,3); (73556,4); (73557,5); (73558,6); (73559,7); (73560,8); (73561,9);
  (92768,0); (92769,1); (92770,2); (92771,3); (92772,4); (92773,5); (92774,6); (92775,7); (92776,8); (92777,9);
  (92864,0); (92865,1); (92866,2); (92867,3); (92868,4); (92869,5); (92870,6); (92871,7); (92872,8); (92873,9);
  (93008,0); (93009,1); (93010,2); (93011,3); (93012,4); (93013,5); (93014,6); (93015,7); (93016,8); (93017,9);
  (120782,0); (120783,1); (120784,2); (120785,3); (120786,4); (120787,5); (120788,6); (120789,7); (120790,8); (120791,9);
  (120792,0); (120793,1); (120794,2); (120795,3); (120796,4); (120797,5); (120798,6); (120799,7); (120800,8); (120801,9);
  (120802,0); (120803,1); (120804,2); (120805,3); (120806,4); (120807,5); (120808,6); (120809,7); (120810,8); (120811,9);
  (120812,0); (120813,1); (120814,2); (120815,3); (120816,4); (120817,5); (120818,6); (120819,7); (120820,8); (120821,9);
  (120822,0); (120823,1); (120824,2); (120825,3); (120826,4); (120827,5); (120828,6); (120829,7); (120830,8); (120831,9);
  (123200,0); (123201,1); (123202,2); (123203,3); (123204,4); (123205,5); (123206,6); (123207,7); (123208,8); (123209,9);
  (123632,0); (123633,1); (123634,2); (123635,3); (123636,4); (123637,5); (123638,6); (123639,7); (123640,8); (123641,9);
  (124144,0); (124145,1); (124146,2); (124147,3); (124148,4); (124149,5); (124150,6); (124151,7); (124152,8); (124153,9);
  (125264,0); (125265,1); (125266,2); (125267,3); (125268,4); (125269,5); (125270,6); (125271,7); (125272,8); (125273,9);
  (130032,0); (130033,1); (130034,2); (130035,3); (130036,4); (130037,5); (130038,6); (130039,7); (130040,8); (130041,9)
].
