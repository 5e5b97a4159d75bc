(* Generated by tools/gen_tables.py; do not edit. *)
From Coq Require Import NArith List.
Import ListNotations.
Local Open Scope N_scope.

(* encoding_tables/whatwg/index-big5.txt (pointer, code point), entries 0..255 *)
Definition big5_index_0 : list (N * N) := [
  (0x3AE,0x43F0); (0x3AF,0x4C32); (0x3B0,0x4603); (0x3B1,0x45A6); (0x3B2,0x4578); (0x3B3,0x27267); (0x3B4,0x4D77); (0x3B5,0x45B3);
  (0x3B6,0x27CB1); (0x3B7,0x4CE2); (0x3B8,0x27CC5); (0x3B9,0x3B95); (0x3BA,0x4736); (0x3BB,0x4744); (0x3BC,0x4C47); (0x3BD,0x4C40);
  (0x3BE,0x242BF); (0x3BF,0x23617); (0x3C0,0x27352); (0x3C1,0x26E8B); (0x3C2,0x270D2); (0x3C3,0x4C57); (0x3C4,0x2A351); (0x3C5,0x474F);
  (0x3C6,0x45DA); (0x3C7,0x4C85); (0x3C8,0x27C6C); (0x3C9,0x4D07); (0x3CA,0x4AA4); (0x3CB,0x46A1); (0x3CC,0x26B23); (0x3CD,0x7225);
  (0x3CE,0x25A54); (0x3CF,0x21A63); (0x3D0,0x23E06); (0x3D1,0x23F61); (0x3D2,0x664D); (0x3D3,0x56FB); (0x3D5,0x7D95); (0x3D6,0x591D);
  (0x3D7,0x28BB9); (0x3D8,0x3DF4); (0x3D9,0x9734); (0x3DA,0x27BEF); (0x3DB,0x5BDB); (0x3DC,0x21D5E); (0x3DD,0x5AA4); (0x3DE,0x3625);
  (0x3DF,0x29EB0); (0x3E0,0x5AD1); (0x3E1,0x5BB7); (0x3E2,0x5CFC); (0x3E3,0x676E); (0x3E4,0x8593); (0x3E5,0x29945); (0x3E6,0x7461);
  (0x3E7,0x749D); (0x3E8,0x3875); (0x3E9,0x21D53); (0x3EA,0x2369E); (0x3EB,0x26021); (0x3EC,0x3EEC); (0x3ED,0x258DE); (0x3EE,0x3AF5);
  (0x3EF,0x7AFC); (0x3F0,0x9F97); (0x3F1,0x24161); (0x3F2,0x2890D); (0x3F3,0x231EA); (0x3F4,0x20A8A); (0x3F5,0x2325E); (0x3F6,0x430A);
  (0x3F7,0x8484); (0x3F8,0x9F96); (0x3F9,0x942F); (0x3FA,0x4930); (0x3FB,0x8613); (0x3FC,0x5896); (0x3FD,0x974A); (0x3FE,0x9218);
  (0x3FF,0x79D0); (0x400,0x7A32); (0x401,0x6660); (0x402,0x6A29); (0x403,0x889D); (0x404,0x744C); (0x405,0x7BC5); (0x406,0x6782);
  (0x407,0x7A2C); (0x408,0x524F); (0x409,0x9046); (0x40A,0x34E6); (0x40B,0x73C4); (0x40C,0x25DB9); (0x40D,0x74C6); (0x40E,0x9FC7);
  (0x40F,0x57B3); (0x410,0x492F); (0x411,0x544C); (0x412,0x4131); (0x413,0x2368E); (0x414,0x5818); (0x415,0x7A72); (0x416,0x27B65);
  (0x417,0x8B8F); (0x418,0x46AE); (0x419,0x26E88); (0x41A,0x4181); (0x41B,0x25D99); (0x41C,0x7BAE); (0x41D,0x224BC); (0x41E,0x9FC8);
  (0x41F,0x224C1); (0x420,0x224C9); (0x421,0x224CC); (0x422,0x9FC9); (0x423,0x8504); (0x424,0x235BB); (0x425,0x40B4); (0x426,0x9FCA);
  (0x427,0x44E1); (0x428,0x2ADFF); (0x429,0x62C1); (0x42A,0x706E); (0x42B,0x9FCB); (0x44B,0x31C0); (0x44C,0x31C1); (0x44D,0x31C2);
  (0x44E,0x31C3); (0x44F,0x31C4); (0x450,0x2010C); (0x451,0x31C5); (0x452,0x200D1); (0x453,0x200CD); (0x454,0x31C6); (0x455,0x31C7);
  (0x456,0x200CB); (0x457,0x21FE8); (0x458,0x31C8); (0x459,0x200CA); (0x45A,0x31C9); (0x45B,0x31CA); (0x45C,0x31CB); (0x45D,0x31CC);
  (0x45E,0x2010E); (0x45F,0x31CD); (0x460,0x31CE); (0x461,0x100); (0x462,0xC1); (0x463,0x1CD); (0x464,0xC0); (0x465,0x112);
  (0x466,0xC9); (0x467,0x11A); (0x468,0xC8); (0x469,0x14C); (0x46A,0xD3); (0x46B,0x1D1); (0x46C,0xD2); (0x46E,0x1EBE);
  (0x470,0x1EC0); (0x471,0xCA); (0x472,0x101); (0x473,0xE1); (0x474,0x1CE); (0x475,0xE0); (0x476,0x251); (0x477,0x113);
  (0x478,0xE9); (0x479,0x11B); (0x47A,0xE8); (0x47B,0x12B); (0x47C,0xED); (0x47D,0x1D0); (0x47E,0xEC); (0x47F,0x14D);
  (0x480,0xF3); (0x481,0x1D2); (0x482,0xF2); (0x483,0x16B); (0x484,0xFA); (0x485,0x1D4); (0x486,0xF9); (0x487,0x1D6);
  (0x488,0x1D8); (0x489,0x1DA); (0x48A,0x1DC); (0x48B,0xFC); (0x48D,0x1EBF); (0x48F,0x1EC1); (0x490,0xEA); (0x491,0x261);
  (0x492,0x23DA); (0x493,0x23DB); (0x4E8,0x2A3A9); (0x4E9,0x21145); (0x4EB,0x650A); (0x4EE,0x4E3D); (0x4EF,0x6EDD); (0x4F0,0x9D4E);
  (0x4F1,0x91DF); (0x4F4,0x27735); (0x4F5,0x6491); (0x4F6,0x4F1A); (0x4F7,0x4F28); (0x4F8,0x4FA8); (0x4F9,0x5156); (0x4FA,0x5174);
  (0x4FB,0x519C); (0x4FC,0x51E4); (0x4FD,0x52A1); (0x4FE,0x52A8); (0x4FF,0x533B); (0x500,0x534E); (0x501,0x53D1); (0x502,0x53D8);
  (0x503,0x56E2); (0x504,0x58F0); (0x505,0x5904); (0x506,0x5907); (0x507,0x5932); (0x508,0x5934); (0x509,0x5B66); (0x50A,0x5B9E);
  (0x50B,0x5B9F); (0x50C,0x5C9A); (0x50D,0x5E86); (0x50E,0x603B); (0x50F,0x6589); (0x510,0x67FE); (0x511,0x6804); (0x512,0x6865);
  (0x513,0x6D4E); (0x514,0x70BC); (0x515,0x7535); (0x516,0x7EA4); (0x517,0x7EAC); (0x518,0x7EBA); (0x519,0x7EC7); (0x51A,0x7ECF);
  (0x51B,0x7EDF); (0x51C,0x7F06); (0x51D,0x7F37); (0x51E,0x827A); (0x51F,0x82CF); (0x520,0x836F); (0x521,0x89C6); (0x522,0x8BBE);
  (0x523,0x8BE2); (0x524,0x8F66); (0x525,0x8F67); (0x526,0x8F6E); (0x527,0x7411); (0x528,0x7CFC); (0x529,0x7DCD); (0x52A,0x6946)
].
(* encoding_tables/whatwg/index-big5.txt (pointer, code point), entries 256..511 *)
Definition big5_index_1 : list (N * N) := [
  (0x52B,0x7AC9); (0x52C,0x5227); (0x531,0x918C); (0x532,0x78B8); (0x533,0x915E); (0x534,0x80BC); (0x536,0x8D0B); (0x537,0x80F6);
  (0x538,0x209E7); (0x53B,0x809F); (0x53C,0x9EC7); (0x53D,0x4CCD); (0x53E,0x9DC9); (0x53F,0x9E0C); (0x540,0x4C3E); (0x541,0x29DF6);
  (0x542,0x2700E); (0x543,0x9E0A); (0x544,0x2A133); (0x545,0x35C1); (0x547,0x6E9A); (0x548,0x823E); (0x549,0x7519); (0x54B,0x4911);
  (0x54C,0x9A6C); (0x54D,0x9A8F); (0x54E,0x9F99); (0x54F,0x7987); (0x550,0x2846C); (0x551,0x21DCA); (0x552,0x205D0); (0x553,0x22AE6);
  (0x554,0x4E24); (0x555,0x4E81); (0x556,0x4E80); (0x557,0x4E87); (0x558,0x4EBF); (0x559,0x4EEB); (0x55A,0x4F37); (0x55B,0x344C);
  (0x55C,0x4FBD); (0x55D,0x3E48); (0x55E,0x5003); (0x55F,0x5088); (0x560,0x347D); (0x561,0x3493); (0x562,0x34A5); (0x563,0x5186);
  (0x564,0x5905); (0x565,0x51DB); (0x566,0x51FC); (0x567,0x5205); (0x568,0x4E89); (0x569,0x5279); (0x56A,0x5290); (0x56B,0x5327);
  (0x56C,0x35C7); (0x56D,0x53A9); (0x56E,0x3551); (0x56F,0x53B0); (0x570,0x3553); (0x571,0x53C2); (0x572,0x5423); (0x573,0x356D);
  (0x574,0x3572); (0x575,0x3681); (0x576,0x5493); (0x577,0x54A3); (0x578,0x54B4); (0x579,0x54B9); (0x57A,0x54D0); (0x57B,0x54EF);
  (0x57C,0x5518); (0x57D,0x5523); (0x57E,0x5528); (0x57F,0x3598); (0x580,0x553F); (0x581,0x35A5); (0x582,0x35BF); (0x583,0x55D7);
  (0x584,0x35C5); (0x585,0x27D84); (0x586,0x5525); (0x588,0x20C42); (0x589,0x20D15); (0x58A,0x2512B); (0x58B,0x5590); (0x58C,0x22CC6);
  (0x58D,0x39EC); (0x58E,0x20341); (0x58F,0x8E46); (0x590,0x24DB8); (0x591,0x294E5); (0x592,0x4053); (0x593,0x280BE); (0x594,0x777A);
  (0x595,0x22C38); (0x596,0x3A34); (0x597,0x47D5); (0x598,0x2815D); (0x599,0x269F2); (0x59A,0x24DEA); (0x59B,0x64DD); (0x59C,0x20D7C);
  (0x59D,0x20FB4); (0x59E,0x20CD5); (0x59F,0x210F4); (0x5A0,0x648D); (0x5A1,0x8E7E); (0x5A2,0x20E96); (0x5A3,0x20C0B); (0x5A4,0x20F64);
  (0x5A5,0x22CA9); (0x5A6,0x28256); (0x5A7,0x244D3); (0x5A9,0x20D46); (0x5AA,0x29A4D); (0x5AB,0x280E9); (0x5AC,0x47F4); (0x5AD,0x24EA7);
  (0x5AE,0x22CC2); (0x5AF,0x9AB2); (0x5B0,0x3A67); (0x5B1,0x295F4); (0x5B2,0x3FED); (0x5B3,0x3506); (0x5B4,0x252C7); (0x5B5,0x297D4);
  (0x5B6,0x278C8); (0x5B7,0x22D44); (0x5B8,0x9D6E); (0x5B9,0x9815); (0x5BB,0x43D9); (0x5BC,0x260A5); (0x5BD,0x64B4); (0x5BE,0x54E3);
  (0x5BF,0x22D4C); (0x5C0,0x22BCA); (0x5C1,0x21077); (0x5C2,0x39FB); (0x5C3,0x2106F); (0x5C4,0x266DA); (0x5C5,0x26716); (0x5C6,0x279A0);
  (0x5C7,0x64EA); (0x5C8,0x25052); (0x5C9,0x20C43); (0x5CA,0x8E68); (0x5CB,0x221A1); (0x5CC,0x28B4C); (0x5CD,0x20731); (0x5CF,0x480B);
  (0x5D0,0x201A9); (0x5D1,0x3FFA); (0x5D2,0x5873); (0x5D3,0x22D8D); (0x5D5,0x245C8); (0x5D6,0x204FC); (0x5D7,0x26097); (0x5D8,0x20F4C);
  (0x5D9,0x20D96); (0x5DA,0x5579); (0x5DB,0x40BB); (0x5DC,0x43BA); (0x5DE,0x4AB4); (0x5DF,0x22A66); (0x5E0,0x2109D); (0x5E1,0x81AA);
  (0x5E2,0x98F5); (0x5E3,0x20D9C); (0x5E4,0x6379); (0x5E5,0x39FE); (0x5E6,0x22775); (0x5E7,0x8DC0); (0x5E8,0x56A1); (0x5E9,0x647C);
  (0x5EA,0x3E43); (0x5EC,0x2A601); (0x5ED,0x20E09); (0x5EE,0x22ACF); (0x5EF,0x22CC9); (0x5F1,0x210C8); (0x5F2,0x239C2); (0x5F3,0x3992);
  (0x5F4,0x3A06); (0x5F5,0x2829B); (0x5F6,0x3578); (0x5F7,0x25E49); (0x5F8,0x220C7); (0x5F9,0x5652); (0x5FA,0x20F31); (0x5FB,0x22CB2);
  (0x5FC,0x29720); (0x5FD,0x34BC); (0x5FE,0x6C3D); (0x5FF,0x24E3B); (0x602,0x27574); (0x603,0x22E8B); (0x604,0x22208); (0x605,0x2A65B);
  (0x606,0x28CCD); (0x607,0x20E7A); (0x608,0x20C34); (0x609,0x2681C); (0x60A,0x7F93); (0x60B,0x210CF); (0x60C,0x22803); (0x60D,0x22939);
  (0x60E,0x35FB); (0x60F,0x251E3); (0x610,0x20E8C); (0x611,0x20F8D); (0x612,0x20EAA); (0x613,0x3F93); (0x614,0x20F30); (0x615,0x20D47);
  (0x616,0x2114F); (0x617,0x20E4C); (0x619,0x20EAB); (0x61A,0x20BA9); (0x61B,0x20D48); (0x61C,0x210C0); (0x61D,0x2113D); (0x61E,0x3FF9);
  (0x61F,0x22696); (0x620,0x6432); (0x621,0x20FAD); (0x622,0x233F4); (0x623,0x27639); (0x624,0x22BCE); (0x625,0x20D7E); (0x626,0x20D7F);
  (0x627,0x22C51); (0x628,0x22C55); (0x629,0x3A18); (0x62A,0x20E98); (0x62B,0x210C7); (0x62C,0x20F2E); (0x62D,0x2A632); (0x62E,0x26B50);
  (0x62F,0x28CD2); (0x630,0x28D99); (0x631,0x28CCA); (0x632,0x95AA); (0x633,0x54CC); (0x634,0x82C4); (0x635,0x55B9); (0x637,0x29EC3);
  (0x638,0x9C26); (0x639,0x9AB6); (0x63A,0x2775E); (0x63B,0x22DEE); (0x63C,0x7140); (0x63D,0x816D); (0x63E,0x80EC); (0x63F,0x5C1C)
].
(* encoding_tables/whatwg/index-big5.txt (pointer, code point), entries 512..767 *)
Definition big5_index_2 : list (N * N) := [
  (0x640,0x26572); (0x641,0x8134); (0x642,0x3797); (0x643,0x535F); (0x644,0x280BD); (0x645,0x91B6); (0x646,0x20EFA); (0x647,0x20E0F);
  (0x648,0x20E77); (0x649,0x20EFB); (0x64A,0x35DD); (0x64B,0x24DEB); (0x64C,0x3609); (0x64D,0x20CD6); (0x64E,0x56AF); (0x64F,0x227B5);
  (0x650,0x210C9); (0x651,0x20E10); (0x652,0x20E78); (0x653,0x21078); (0x654,0x21148); (0x655,0x28207); (0x656,0x21455); (0x657,0x20E79);
  (0x658,0x24E50); (0x659,0x22DA4); (0x65A,0x5A54); (0x65B,0x2101D); (0x65C,0x2101E); (0x65D,0x210F5); (0x65E,0x210F6); (0x65F,0x579C);
  (0x660,0x20E11); (0x661,0x27694); (0x662,0x282CD); (0x663,0x20FB5); (0x664,0x20E7B); (0x665,0x2517E); (0x666,0x3703); (0x667,0x20FB6);
  (0x668,0x21180); (0x669,0x252D8); (0x66A,0x2A2BD); (0x66B,0x249DA); (0x66C,0x2183A); (0x66D,0x24177); (0x66E,0x2827C); (0x66F,0x5899);
  (0x670,0x5268); (0x671,0x361A); (0x672,0x2573D); (0x673,0x7BB2); (0x674,0x5B68); (0x675,0x4800); (0x676,0x4B2C); (0x677,0x9F27);
  (0x678,0x49E7); (0x679,0x9C1F); (0x67A,0x9B8D); (0x67B,0x25B74); (0x67C,0x2313D); (0x67D,0x55FB); (0x67E,0x35F2); (0x67F,0x5689);
  (0x680,0x4E28); (0x681,0x5902); (0x682,0x21BC1); (0x683,0x2F878); (0x684,0x9751); (0x685,0x20086); (0x686,0x4E5B); (0x687,0x4EBB);
  (0x688,0x353E); (0x689,0x5C23); (0x68A,0x5F51); (0x68B,0x5FC4); (0x68C,0x38FA); (0x68D,0x624C); (0x68E,0x6535); (0x68F,0x6B7A);
  (0x690,0x6C35); (0x691,0x6C3A); (0x692,0x706C); (0x693,0x722B); (0x694,0x4E2C); (0x695,0x72AD); (0x696,0x248E9); (0x697,0x7F52);
  (0x698,0x793B); (0x699,0x7CF9); (0x69A,0x7F53); (0x69B,0x2626A); (0x69C,0x34C1); (0x69E,0x2634B); (0x69F,0x8002); (0x6A0,0x8080);
  (0x6A1,0x26612); (0x6A2,0x26951); (0x6A3,0x535D); (0x6A4,0x8864); (0x6A5,0x89C1); (0x6A6,0x278B2); (0x6A7,0x8BA0); (0x6A8,0x8D1D);
  (0x6A9,0x9485); (0x6AA,0x9578); (0x6AB,0x957F); (0x6AC,0x95E8); (0x6AD,0x28E0F); (0x6AE,0x97E6); (0x6AF,0x9875); (0x6B0,0x98CE);
  (0x6B1,0x98DE); (0x6B2,0x9963); (0x6B3,0x29810); (0x6B4,0x9C7C); (0x6B5,0x9E1F); (0x6B6,0x9EC4); (0x6B7,0x6B6F); (0x6B8,0xF907);
  (0x6B9,0x4E37); (0x6BA,0x20087); (0x6BB,0x961D); (0x6BC,0x6237); (0x6BD,0x94A2); (0x6BF,0x503B); (0x6C0,0x6DFE); (0x6C1,0x29C73);
  (0x6C2,0x9FA6); (0x6C3,0x3DC9); (0x6C4,0x888F); (0x6C5,0x2414E); (0x6C6,0x7077); (0x6C7,0x5CF5); (0x6C8,0x4B20); (0x6C9,0x251CD);
  (0x6CA,0x3559); (0x6CB,0x25D30); (0x6CC,0x6122); (0x6CD,0x28A32); (0x6CE,0x8FA7); (0x6CF,0x91F6); (0x6D0,0x7191); (0x6D1,0x6719);
  (0x6D2,0x73BA); (0x6D3,0x23281); (0x6D4,0x2A107); (0x6D5,0x3C8B); (0x6D6,0x21980); (0x6D7,0x4B10); (0x6D8,0x78E4); (0x6D9,0x7402);
  (0x6DA,0x51AE); (0x6DB,0x2870F); (0x6DC,0x4009); (0x6DD,0x6A63); (0x6DE,0x2A2BA); (0x6DF,0x4223); (0x6E0,0x860F); (0x6E1,0x20A6F);
  (0x6E2,0x7A2A); (0x6E3,0x29947); (0x6E4,0x28AEA); (0x6E5,0x9755); (0x6E6,0x704D); (0x6E7,0x5324); (0x6E8,0x2207E); (0x6E9,0x93F4);
  (0x6EA,0x76D9); (0x6EB,0x289E3); (0x6EC,0x9FA7); (0x6ED,0x77DD); (0x6EE,0x4EA3); (0x6EF,0x4FF0); (0x6F0,0x50BC); (0x6F1,0x4E2F);
  (0x6F2,0x4F17); (0x6F3,0x9FA8); (0x6F4,0x5434); (0x6F5,0x7D8B); (0x6F6,0x5892); (0x6F7,0x58D0); (0x6F8,0x21DB6); (0x6F9,0x5E92);
  (0x6FA,0x5E99); (0x6FB,0x5FC2); (0x6FC,0x22712); (0x6FD,0x658B); (0x6FE,0x233F9); (0x6FF,0x6919); (0x700,0x6A43); (0x701,0x23C63);
  (0x702,0x6CFF); (0x704,0x7200); (0x705,0x24505); (0x706,0x738C); (0x707,0x3EDB); (0x708,0x24A13); (0x709,0x5B15); (0x70A,0x74B9);
  (0x70B,0x8B83); (0x70C,0x25CA4); (0x70D,0x25695); (0x70E,0x7A93); (0x70F,0x7BEC); (0x710,0x7CC3); (0x711,0x7E6C); (0x712,0x82F8);
  (0x713,0x8597); (0x714,0x9FA9); (0x715,0x8890); (0x716,0x9FAA); (0x717,0x8EB9); (0x718,0x9FAB); (0x719,0x8FCF); (0x71A,0x855F);
  (0x71B,0x99E0); (0x71C,0x9221); (0x71D,0x9FAC); (0x71E,0x28DB9); (0x71F,0x2143F); (0x720,0x4071); (0x721,0x42A2); (0x722,0x5A1A);
  (0x726,0x9868); (0x727,0x676B); (0x728,0x4276); (0x729,0x573D); (0x72B,0x85D6); (0x72C,0x2497B); (0x72D,0x82BF); (0x72E,0x2710D);
  (0x72F,0x4C81); (0x730,0x26D74); (0x731,0x5D7B); (0x732,0x26B15); (0x733,0x26FBE); (0x734,0x9FAD); (0x735,0x9FAE); (0x736,0x5B96);
  (0x737,0x9FAF); (0x738,0x66E7); (0x739,0x7E5B); (0x73A,0x6E57); (0x73B,0x79CA); (0x73C,0x3D88); (0x73D,0x44C3); (0x73E,0x23256);
  (0x73F,0x22796); (0x740,0x439A); (0x741,0x4536); (0x743,0x5CD5); (0x744,0x23B1A); (0x745,0x8AF9); (0x746,0x5C78); (0x747,0x3D12)
].
(* encoding_tables/whatwg/index-big5.txt (pointer, code point), entries 768..1023 *)
Definition big5_index_3 : list (N * N) := [
  (0x748,0x23551); (0x749,0x5D78); (0x74A,0x9FB2); (0x74B,0x7157); (0x74C,0x4558); (0x74D,0x240EC); (0x74E,0x21E23); (0x74F,0x4C77);
  (0x750,0x3978); (0x751,0x344A); (0x752,0x201A4); (0x753,0x26C41); (0x754,0x8ACC); (0x755,0x4FB4); (0x756,0x20239); (0x757,0x59BF);
  (0x758,0x816C); (0x759,0x9856); (0x75A,0x298FA); (0x75B,0x5F3B); (0x75C,0x20B9F); (0x75E,0x221C1); (0x75F,0x2896D); (0x760,0x4102);
  (0x761,0x46BB); (0x762,0x29079); (0x763,0x3F07); (0x764,0x9FB3); (0x765,0x2A1B5); (0x766,0x40F8); (0x767,0x37D6); (0x768,0x46F7);
  (0x769,0x26C46); (0x76A,0x417C); (0x76B,0x286B2); (0x76C,0x273FF); (0x76D,0x456D); (0x76E,0x38D4); (0x76F,0x2549A); (0x770,0x4561);
  (0x771,0x451B); (0x772,0x4D89); (0x773,0x4C7B); (0x774,0x4D76); (0x775,0x45EA); (0x776,0x3FC8); (0x777,0x24B0F); (0x778,0x3661);
  (0x779,0x44DE); (0x77A,0x44BD); (0x77B,0x41ED); (0x77C,0x5D3E); (0x77D,0x5D48); (0x77E,0x5D56); (0x77F,0x3DFC); (0x780,0x380F);
  (0x781,0x5DA4); (0x782,0x5DB9); (0x783,0x3820); (0x784,0x3838); (0x785,0x5E42); (0x786,0x5EBD); (0x787,0x5F25); (0x788,0x5F83);
  (0x789,0x3908); (0x78A,0x3914); (0x78B,0x393F); (0x78C,0x394D); (0x78D,0x60D7); (0x78E,0x613D); (0x78F,0x5CE5); (0x790,0x3989);
  (0x791,0x61B7); (0x792,0x61B9); (0x793,0x61CF); (0x794,0x39B8); (0x795,0x622C); (0x796,0x6290); (0x797,0x62E5); (0x798,0x6318);
  (0x799,0x39F8); (0x79A,0x56B1); (0x79B,0x3A03); (0x79C,0x63E2); (0x79D,0x63FB); (0x79E,0x6407); (0x79F,0x645A); (0x7A0,0x3A4B);
  (0x7A1,0x64C0); (0x7A2,0x5D15); (0x7A3,0x5621); (0x7A4,0x9F9F); (0x7A5,0x3A97); (0x7A6,0x6586); (0x7A7,0x3ABD); (0x7A8,0x65FF);
  (0x7A9,0x6653); (0x7AA,0x3AF2); (0x7AB,0x6692); (0x7AC,0x3B22); (0x7AD,0x6716); (0x7AE,0x3B42); (0x7AF,0x67A4); (0x7B0,0x6800);
  (0x7B1,0x3B58); (0x7B2,0x684A); (0x7B3,0x6884); (0x7B4,0x3B72); (0x7B5,0x3B71); (0x7B6,0x3B7B); (0x7B7,0x6909); (0x7B8,0x6943);
  (0x7B9,0x725C); (0x7BA,0x6964); (0x7BB,0x699F); (0x7BC,0x6985); (0x7BD,0x3BBC); (0x7BE,0x69D6); (0x7BF,0x3BDD); (0x7C0,0x6A65);
  (0x7C1,0x6A74); (0x7C2,0x6A71); (0x7C3,0x6A82); (0x7C4,0x3BEC); (0x7C5,0x6A99); (0x7C6,0x3BF2); (0x7C7,0x6AAB); (0x7C8,0x6AB5);
  (0x7C9,0x6AD4); (0x7CA,0x6AF6); (0x7CB,0x6B81); (0x7CC,0x6BC1); (0x7CD,0x6BEA); (0x7CE,0x6C75); (0x7CF,0x6CAA); (0x7D0,0x3CCB);
  (0x7D1,0x6D02); (0x7D2,0x6D06); (0x7D3,0x6D26); (0x7D4,0x6D81); (0x7D5,0x3CEF); (0x7D6,0x6DA4); (0x7D7,0x6DB1); (0x7D8,0x6E15);
  (0x7D9,0x6E18); (0x7DA,0x6E29); (0x7DB,0x6E86); (0x7DC,0x289C0); (0x7DD,0x6EBB); (0x7DE,0x6EE2); (0x7DF,0x6EDA); (0x7E0,0x9F7F);
  (0x7E1,0x6EE8); (0x7E2,0x6EE9); (0x7E3,0x6F24); (0x7E4,0x6F34); (0x7E5,0x3D46); (0x7E6,0x23F41); (0x7E7,0x6F81); (0x7E8,0x6FBE);
  (0x7E9,0x3D6A); (0x7EA,0x3D75); (0x7EB,0x71B7); (0x7EC,0x5C99); (0x7ED,0x3D8A); (0x7EE,0x702C); (0x7EF,0x3D91); (0x7F0,0x7050);
  (0x7F1,0x7054); (0x7F2,0x706F); (0x7F3,0x707F); (0x7F4,0x7089); (0x7F5,0x20325); (0x7F6,0x43C1); (0x7F7,0x35F1); (0x7F8,0x20ED8);
  (0x7F9,0x23ED7); (0x7FA,0x57BE); (0x7FB,0x26ED3); (0x7FC,0x713E); (0x7FD,0x257E0); (0x7FE,0x364E); (0x7FF,0x69A2); (0x800,0x28BE9);
  (0x801,0x5B74); (0x802,0x7A49); (0x803,0x258E1); (0x804,0x294D9); (0x805,0x7A65); (0x806,0x7A7D); (0x807,0x259AC); (0x808,0x7ABB);
  (0x809,0x7AB0); (0x80A,0x7AC2); (0x80B,0x7AC3); (0x80C,0x71D1); (0x80D,0x2648D); (0x80E,0x41CA); (0x80F,0x7ADA); (0x810,0x7ADD);
  (0x811,0x7AEA); (0x812,0x41EF); (0x813,0x54B2); (0x814,0x25C01); (0x815,0x7B0B); (0x816,0x7B55); (0x817,0x7B29); (0x818,0x2530E);
  (0x819,0x25CFE); (0x81A,0x7BA2); (0x81B,0x7B6F); (0x81C,0x839C); (0x81D,0x25BB4); (0x81E,0x26C7F); (0x81F,0x7BD0); (0x820,0x8421);
  (0x821,0x7B92); (0x822,0x7BB8); (0x823,0x25D20); (0x824,0x3DAD); (0x825,0x25C65); (0x826,0x8492); (0x827,0x7BFA); (0x828,0x7C06);
  (0x829,0x7C35); (0x82A,0x25CC1); (0x82B,0x7C44); (0x82C,0x7C83); (0x82D,0x24882); (0x82E,0x7CA6); (0x82F,0x667D); (0x830,0x24578);
  (0x831,0x7CC9); (0x832,0x7CC7); (0x833,0x7CE6); (0x834,0x7C74); (0x835,0x7CF3); (0x836,0x7CF5); (0x837,0x7CCE); (0x838,0x7E67);
  (0x839,0x451D); (0x83A,0x26E44); (0x83B,0x7D5D); (0x83C,0x26ED6); (0x83D,0x748D); (0x83E,0x7D89); (0x83F,0x7DAB); (0x840,0x7135);
  (0x841,0x7DB3); (0x842,0x7DD2); (0x843,0x24057); (0x844,0x26029); (0x845,0x7DE4); (0x846,0x3D13); (0x847,0x7DF5); (0x848,0x217F9)
].
(* encoding_tables/whatwg/index-big5.txt (pointer, code point), entries 1024..1279 *)
Definition big5_index_4 : list (N * N) := [
  (0x849,0x7DE5); (0x84A,0x2836D); (0x84B,0x7E1D); (0x84C,0x26121); (0x84D,0x2615A); (0x84E,0x7E6E); (0x84F,0x7E92); (0x850,0x432B);
  (0x851,0x946C); (0x852,0x7E27); (0x853,0x7F40); (0x854,0x7F41); (0x855,0x7F47); (0x856,0x7936); (0x857,0x262D0); (0x858,0x99E1);
  (0x859,0x7F97); (0x85A,0x26351); (0x85B,0x7FA3); (0x85C,0x21661); (0x85D,0x20068); (0x85E,0x455C); (0x85F,0x23766); (0x860,0x4503);
  (0x861,0x2833A); (0x862,0x7FFA); (0x863,0x26489); (0x864,0x8005); (0x865,0x8008); (0x866,0x801D); (0x867,0x8028); (0x868,0x802F);
  (0x869,0x2A087); (0x86A,0x26CC3); (0x86B,0x803B); (0x86C,0x803C); (0x86D,0x8061); (0x86E,0x22714); (0x86F,0x4989); (0x870,0x26626);
  (0x871,0x23DE3); (0x872,0x266E8); (0x873,0x6725); (0x874,0x80A7); (0x875,0x28A48); (0x876,0x8107); (0x877,0x811A); (0x878,0x58B0);
  (0x879,0x226F6); (0x87A,0x6C7F); (0x87B,0x26498); (0x87C,0x24FB8); (0x87D,0x64E7); (0x87E,0x2148A); (0x87F,0x8218); (0x880,0x2185E);
  (0x881,0x6A53); (0x882,0x24A65); (0x883,0x24A95); (0x884,0x447A); (0x885,0x8229); (0x886,0x20B0D); (0x887,0x26A52); (0x888,0x23D7E);
  (0x889,0x4FF9); (0x88A,0x214FD); (0x88B,0x84E2); (0x88C,0x8362); (0x88D,0x26B0A); (0x88E,0x249A7); (0x88F,0x23530); (0x890,0x21773);
  (0x891,0x23DF8); (0x892,0x82AA); (0x893,0x691B); (0x894,0x2F994); (0x895,0x41DB); (0x896,0x854B); (0x897,0x82D0); (0x898,0x831A);
  (0x899,0x20E16); (0x89A,0x217B4); (0x89B,0x36C1); (0x89C,0x2317D); (0x89D,0x2355A); (0x89E,0x827B); (0x89F,0x82E2); (0x8A0,0x8318);
  (0x8A1,0x23E8B); (0x8A2,0x26DA3); (0x8A3,0x26B05); (0x8A4,0x26B97); (0x8A5,0x235CE); (0x8A6,0x3DBF); (0x8A7,0x831D); (0x8A8,0x55EC);
  (0x8A9,0x8385); (0x8AA,0x450B); (0x8AB,0x26DA5); (0x8AC,0x83AC); (0x8AD,0x83C1); (0x8AE,0x83D3); (0x8AF,0x347E); (0x8B0,0x26ED4);
  (0x8B1,0x6A57); (0x8B2,0x855A); (0x8B3,0x3496); (0x8B4,0x26E42); (0x8B5,0x22EEF); (0x8B6,0x8458); (0x8B7,0x25BE4); (0x8B8,0x8471);
  (0x8B9,0x3DD3); (0x8BA,0x44E4); (0x8BB,0x6AA7); (0x8BC,0x844A); (0x8BD,0x23CB5); (0x8BE,0x7958); (0x8BF,0x84A8); (0x8C0,0x26B96);
  (0x8C1,0x26E77); (0x8C2,0x26E43); (0x8C3,0x84DE); (0x8C4,0x840F); (0x8C5,0x8391); (0x8C6,0x44A0); (0x8C7,0x8493); (0x8C8,0x84E4);
  (0x8C9,0x25C91); (0x8CA,0x4240); (0x8CB,0x25CC0); (0x8CC,0x4543); (0x8CD,0x8534); (0x8CE,0x5AF2); (0x8CF,0x26E99); (0x8D0,0x4527);
  (0x8D1,0x8573); (0x8D2,0x4516); (0x8D3,0x67BF); (0x8D4,0x8616); (0x8D5,0x28625); (0x8D6,0x2863B); (0x8D7,0x85C1); (0x8D8,0x27088);
  (0x8D9,0x8602); (0x8DA,0x21582); (0x8DB,0x270CD); (0x8DC,0x2F9B2); (0x8DD,0x456A); (0x8DE,0x8628); (0x8DF,0x3648); (0x8E0,0x218A2);
  (0x8E1,0x53F7); (0x8E2,0x2739A); (0x8E3,0x867E); (0x8E4,0x8771); (0x8E5,0x2A0F8); (0x8E6,0x87EE); (0x8E7,0x22C27); (0x8E8,0x87B1);
  (0x8E9,0x87DA); (0x8EA,0x880F); (0x8EB,0x5661); (0x8EC,0x866C); (0x8ED,0x6856); (0x8EE,0x460F); (0x8EF,0x8845); (0x8F0,0x8846);
  (0x8F1,0x275E0); (0x8F2,0x23DB9); (0x8F3,0x275E4); (0x8F4,0x885E); (0x8F5,0x889C); (0x8F6,0x465B); (0x8F7,0x88B4); (0x8F8,0x88B5);
  (0x8F9,0x63C1); (0x8FA,0x88C5); (0x8FB,0x7777); (0x8FC,0x2770F); (0x8FD,0x8987); (0x8FE,0x898A); (0x8FF,0x89A6); (0x900,0x89A9);
  (0x901,0x89A7); (0x902,0x89BC); (0x903,0x28A25); (0x904,0x89E7); (0x905,0x27924); (0x906,0x27ABD); (0x907,0x8A9C); (0x908,0x7793);
  (0x909,0x91FE); (0x90A,0x8A90); (0x90B,0x27A59); (0x90C,0x7AE9); (0x90D,0x27B3A); (0x90E,0x23F8F); (0x90F,0x4713); (0x910,0x27B38);
  (0x911,0x717C); (0x912,0x8B0C); (0x913,0x8B1F); (0x914,0x25430); (0x915,0x25565); (0x916,0x8B3F); (0x917,0x8B4C); (0x918,0x8B4D);
  (0x919,0x8AA9); (0x91A,0x24A7A); (0x91B,0x8B90); (0x91C,0x8B9B); (0x91D,0x8AAF); (0x91E,0x216DF); (0x91F,0x4615); (0x920,0x884F);
  (0x921,0x8C9B); (0x922,0x27D54); (0x923,0x27D8F); (0x924,0x2F9D4); (0x925,0x3725); (0x926,0x27D53); (0x927,0x8CD6); (0x928,0x27D98);
  (0x929,0x27DBD); (0x92A,0x8D12); (0x92B,0x8D03); (0x92C,0x21910); (0x92D,0x8CDB); (0x92E,0x705C); (0x92F,0x8D11); (0x930,0x24CC9);
  (0x931,0x3ED0); (0x932,0x8D77); (0x933,0x8DA9); (0x934,0x28002); (0x935,0x21014); (0x936,0x2498A); (0x937,0x3B7C); (0x938,0x281BC);
  (0x939,0x2710C); (0x93A,0x7AE7); (0x93B,0x8EAD); (0x93C,0x8EB6); (0x93D,0x8EC3); (0x93E,0x92D4); (0x93F,0x8F19); (0x940,0x8F2D);
  (0x941,0x28365); (0x942,0x28412); (0x943,0x8FA5); (0x944,0x9303); (0x945,0x2A29F); (0x946,0x20A50); (0x947,0x8FB3); (0x948,0x492A)
].
(* encoding_tables/whatwg/index-big5.txt (pointer, code point), entries 1280..1535 *)
Definition big5_index_5 : list (N * N) := [
  (0x949,0x289DE); (0x94A,0x2853D); (0x94B,0x23DBB); (0x94C,0x5EF8); (0x94D,0x23262); (0x94E,0x8FF9); (0x94F,0x2A014); (0x950,0x286BC);
  (0x951,0x28501); (0x952,0x22325); (0x953,0x3980); (0x954,0x26ED7); (0x955,0x9037); (0x956,0x2853C); (0x957,0x27ABE); (0x958,0x9061);
  (0x959,0x2856C); (0x95A,0x2860B); (0x95B,0x90A8); (0x95C,0x28713); (0x95D,0x90C4); (0x95E,0x286E6); (0x95F,0x90AE); (0x960,0x90FD);
  (0x961,0x9167); (0x962,0x3AF0); (0x963,0x91A9); (0x964,0x91C4); (0x965,0x7CAC); (0x966,0x28933); (0x967,0x21E89); (0x968,0x920E);
  (0x969,0x6C9F); (0x96A,0x9241); (0x96B,0x9262); (0x96C,0x255B9); (0x96D,0x92B9); (0x96E,0x28AC6); (0x96F,0x23C9B); (0x970,0x28B0C);
  (0x971,0x255DB); (0x972,0x20D31); (0x973,0x932C); (0x974,0x936B); (0x975,0x28AE1); (0x976,0x28BEB); (0x977,0x708F); (0x978,0x5AC3);
  (0x979,0x28AE2); (0x97A,0x28AE5); (0x97B,0x4965); (0x97C,0x9244); (0x97D,0x28BEC); (0x97E,0x28C39); (0x97F,0x28BFF); (0x980,0x9373);
  (0x981,0x945B); (0x982,0x8EBC); (0x983,0x9585); (0x984,0x95A6); (0x985,0x9426); (0x986,0x95A0); (0x987,0x6FF6); (0x988,0x42B9);
  (0x989,0x2267A); (0x98A,0x286D8); (0x98B,0x2127C); (0x98C,0x23E2E); (0x98D,0x49DF); (0x98E,0x6C1C); (0x98F,0x967B); (0x990,0x9696);
  (0x991,0x416C); (0x992,0x96A3); (0x993,0x26ED5); (0x994,0x61DA); (0x995,0x96B6); (0x996,0x78F5); (0x997,0x28AE0); (0x998,0x96BD);
  (0x999,0x53CC); (0x99A,0x49A1); (0x99B,0x26CB8); (0x99C,0x20274); (0x99D,0x26410); (0x99E,0x290AF); (0x99F,0x290E5); (0x9A0,0x24AD1);
  (0x9A1,0x21915); (0x9A2,0x2330A); (0x9A3,0x9731); (0x9A4,0x8642); (0x9A5,0x9736); (0x9A6,0x4A0F); (0x9A7,0x453D); (0x9A8,0x4585);
  (0x9A9,0x24AE9); (0x9AA,0x7075); (0x9AB,0x5B41); (0x9AC,0x971B); (0x9AD,0x975C); (0x9AE,0x291D5); (0x9AF,0x9757); (0x9B0,0x5B4A);
  (0x9B1,0x291EB); (0x9B2,0x975F); (0x9B3,0x9425); (0x9B4,0x50D0); (0x9B5,0x230B7); (0x9B6,0x230BC); (0x9B7,0x9789); (0x9B8,0x979F);
  (0x9B9,0x97B1); (0x9BA,0x97BE); (0x9BB,0x97C0); (0x9BC,0x97D2); (0x9BD,0x97E0); (0x9BE,0x2546C); (0x9BF,0x97EE); (0x9C0,0x741C);
  (0x9C1,0x29433); (0x9C2,0x97FF); (0x9C3,0x97F5); (0x9C4,0x2941D); (0x9C5,0x2797A); (0x9C6,0x4AD1); (0x9C7,0x9834); (0x9C8,0x9833);
  (0x9C9,0x984B); (0x9CA,0x9866); (0x9CB,0x3B0E); (0x9CC,0x27175); (0x9CD,0x3D51); (0x9CE,0x20630); (0x9CF,0x2415C); (0x9D0,0x25706);
  (0x9D1,0x98CA); (0x9D2,0x98B7); (0x9D3,0x98C8); (0x9D4,0x98C7); (0x9D5,0x4AFF); (0x9D6,0x26D27); (0x9D7,0x216D3); (0x9D8,0x55B0);
  (0x9D9,0x98E1); (0x9DA,0x98E6); (0x9DB,0x98EC); (0x9DC,0x9378); (0x9DD,0x9939); (0x9DE,0x24A29); (0x9DF,0x4B72); (0x9E0,0x29857);
  (0x9E1,0x29905); (0x9E2,0x99F5); (0x9E3,0x9A0C); (0x9E4,0x9A3B); (0x9E5,0x9A10); (0x9E6,0x9A58); (0x9E7,0x25725); (0x9E8,0x36C4);
  (0x9E9,0x290B1); (0x9EA,0x29BD5); (0x9EB,0x9AE0); (0x9EC,0x9AE2); (0x9ED,0x29B05); (0x9EE,0x9AF4); (0x9EF,0x4C0E); (0x9F0,0x9B14);
  (0x9F1,0x9B2D); (0x9F2,0x28600); (0x9F3,0x5034); (0x9F4,0x9B34); (0x9F5,0x269A8); (0x9F6,0x38C3); (0x9F7,0x2307D); (0x9F8,0x9B50);
  (0x9F9,0x9B40); (0x9FA,0x29D3E); (0x9FB,0x5A45); (0x9FC,0x21863); (0x9FD,0x9B8E); (0x9FE,0x2424B); (0x9FF,0x9C02); (0xA00,0x9BFF);
  (0xA01,0x9C0C); (0xA02,0x29E68); (0xA03,0x9DD4); (0xA04,0x29FB7); (0xA05,0x2A192); (0xA06,0x2A1AB); (0xA07,0x2A0E1); (0xA08,0x2A123);
  (0xA09,0x2A1DF); (0xA0A,0x9D7E); (0xA0B,0x9D83); (0xA0C,0x2A134); (0xA0D,0x9E0E); (0xA0E,0x6888); (0xA0F,0x9DC4); (0xA10,0x2215B);
  (0xA11,0x2A193); (0xA12,0x2A220); (0xA13,0x2193B); (0xA14,0x2A233); (0xA15,0x9D39); (0xA16,0x2A0B9); (0xA17,0x2A2B4); (0xA18,0x9E90);
  (0xA19,0x9E95); (0xA1A,0x9E9E); (0xA1B,0x9EA2); (0xA1C,0x4D34); (0xA1D,0x9EAA); (0xA1E,0x9EAF); (0xA1F,0x24364); (0xA20,0x9EC1);
  (0xA21,0x3B60); (0xA22,0x39E5); (0xA23,0x3D1D); (0xA24,0x4F32); (0xA25,0x37BE); (0xA26,0x28C2B); (0xA27,0x9F02); (0xA28,0x9F08);
  (0xA29,0x4B96); (0xA2A,0x9424); (0xA2B,0x26DA2); (0xA2C,0x9F17); (0xA2D,0x9F16); (0xA2E,0x9F39); (0xA2F,0x569F); (0xA30,0x568A);
  (0xA31,0x9F45); (0xA32,0x99B8); (0xA33,0x2908B); (0xA34,0x97F2); (0xA35,0x847F); (0xA36,0x9F62); (0xA37,0x9F69); (0xA38,0x7ADC);
  (0xA39,0x9F8E); (0xA3A,0x7216); (0xA3B,0x4BBE); (0xA3C,0x24975); (0xA3D,0x249BB); (0xA3E,0x7177); (0xA3F,0x249F8); (0xA40,0x24348);
  (0xA41,0x24A51); (0xA42,0x739E); (0xA43,0x28BDA); (0xA44,0x218FA); (0xA45,0x799F); (0xA46,0x2897E); (0xA47,0x28E36); (0xA48,0x9369)
].
(* encoding_tables/whatwg/index-big5.txt (pointer, code point), entries 1536..1791 *)
Definition big5_index_6 : list (N * N) := [
  (0xA49,0x93F3); (0xA4A,0x28A44); (0xA4B,0x92EC); (0xA4C,0x9381); (0xA4D,0x93CB); (0xA4E,0x2896C); (0xA4F,0x244B9); (0xA50,0x7217);
  (0xA51,0x3EEB); (0xA52,0x7772); (0xA53,0x7A43); (0xA54,0x70D0); (0xA55,0x24473); (0xA56,0x243F8); (0xA57,0x717E); (0xA58,0x217EF);
  (0xA59,0x70A3); (0xA5A,0x218BE); (0xA5B,0x23599); (0xA5C,0x3EC7); (0xA5D,0x21885); (0xA5E,0x2542F); (0xA5F,0x217F8); (0xA60,0x3722);
  (0xA61,0x216FB); (0xA62,0x21839); (0xA63,0x36E1); (0xA64,0x21774); (0xA65,0x218D1); (0xA66,0x25F4B); (0xA67,0x3723); (0xA68,0x216C0);
  (0xA69,0x575B); (0xA6A,0x24A25); (0xA6B,0x213FE); (0xA6C,0x212A8); (0xA6D,0x213C6); (0xA6E,0x214B6); (0xA6F,0x8503); (0xA70,0x236A6);
  (0xA71,0x8503); (0xA72,0x8455); (0xA73,0x24994); (0xA74,0x27165); (0xA75,0x23E31); (0xA76,0x2555C); (0xA77,0x23EFB); (0xA78,0x27052);
  (0xA79,0x44F4); (0xA7A,0x236EE); (0xA7B,0x2999D); (0xA7C,0x26F26); (0xA7D,0x67F9); (0xA7E,0x3733); (0xA7F,0x3C15); (0xA80,0x3DE7);
  (0xA81,0x586C); (0xA82,0x21922); (0xA83,0x6810); (0xA84,0x4057); (0xA85,0x2373F); (0xA86,0x240E1); (0xA87,0x2408B); (0xA88,0x2410F);
  (0xA89,0x26C21); (0xA8A,0x54CB); (0xA8B,0x569E); (0xA8C,0x266B1); (0xA8D,0x5692); (0xA8E,0x20FDF); (0xA8F,0x20BA8); (0xA90,0x20E0D);
  (0xA91,0x93C6); (0xA92,0x28B13); (0xA93,0x939C); (0xA94,0x4EF8); (0xA95,0x512B); (0xA96,0x3819); (0xA97,0x24436); (0xA98,0x4EBC);
  (0xA99,0x20465); (0xA9A,0x2037F); (0xA9B,0x4F4B); (0xA9C,0x4F8A); (0xA9D,0x25651); (0xA9E,0x5A68); (0xA9F,0x201AB); (0xAA0,0x203CB);
  (0xAA1,0x3999); (0xAA2,0x2030A); (0xAA3,0x20414); (0xAA4,0x3435); (0xAA5,0x4F29); (0xAA6,0x202C0); (0xAA7,0x28EB3); (0xAA8,0x20275);
  (0xAA9,0x8ADA); (0xAAA,0x2020C); (0xAAB,0x4E98); (0xAAC,0x50CD); (0xAAD,0x510D); (0xAAE,0x4FA2); (0xAAF,0x4F03); (0xAB0,0x24A0E);
  (0xAB1,0x23E8A); (0xAB2,0x4F42); (0xAB3,0x502E); (0xAB4,0x506C); (0xAB5,0x5081); (0xAB6,0x4FCC); (0xAB7,0x4FE5); (0xAB8,0x5058);
  (0xAB9,0x50FC); (0xABA,0x5159); (0xABB,0x515B); (0xABC,0x515D); (0xABD,0x515E); (0xABE,0x6E76); (0xABF,0x23595); (0xAC0,0x23E39);
  (0xAC1,0x23EBF); (0xAC2,0x6D72); (0xAC3,0x21884); (0xAC4,0x23E89); (0xAC5,0x51A8); (0xAC6,0x51C3); (0xAC7,0x205E0); (0xAC8,0x44DD);
  (0xAC9,0x204A3); (0xACA,0x20492); (0xACB,0x20491); (0xACC,0x8D7A); (0xACD,0x28A9C); (0xACE,0x2070E); (0xACF,0x5259); (0xAD0,0x52A4);
  (0xAD1,0x20873); (0xAD2,0x52E1); (0xAD3,0x936E); (0xAD4,0x467A); (0xAD5,0x718C); (0xAD6,0x2438C); (0xAD7,0x20C20); (0xAD8,0x249AC);
  (0xAD9,0x210E4); (0xADA,0x69D1); (0xADB,0x20E1D); (0xADC,0x7479); (0xADD,0x3EDE); (0xADE,0x7499); (0xADF,0x7414); (0xAE0,0x7456);
  (0xAE1,0x7398); (0xAE2,0x4B8E); (0xAE3,0x24ABC); (0xAE4,0x2408D); (0xAE5,0x53D0); (0xAE6,0x3584); (0xAE7,0x720F); (0xAE8,0x240C9);
  (0xAE9,0x55B4); (0xAEA,0x20345); (0xAEB,0x54CD); (0xAEC,0x20BC6); (0xAED,0x571D); (0xAEE,0x925D); (0xAEF,0x96F4); (0xAF0,0x9366);
  (0xAF1,0x57DD); (0xAF2,0x578D); (0xAF3,0x577F); (0xAF4,0x363E); (0xAF5,0x58CB); (0xAF6,0x5A99); (0xAF7,0x28A46); (0xAF8,0x216FA);
  (0xAF9,0x2176F); (0xAFA,0x21710); (0xAFB,0x5A2C); (0xAFC,0x59B8); (0xAFD,0x928F); (0xAFE,0x5A7E); (0xAFF,0x5ACF); (0xB00,0x5A12);
  (0xB01,0x25946); (0xB02,0x219F3); (0xB03,0x21861); (0xB04,0x24295); (0xB05,0x36F5); (0xB06,0x6D05); (0xB07,0x7443); (0xB08,0x5A21);
  (0xB09,0x25E83); (0xB0A,0x5A81); (0xB0B,0x28BD7); (0xB0C,0x20413); (0xB0D,0x93E0); (0xB0E,0x748C); (0xB0F,0x21303); (0xB10,0x7105);
  (0xB11,0x4972); (0xB12,0x9408); (0xB13,0x289FB); (0xB14,0x93BD); (0xB15,0x37A0); (0xB16,0x5C1E); (0xB17,0x5C9E); (0xB18,0x5E5E);
  (0xB19,0x5E48); (0xB1A,0x21996); (0xB1B,0x2197C); (0xB1C,0x23AEE); (0xB1D,0x5ECD); (0xB1E,0x5B4F); (0xB1F,0x21903); (0xB20,0x21904);
  (0xB21,0x3701); (0xB22,0x218A0); (0xB23,0x36DD); (0xB24,0x216FE); (0xB25,0x36D3); (0xB26,0x812A); (0xB27,0x28A47); (0xB28,0x21DBA);
  (0xB29,0x23472); (0xB2A,0x289A8); (0xB2B,0x5F0C); (0xB2C,0x5F0E); (0xB2D,0x21927); (0xB2E,0x217AB); (0xB2F,0x5A6B); (0xB30,0x2173B);
  (0xB31,0x5B44); (0xB32,0x8614); (0xB33,0x275FD); (0xB34,0x8860); (0xB35,0x607E); (0xB36,0x22860); (0xB37,0x2262B); (0xB38,0x5FDB);
  (0xB39,0x3EB8); (0xB3A,0x225AF); (0xB3B,0x225BE); (0xB3C,0x29088); (0xB3D,0x26F73); (0xB3E,0x61C0); (0xB3F,0x2003E); (0xB40,0x20046);
  (0xB41,0x2261B); (0xB42,0x6199); (0xB43,0x6198); (0xB44,0x6075); (0xB45,0x22C9B); (0xB46,0x22D07); (0xB47,0x246D4); (0xB48,0x2914D)
].
(* encoding_tables/whatwg/index-big5.txt (pointer, code point), entries 1792..2047 *)
Definition big5_index_7 : list (N * N) := [
  (0xB49,0x6471); (0xB4A,0x24665); (0xB4B,0x22B6A); (0xB4C,0x3A29); (0xB4D,0x22B22); (0xB4E,0x23450); (0xB4F,0x298EA); (0xB50,0x22E78);
  (0xB51,0x6337); (0xB52,0x2A45B); (0xB53,0x64B6); (0xB54,0x6331); (0xB55,0x63D1); (0xB56,0x249E3); (0xB57,0x22D67); (0xB58,0x62A4);
  (0xB59,0x22CA1); (0xB5A,0x643B); (0xB5B,0x656B); (0xB5C,0x6972); (0xB5D,0x3BF4); (0xB5E,0x2308E); (0xB5F,0x232AD); (0xB60,0x24989);
  (0xB61,0x232AB); (0xB62,0x550D); (0xB63,0x232E0); (0xB64,0x218D9); (0xB65,0x2943F); (0xB66,0x66CE); (0xB67,0x23289); (0xB68,0x231B3);
  (0xB69,0x3AE0); (0xB6A,0x4190); (0xB6B,0x25584); (0xB6C,0x28B22); (0xB6D,0x2558F); (0xB6E,0x216FC); (0xB6F,0x2555B); (0xB70,0x25425);
  (0xB71,0x78EE); (0xB72,0x23103); (0xB73,0x2182A); (0xB74,0x23234); (0xB75,0x3464); (0xB76,0x2320F); (0xB77,0x23182); (0xB78,0x242C9);
  (0xB79,0x668E); (0xB7A,0x26D24); (0xB7B,0x666B); (0xB7C,0x4B93); (0xB7D,0x6630); (0xB7E,0x27870); (0xB7F,0x21DEB); (0xB80,0x6663);
  (0xB81,0x232D2); (0xB82,0x232E1); (0xB83,0x661E); (0xB84,0x25872); (0xB85,0x38D1); (0xB86,0x2383A); (0xB87,0x237BC); (0xB88,0x3B99);
  (0xB89,0x237A2); (0xB8A,0x233FE); (0xB8B,0x74D0); (0xB8C,0x3B96); (0xB8D,0x678F); (0xB8E,0x2462A); (0xB8F,0x68B6); (0xB90,0x681E);
  (0xB91,0x3BC4); (0xB92,0x6ABE); (0xB93,0x3863); (0xB94,0x237D5); (0xB95,0x24487); (0xB96,0x6A33); (0xB97,0x6A52); (0xB98,0x6AC9);
  (0xB99,0x6B05); (0xB9A,0x21912); (0xB9B,0x6511); (0xB9C,0x6898); (0xB9D,0x6A4C); (0xB9E,0x3BD7); (0xB9F,0x6A7A); (0xBA0,0x6B57);
  (0xBA1,0x23FC0); (0xBA2,0x23C9A); (0xBA3,0x93A0); (0xBA4,0x92F2); (0xBA5,0x28BEA); (0xBA6,0x28ACB); (0xBA7,0x9289); (0xBA8,0x2801E);
  (0xBA9,0x289DC); (0xBAA,0x9467); (0xBAB,0x6DA5); (0xBAC,0x6F0B); (0xBAD,0x249EC); (0xBAE,0x6D67); (0xBAF,0x23F7F); (0xBB0,0x3D8F);
  (0xBB1,0x6E04); (0xBB2,0x2403C); (0xBB3,0x5A3D); (0xBB4,0x6E0A); (0xBB5,0x5847); (0xBB6,0x6D24); (0xBB7,0x7842); (0xBB8,0x713B);
  (0xBB9,0x2431A); (0xBBA,0x24276); (0xBBB,0x70F1); (0xBBC,0x7250); (0xBBD,0x7287); (0xBBE,0x7294); (0xBBF,0x2478F); (0xBC0,0x24725);
  (0xBC1,0x5179); (0xBC2,0x24AA4); (0xBC3,0x205EB); (0xBC4,0x747A); (0xBC5,0x23EF8); (0xBC6,0x2365F); (0xBC7,0x24A4A); (0xBC8,0x24917);
  (0xBC9,0x25FE1); (0xBCA,0x3F06); (0xBCB,0x3EB1); (0xBCC,0x24ADF); (0xBCD,0x28C23); (0xBCE,0x23F35); (0xBCF,0x60A7); (0xBD0,0x3EF3);
  (0xBD1,0x74CC); (0xBD2,0x743C); (0xBD3,0x9387); (0xBD4,0x7437); (0xBD5,0x449F); (0xBD6,0x26DEA); (0xBD7,0x4551); (0xBD8,0x7583);
  (0xBD9,0x3F63); (0xBDA,0x24CD9); (0xBDB,0x24D06); (0xBDC,0x3F58); (0xBDD,0x7555); (0xBDE,0x7673); (0xBDF,0x2A5C6); (0xBE0,0x3B19);
  (0xBE1,0x7468); (0xBE2,0x28ACC); (0xBE3,0x249AB); (0xBE4,0x2498E); (0xBE5,0x3AFB); (0xBE6,0x3DCD); (0xBE7,0x24A4E); (0xBE8,0x3EFF);
  (0xBE9,0x249C5); (0xBEA,0x248F3); (0xBEB,0x91FA); (0xBEC,0x5732); (0xBED,0x9342); (0xBEE,0x28AE3); (0xBEF,0x21864); (0xBF0,0x50DF);
  (0xBF1,0x25221); (0xBF2,0x251E7); (0xBF3,0x7778); (0xBF4,0x23232); (0xBF5,0x770E); (0xBF6,0x770F); (0xBF7,0x777B); (0xBF8,0x24697);
  (0xBF9,0x23781); (0xBFA,0x3A5E); (0xBFB,0x248F0); (0xBFC,0x7438); (0xBFD,0x749B); (0xBFE,0x3EBF); (0xBFF,0x24ABA); (0xC00,0x24AC7);
  (0xC01,0x40C8); (0xC02,0x24A96); (0xC03,0x261AE); (0xC04,0x9307); (0xC05,0x25581); (0xC06,0x781E); (0xC07,0x788D); (0xC08,0x7888);
  (0xC09,0x78D2); (0xC0A,0x73D0); (0xC0B,0x7959); (0xC0C,0x27741); (0xC0D,0x256E3); (0xC0E,0x410E); (0xC0F,0x799B); (0xC10,0x8496);
  (0xC11,0x79A5); (0xC12,0x6A2D); (0xC13,0x23EFA); (0xC14,0x7A3A); (0xC15,0x79F4); (0xC16,0x416E); (0xC17,0x216E6); (0xC18,0x4132);
  (0xC19,0x9235); (0xC1A,0x79F1); (0xC1B,0x20D4C); (0xC1C,0x2498C); (0xC1D,0x20299); (0xC1E,0x23DBA); (0xC1F,0x2176E); (0xC20,0x3597);
  (0xC21,0x556B); (0xC22,0x3570); (0xC23,0x36AA); (0xC24,0x201D4); (0xC25,0x20C0D); (0xC26,0x7AE2); (0xC27,0x5A59); (0xC28,0x226F5);
  (0xC29,0x25AAF); (0xC2A,0x25A9C); (0xC2B,0x5A0D); (0xC2C,0x2025B); (0xC2D,0x78F0); (0xC2E,0x5A2A); (0xC2F,0x25BC6); (0xC30,0x7AFE);
  (0xC31,0x41F9); (0xC32,0x7C5D); (0xC33,0x7C6D); (0xC34,0x4211); (0xC35,0x25BB3); (0xC36,0x25EBC); (0xC37,0x25EA6); (0xC38,0x7CCD);
  (0xC39,0x249F9); (0xC3A,0x217B0); (0xC3B,0x7C8E); (0xC3C,0x7C7C); (0xC3D,0x7CAE); (0xC3E,0x6AB2); (0xC3F,0x7DDC); (0xC40,0x7E07);
  (0xC41,0x7DD3); (0xC42,0x7F4E); (0xC43,0x26261); (0xC44,0x2615C); (0xC45,0x27B48); (0xC46,0x7D97); (0xC47,0x25E82); (0xC48,0x426A)
].
(* encoding_tables/whatwg/index-big5.txt (pointer, code point), entries 2048..2303 *)
Definition big5_index_8 : list (N * N) := [
  (0xC49,0x26B75); (0xC4A,0x20916); (0xC4B,0x67D6); (0xC4C,0x2004E); (0xC4D,0x235CF); (0xC4E,0x57C4); (0xC4F,0x26412); (0xC50,0x263F8);
  (0xC51,0x24962); (0xC52,0x7FDD); (0xC53,0x7B27); (0xC54,0x2082C); (0xC55,0x25AE9); (0xC56,0x25D43); (0xC57,0x7B0C); (0xC58,0x25E0E);
  (0xC59,0x99E6); (0xC5A,0x8645); (0xC5B,0x9A63); (0xC5C,0x6A1C); (0xC5D,0x2343F); (0xC5E,0x39E2); (0xC5F,0x249F7); (0xC60,0x265AD);
  (0xC61,0x9A1F); (0xC62,0x265A0); (0xC63,0x8480); (0xC64,0x27127); (0xC65,0x26CD1); (0xC66,0x44EA); (0xC67,0x8137); (0xC68,0x4402);
  (0xC69,0x80C6); (0xC6A,0x8109); (0xC6B,0x8142); (0xC6C,0x267B4); (0xC6D,0x98C3); (0xC6E,0x26A42); (0xC6F,0x8262); (0xC70,0x8265);
  (0xC71,0x26A51); (0xC72,0x8453); (0xC73,0x26DA7); (0xC74,0x8610); (0xC75,0x2721B); (0xC76,0x5A86); (0xC77,0x417F); (0xC78,0x21840);
  (0xC79,0x5B2B); (0xC7A,0x218A1); (0xC7B,0x5AE4); (0xC7C,0x218D8); (0xC7D,0x86A0); (0xC7E,0x2F9BC); (0xC7F,0x23D8F); (0xC80,0x882D);
  (0xC81,0x27422); (0xC82,0x5A02); (0xC83,0x886E); (0xC84,0x4F45); (0xC85,0x8887); (0xC86,0x88BF); (0xC87,0x88E6); (0xC88,0x8965);
  (0xC89,0x894D); (0xC8A,0x25683); (0xC8B,0x8954); (0xC8C,0x27785); (0xC8D,0x27784); (0xC8E,0x28BF5); (0xC8F,0x28BD9); (0xC90,0x28B9C);
  (0xC91,0x289F9); (0xC92,0x3EAD); (0xC93,0x84A3); (0xC94,0x46F5); (0xC95,0x46CF); (0xC96,0x37F2); (0xC97,0x8A3D); (0xC98,0x8A1C);
  (0xC99,0x29448); (0xC9A,0x5F4D); (0xC9B,0x922B); (0xC9C,0x24284); (0xC9D,0x65D4); (0xC9E,0x7129); (0xC9F,0x70C4); (0xCA0,0x21845);
  (0xCA1,0x9D6D); (0xCA2,0x8C9F); (0xCA3,0x8CE9); (0xCA4,0x27DDC); (0xCA5,0x599A); (0xCA6,0x77C3); (0xCA7,0x59F0); (0xCA8,0x436E);
  (0xCA9,0x36D4); (0xCAA,0x8E2A); (0xCAB,0x8EA7); (0xCAC,0x24C09); (0xCAD,0x8F30); (0xCAE,0x8F4A); (0xCAF,0x42F4); (0xCB0,0x6C58);
  (0xCB1,0x6FBB); (0xCB2,0x22321); (0xCB3,0x489B); (0xCB4,0x6F79); (0xCB5,0x6E8B); (0xCB6,0x217DA); (0xCB7,0x9BE9); (0xCB8,0x36B5);
  (0xCB9,0x2492F); (0xCBA,0x90BB); (0xCBB,0x9097); (0xCBC,0x5571); (0xCBD,0x4906); (0xCBE,0x91BB); (0xCBF,0x9404); (0xCC0,0x28A4B);
  (0xCC1,0x4062); (0xCC2,0x28AFC); (0xCC3,0x9427); (0xCC4,0x28C1D); (0xCC5,0x28C3B); (0xCC6,0x84E5); (0xCC7,0x8A2B); (0xCC8,0x9599);
  (0xCC9,0x95A7); (0xCCA,0x9597); (0xCCB,0x9596); (0xCCC,0x28D34); (0xCCD,0x7445); (0xCCE,0x3EC2); (0xCCF,0x248FF); (0xCD0,0x24A42);
  (0xCD1,0x243EA); (0xCD2,0x3EE7); (0xCD3,0x23225); (0xCD4,0x968F); (0xCD5,0x28EE7); (0xCD6,0x28E66); (0xCD7,0x28E65); (0xCD8,0x3ECC);
  (0xCD9,0x249ED); (0xCDA,0x24A78); (0xCDB,0x23FEE); (0xCDC,0x7412); (0xCDD,0x746B); (0xCDE,0x3EFC); (0xCDF,0x9741); (0xCE0,0x290B0);
  (0xCE1,0x6847); (0xCE2,0x4A1D); (0xCE3,0x29093); (0xCE4,0x257DF); (0xCE5,0x975D); (0xCE6,0x9368); (0xCE7,0x28989); (0xCE8,0x28C26);
  (0xCE9,0x28B2F); (0xCEA,0x263BE); (0xCEB,0x92BA); (0xCEC,0x5B11); (0xCED,0x8B69); (0xCEE,0x493C); (0xCEF,0x73F9); (0xCF0,0x2421B);
  (0xCF1,0x979B); (0xCF2,0x9771); (0xCF3,0x9938); (0xCF4,0x20F26); (0xCF5,0x5DC1); (0xCF6,0x28BC5); (0xCF7,0x24AB2); (0xCF8,0x981F);
  (0xCF9,0x294DA); (0xCFA,0x92F6); (0xCFB,0x295D7); (0xCFC,0x91E5); (0xCFD,0x44C0); (0xCFE,0x28B50); (0xCFF,0x24A67); (0xD00,0x28B64);
  (0xD01,0x98DC); (0xD02,0x28A45); (0xD03,0x3F00); (0xD04,0x922A); (0xD05,0x4925); (0xD06,0x8414); (0xD07,0x993B); (0xD08,0x994D);
  (0xD09,0x27B06); (0xD0A,0x3DFD); (0xD0B,0x999B); (0xD0C,0x4B6F); (0xD0D,0x99AA); (0xD0E,0x9A5C); (0xD0F,0x28B65); (0xD10,0x258C8);
  (0xD11,0x6A8F); (0xD12,0x9A21); (0xD13,0x5AFE); (0xD14,0x9A2F); (0xD15,0x298F1); (0xD16,0x4B90); (0xD17,0x29948); (0xD18,0x99BC);
  (0xD19,0x4BBD); (0xD1A,0x4B97); (0xD1B,0x937D); (0xD1C,0x5872); (0xD1D,0x21302); (0xD1E,0x5822); (0xD1F,0x249B8); (0xD20,0x214E8);
  (0xD21,0x7844); (0xD22,0x2271F); (0xD23,0x23DB8); (0xD24,0x68C5); (0xD25,0x3D7D); (0xD26,0x9458); (0xD27,0x3927); (0xD28,0x6150);
  (0xD29,0x22781); (0xD2A,0x2296B); (0xD2B,0x6107); (0xD2C,0x9C4F); (0xD2D,0x9C53); (0xD2E,0x9C7B); (0xD2F,0x9C35); (0xD30,0x9C10);
  (0xD31,0x9B7F); (0xD32,0x9BCF); (0xD33,0x29E2D); (0xD34,0x9B9F); (0xD35,0x2A1F5); (0xD36,0x2A0FE); (0xD37,0x9D21); (0xD38,0x4CAE);
  (0xD39,0x24104); (0xD3A,0x9E18); (0xD3B,0x4CB0); (0xD3C,0x9D0C); (0xD3D,0x2A1B4); (0xD3E,0x2A0ED); (0xD3F,0x2A0F3); (0xD40,0x2992F);
  (0xD41,0x9DA5); (0xD42,0x84BD); (0xD43,0x26E12); (0xD44,0x26FDF); (0xD45,0x26B82); (0xD46,0x85FC); (0xD47,0x4533); (0xD48,0x26DA4)
].
(* encoding_tables/whatwg/index-big5.txt (pointer, code point), entries 2304..2559 *)
Definition big5_index_9 : list (N * N) := [
  (0xD49,0x26E84); (0xD4A,0x26DF0); (0xD4B,0x8420); (0xD4C,0x85EE); (0xD4D,0x26E00); (0xD4E,0x237D7); (0xD4F,0x26064); (0xD50,0x79E2);
  (0xD51,0x2359C); (0xD52,0x23640); (0xD53,0x492D); (0xD54,0x249DE); (0xD55,0x3D62); (0xD56,0x93DB); (0xD57,0x92BE); (0xD58,0x9348);
  (0xD59,0x202BF); (0xD5A,0x78B9); (0xD5B,0x9277); (0xD5C,0x944D); (0xD5D,0x4FE4); (0xD5E,0x3440); (0xD5F,0x9064); (0xD60,0x2555D);
  (0xD61,0x783D); (0xD62,0x7854); (0xD63,0x78B6); (0xD64,0x784B); (0xD65,0x21757); (0xD66,0x231C9); (0xD67,0x24941); (0xD68,0x369A);
  (0xD69,0x4F72); (0xD6A,0x6FDA); (0xD6B,0x6FD9); (0xD6C,0x701E); (0xD6D,0x701E); (0xD6E,0x5414); (0xD6F,0x241B5); (0xD70,0x57BB);
  (0xD71,0x58F3); (0xD72,0x578A); (0xD73,0x9D16); (0xD74,0x57D7); (0xD75,0x7134); (0xD76,0x34AF); (0xD77,0x241AC); (0xD78,0x71EB);
  (0xD79,0x26C40); (0xD7A,0x24F97); (0xD7B,0x5B28); (0xD7C,0x217B5); (0xD7D,0x28A49); (0xD7E,0x610C); (0xD7F,0x5ACE); (0xD80,0x5A0B);
  (0xD81,0x42BC); (0xD82,0x24488); (0xD83,0x372C); (0xD84,0x4B7B); (0xD85,0x289FC); (0xD86,0x93BB); (0xD87,0x93B8); (0xD88,0x218D6);
  (0xD89,0x20F1D); (0xD8A,0x8472); (0xD8B,0x26CC0); (0xD8C,0x21413); (0xD8D,0x242FA); (0xD8E,0x22C26); (0xD8F,0x243C1); (0xD90,0x5994);
  (0xD91,0x23DB7); (0xD92,0x26741); (0xD93,0x7DA8); (0xD94,0x2615B); (0xD95,0x260A4); (0xD96,0x249B9); (0xD97,0x2498B); (0xD98,0x289FA);
  (0xD99,0x92E5); (0xD9A,0x73E2); (0xD9B,0x3EE9); (0xD9C,0x74B4); (0xD9D,0x28B63); (0xD9E,0x2189F); (0xD9F,0x3EE1); (0xDA0,0x24AB3);
  (0xDA1,0x6AD8); (0xDA2,0x73F3); (0xDA3,0x73FB); (0xDA4,0x3ED6); (0xDA5,0x24A3E); (0xDA6,0x24A94); (0xDA7,0x217D9); (0xDA8,0x24A66);
  (0xDA9,0x203A7); (0xDAA,0x21424); (0xDAB,0x249E5); (0xDAC,0x7448); (0xDAD,0x24916); (0xDAE,0x70A5); (0xDAF,0x24976); (0xDB0,0x9284);
  (0xDB1,0x73E6); (0xDB2,0x935F); (0xDB3,0x204FE); (0xDB4,0x9331); (0xDB5,0x28ACE); (0xDB6,0x28A16); (0xDB7,0x9386); (0xDB8,0x28BE7);
  (0xDB9,0x255D5); (0xDBA,0x4935); (0xDBB,0x28A82); (0xDBC,0x716B); (0xDBD,0x24943); (0xDBE,0x20CFF); (0xDBF,0x56A4); (0xDC0,0x2061A);
  (0xDC1,0x20BEB); (0xDC2,0x20CB8); (0xDC3,0x5502); (0xDC4,0x79C4); (0xDC5,0x217FA); (0xDC6,0x7DFE); (0xDC7,0x216C2); (0xDC8,0x24A50);
  (0xDC9,0x21852); (0xDCA,0x452E); (0xDCB,0x9401); (0xDCC,0x370A); (0xDCD,0x28AC0); (0xDCE,0x249AD); (0xDCF,0x59B0); (0xDD0,0x218BF);
  (0xDD1,0x21883); (0xDD2,0x27484); (0xDD3,0x5AA1); (0xDD4,0x36E2); (0xDD5,0x23D5B); (0xDD6,0x36B0); (0xDD7,0x925F); (0xDD8,0x5A79);
  (0xDD9,0x28A81); (0xDDA,0x21862); (0xDDB,0x9374); (0xDDC,0x3CCD); (0xDDD,0x20AB4); (0xDDE,0x4A96); (0xDDF,0x398A); (0xDE0,0x50F4);
  (0xDE1,0x3D69); (0xDE2,0x3D4C); (0xDE3,0x2139C); (0xDE4,0x7175); (0xDE5,0x42FB); (0xDE6,0x28218); (0xDE7,0x6E0F); (0xDE8,0x290E4);
  (0xDE9,0x44EB); (0xDEA,0x6D57); (0xDEB,0x27E4F); (0xDEC,0x7067); (0xDED,0x6CAF); (0xDEE,0x3CD6); (0xDEF,0x23FED); (0xDF0,0x23E2D);
  (0xDF1,0x6E02); (0xDF2,0x6F0C); (0xDF3,0x3D6F); (0xDF4,0x203F5); (0xDF5,0x7551); (0xDF6,0x36BC); (0xDF7,0x34C8); (0xDF8,0x4680);
  (0xDF9,0x3EDA); (0xDFA,0x4871); (0xDFB,0x59C4); (0xDFC,0x926E); (0xDFD,0x493E); (0xDFE,0x8F41); (0xDFF,0x28C1C); (0xE00,0x26BC0);
  (0xE01,0x5812); (0xE02,0x57C8); (0xE03,0x36D6); (0xE04,0x21452); (0xE05,0x70FE); (0xE06,0x24362); (0xE07,0x24A71); (0xE08,0x22FE3);
  (0xE09,0x212B0); (0xE0A,0x223BD); (0xE0B,0x68B9); (0xE0C,0x6967); (0xE0D,0x21398); (0xE0E,0x234E5); (0xE0F,0x27BF4); (0xE10,0x236DF);
  (0xE11,0x28A83); (0xE12,0x237D6); (0xE13,0x233FA); (0xE14,0x24C9F); (0xE15,0x6A1A); (0xE16,0x236AD); (0xE17,0x26CB7); (0xE18,0x843E);
  (0xE19,0x44DF); (0xE1A,0x44CE); (0xE1B,0x26D26); (0xE1C,0x26D51); (0xE1D,0x26C82); (0xE1E,0x26FDE); (0xE1F,0x6F17); (0xE20,0x27109);
  (0xE21,0x833D); (0xE22,0x2173A); (0xE23,0x83ED); (0xE24,0x26C80); (0xE25,0x27053); (0xE26,0x217DB); (0xE27,0x5989); (0xE28,0x5A82);
  (0xE29,0x217B3); (0xE2A,0x5A61); (0xE2B,0x5A71); (0xE2C,0x21905); (0xE2D,0x241FC); (0xE2E,0x372D); (0xE2F,0x59EF); (0xE30,0x2173C);
  (0xE31,0x36C7); (0xE32,0x718E); (0xE33,0x9390); (0xE34,0x669A); (0xE35,0x242A5); (0xE36,0x5A6E); (0xE37,0x5A2B); (0xE38,0x24293);
  (0xE39,0x6A2B); (0xE3A,0x23EF9); (0xE3B,0x27736); (0xE3C,0x2445B); (0xE3D,0x242CA); (0xE3E,0x711D); (0xE3F,0x24259); (0xE40,0x289E1);
  (0xE41,0x4FB0); (0xE42,0x26D28); (0xE43,0x5CC2); (0xE44,0x244CE); (0xE45,0x27E4D); (0xE46,0x243BD); (0xE47,0x6A0C); (0xE48,0x24256)
].
(* encoding_tables/whatwg/index-big5.txt (pointer, code point), entries 2560..2815 *)
Definition big5_index_10 : list (N * N) := [
  (0xE49,0x21304); (0xE4A,0x70A6); (0xE4B,0x7133); (0xE4C,0x243E9); (0xE4D,0x3DA5); (0xE4E,0x6CDF); (0xE4F,0x2F825); (0xE50,0x24A4F);
  (0xE51,0x7E65); (0xE52,0x59EB); (0xE53,0x5D2F); (0xE54,0x3DF3); (0xE55,0x5F5C); (0xE56,0x24A5D); (0xE57,0x217DF); (0xE58,0x7DA4);
  (0xE59,0x8426); (0xE5A,0x5485); (0xE5B,0x23AFA); (0xE5C,0x23300); (0xE5D,0x20214); (0xE5E,0x577E); (0xE5F,0x208D5); (0xE60,0x20619);
  (0xE61,0x3FE5); (0xE62,0x21F9E); (0xE63,0x2A2B6); (0xE64,0x7003); (0xE65,0x2915B); (0xE66,0x5D70); (0xE67,0x738F); (0xE68,0x7CD3);
  (0xE69,0x28A59); (0xE6A,0x29420); (0xE6B,0x4FC8); (0xE6C,0x7FE7); (0xE6D,0x72CD); (0xE6E,0x7310); (0xE6F,0x27AF4); (0xE70,0x7338);
  (0xE71,0x7339); (0xE72,0x256F6); (0xE73,0x7341); (0xE74,0x7348); (0xE75,0x3EA9); (0xE76,0x27B18); (0xE77,0x906C); (0xE78,0x71F5);
  (0xE79,0x248F2); (0xE7A,0x73E1); (0xE7B,0x81F6); (0xE7C,0x3ECA); (0xE7D,0x770C); (0xE7E,0x3ED1); (0xE7F,0x6CA2); (0xE80,0x56FD);
  (0xE81,0x7419); (0xE82,0x741E); (0xE83,0x741F); (0xE84,0x3EE2); (0xE85,0x3EF0); (0xE86,0x3EF4); (0xE87,0x3EFA); (0xE88,0x74D3);
  (0xE89,0x3F0E); (0xE8A,0x3F53); (0xE8B,0x7542); (0xE8C,0x756D); (0xE8D,0x7572); (0xE8E,0x758D); (0xE8F,0x3F7C); (0xE90,0x75C8);
  (0xE91,0x75DC); (0xE92,0x3FC0); (0xE93,0x764D); (0xE94,0x3FD7); (0xE95,0x7674); (0xE96,0x3FDC); (0xE97,0x767A); (0xE98,0x24F5C);
  (0xE99,0x7188); (0xE9A,0x5623); (0xE9B,0x8980); (0xE9C,0x5869); (0xE9D,0x401D); (0xE9E,0x7743); (0xE9F,0x4039); (0xEA0,0x6761);
  (0xEA1,0x4045); (0xEA2,0x35DB); (0xEA3,0x7798); (0xEA4,0x406A); (0xEA5,0x406F); (0xEA6,0x5C5E); (0xEA7,0x77BE); (0xEA8,0x77CB);
  (0xEA9,0x58F2); (0xEAA,0x7818); (0xEAB,0x70B9); (0xEAC,0x781C); (0xEAD,0x40A8); (0xEAE,0x7839); (0xEAF,0x7847); (0xEB0,0x7851);
  (0xEB1,0x7866); (0xEB2,0x8448); (0xEB3,0x25535); (0xEB4,0x7933); (0xEB5,0x6803); (0xEB6,0x7932); (0xEB7,0x4103); (0xEB8,0x4109);
  (0xEB9,0x7991); (0xEBA,0x7999); (0xEBB,0x8FBB); (0xEBC,0x7A06); (0xEBD,0x8FBC); (0xEBE,0x4167); (0xEBF,0x7A91); (0xEC0,0x41B2);
  (0xEC1,0x7ABC); (0xEC2,0x8279); (0xEC3,0x41C4); (0xEC4,0x7ACF); (0xEC5,0x7ADB); (0xEC6,0x41CF); (0xEC7,0x4E21); (0xEC8,0x7B62);
  (0xEC9,0x7B6C); (0xECA,0x7B7B); (0xECB,0x7C12); (0xECC,0x7C1B); (0xECD,0x4260); (0xECE,0x427A); (0xECF,0x7C7B); (0xED0,0x7C9C);
  (0xED1,0x428C); (0xED2,0x7CB8); (0xED3,0x4294); (0xED4,0x7CED); (0xED5,0x8F93); (0xED6,0x70C0); (0xED7,0x20CCF); (0xED8,0x7DCF);
  (0xED9,0x7DD4); (0xEDA,0x7DD0); (0xEDB,0x7DFD); (0xEDC,0x7FAE); (0xEDD,0x7FB4); (0xEDE,0x729F); (0xEDF,0x4397); (0xEE0,0x8020);
  (0xEE1,0x8025); (0xEE2,0x7B39); (0xEE3,0x802E); (0xEE4,0x8031); (0xEE5,0x8054); (0xEE6,0x3DCC); (0xEE7,0x57B4); (0xEE8,0x70A0);
  (0xEE9,0x80B7); (0xEEA,0x80E9); (0xEEB,0x43ED); (0xEEC,0x810C); (0xEED,0x732A); (0xEEE,0x810E); (0xEEF,0x8112); (0xEF0,0x7560);
  (0xEF1,0x8114); (0xEF2,0x4401); (0xEF3,0x3B39); (0xEF4,0x8156); (0xEF5,0x8159); (0xEF6,0x815A); (0xEF7,0x4413); (0xEF8,0x583A);
  (0xEF9,0x817C); (0xEFA,0x8184); (0xEFB,0x4425); (0xEFC,0x8193); (0xEFD,0x442D); (0xEFE,0x81A5); (0xEFF,0x57EF); (0xF00,0x81C1);
  (0xF01,0x81E4); (0xF02,0x8254); (0xF03,0x448F); (0xF04,0x82A6); (0xF05,0x8276); (0xF06,0x82CA); (0xF07,0x82D8); (0xF08,0x82FF);
  (0xF09,0x44B0); (0xF0A,0x8357); (0xF0B,0x9669); (0xF0C,0x698A); (0xF0D,0x8405); (0xF0E,0x70F5); (0xF0F,0x8464); (0xF10,0x60E3);
  (0xF11,0x8488); (0xF12,0x4504); (0xF13,0x84BE); (0xF14,0x84E1); (0xF15,0x84F8); (0xF16,0x8510); (0xF17,0x8538); (0xF18,0x8552);
  (0xF19,0x453B); (0xF1A,0x856F); (0xF1B,0x8570); (0xF1C,0x85E0); (0xF1D,0x4577); (0xF1E,0x8672); (0xF1F,0x8692); (0xF20,0x86B2);
  (0xF21,0x86EF); (0xF22,0x9645); (0xF23,0x878B); (0xF24,0x4606); (0xF25,0x4617); (0xF26,0x88AE); (0xF27,0x88FF); (0xF28,0x8924);
  (0xF29,0x8947); (0xF2A,0x8991); (0xF2B,0x27967); (0xF2C,0x8A29); (0xF2D,0x8A38); (0xF2E,0x8A94); (0xF2F,0x8AB4); (0xF30,0x8C51);
  (0xF31,0x8CD4); (0xF32,0x8CF2); (0xF33,0x8D1C); (0xF34,0x4798); (0xF35,0x585F); (0xF36,0x8DC3); (0xF37,0x47ED); (0xF38,0x4EEE);
  (0xF39,0x8E3A); (0xF3A,0x55D8); (0xF3B,0x5754); (0xF3C,0x8E71); (0xF3D,0x55F5); (0xF3E,0x8EB0); (0xF3F,0x4837); (0xF40,0x8ECE);
  (0xF41,0x8EE2); (0xF42,0x8EE4); (0xF43,0x8EED); (0xF44,0x8EF2); (0xF45,0x8FB7); (0xF46,0x8FC1); (0xF47,0x8FCA); (0xF48,0x8FCC)
].
(* encoding_tables/whatwg/index-big5.txt (pointer, code point), entries 2816..3071 *)
Definition big5_index_11 : list (N * N) := [
  (0xF49,0x9033); (0xF4A,0x99C4); (0xF4B,0x48AD); (0xF4C,0x98E0); (0xF4D,0x9213); (0xF4E,0x491E); (0xF4F,0x9228); (0xF50,0x9258);
  (0xF51,0x926B); (0xF52,0x92B1); (0xF53,0x92AE); (0xF54,0x92BF); (0xF55,0x92E3); (0xF56,0x92EB); (0xF57,0x92F3); (0xF58,0x92F4);
  (0xF59,0x92FD); (0xF5A,0x9343); (0xF5B,0x9384); (0xF5C,0x93AD); (0xF5D,0x4945); (0xF5E,0x4951); (0xF5F,0x9EBF); (0xF60,0x9417);
  (0xF61,0x5301); (0xF62,0x941D); (0xF63,0x942D); (0xF64,0x943E); (0xF65,0x496A); (0xF66,0x9454); (0xF67,0x9479); (0xF68,0x952D);
  (0xF69,0x95A2); (0xF6A,0x49A7); (0xF6B,0x95F4); (0xF6C,0x9633); (0xF6D,0x49E5); (0xF6E,0x67A0); (0xF6F,0x4A24); (0xF70,0x9740);
  (0xF71,0x4A35); (0xF72,0x97B2); (0xF73,0x97C2); (0xF74,0x5654); (0xF75,0x4AE4); (0xF76,0x60E8); (0xF77,0x98B9); (0xF78,0x4B19);
  (0xF79,0x98F1); (0xF7A,0x5844); (0xF7B,0x990E); (0xF7C,0x9919); (0xF7D,0x51B4); (0xF7E,0x991C); (0xF7F,0x9937); (0xF80,0x9942);
  (0xF81,0x995D); (0xF82,0x9962); (0xF83,0x4B70); (0xF84,0x99C5); (0xF85,0x4B9D); (0xF86,0x9A3C); (0xF87,0x9B0F); (0xF88,0x7A83);
  (0xF89,0x9B69); (0xF8A,0x9B81); (0xF8B,0x9BDD); (0xF8C,0x9BF1); (0xF8D,0x9BF4); (0xF8E,0x4C6D); (0xF8F,0x9C20); (0xF90,0x376F);
  (0xF91,0x21BC2); (0xF92,0x9D49); (0xF93,0x9C3A); (0xF94,0x9EFE); (0xF95,0x5650); (0xF96,0x9D93); (0xF97,0x9DBD); (0xF98,0x9DC0);
  (0xF99,0x9DFC); (0xF9A,0x94F6); (0xF9B,0x8FB6); (0xF9C,0x9E7B); (0xF9D,0x9EAC); (0xF9E,0x9EB1); (0xF9F,0x9EBD); (0xFA0,0x9EC6);
  (0xFA1,0x94DC); (0xFA2,0x9EE2); (0xFA3,0x9EF1); (0xFA4,0x9EF8); (0xFA5,0x7AC8); (0xFA6,0x9F44); (0xFA7,0x20094); (0xFA8,0x202B7);
  (0xFA9,0x203A0); (0xFAA,0x691A); (0xFAB,0x94C3); (0xFAC,0x59AC); (0xFAD,0x204D7); (0xFAE,0x5840); (0xFAF,0x94C1); (0xFB0,0x37B9);
  (0xFB1,0x205D5); (0xFB2,0x20615); (0xFB3,0x20676); (0xFB4,0x216BA); (0xFB5,0x5757); (0xFB6,0x7173); (0xFB7,0x20AC2); (0xFB8,0x20ACD);
  (0xFB9,0x20BBF); (0xFBA,0x546A); (0xFBB,0x2F83B); (0xFBC,0x20BCB); (0xFBD,0x549E); (0xFBE,0x20BFB); (0xFBF,0x20C3B); (0xFC0,0x20C53);
  (0xFC1,0x20C65); (0xFC2,0x20C7C); (0xFC3,0x60E7); (0xFC4,0x20C8D); (0xFC5,0x567A); (0xFC6,0x20CB5); (0xFC7,0x20CDD); (0xFC8,0x20CED);
  (0xFC9,0x20D6F); (0xFCA,0x20DB2); (0xFCB,0x20DC8); (0xFCC,0x6955); (0xFCD,0x9C2F); (0xFCE,0x87A5); (0xFCF,0x20E04); (0xFD0,0x20E0E);
  (0xFD1,0x20ED7); (0xFD2,0x20F90); (0xFD3,0x20F2D); (0xFD4,0x20E73); (0xFD5,0x5C20); (0xFD6,0x20FBC); (0xFD7,0x5E0B); (0xFD8,0x2105C);
  (0xFD9,0x2104F); (0xFDA,0x21076); (0xFDB,0x671E); (0xFDC,0x2107B); (0xFDD,0x21088); (0xFDE,0x21096); (0xFDF,0x3647); (0xFE0,0x210BF);
  (0xFE1,0x210D3); (0xFE2,0x2112F); (0xFE3,0x2113B); (0xFE4,0x5364); (0xFE5,0x84AD); (0xFE6,0x212E3); (0xFE7,0x21375); (0xFE8,0x21336);
  (0xFE9,0x8B81); (0xFEA,0x21577); (0xFEB,0x21619); (0xFEC,0x217C3); (0xFED,0x217C7); (0xFEE,0x4E78); (0xFEF,0x70BB); (0xFF0,0x2182D);
  (0xFF1,0x2196A); (0xFF2,0x21A2D); (0xFF3,0x21A45); (0xFF4,0x21C2A); (0xFF5,0x21C70); (0xFF6,0x21CAC); (0xFF7,0x21EC8); (0xFF8,0x62C3);
  (0xFF9,0x21ED5); (0xFFA,0x21F15); (0xFFB,0x7198); (0xFFC,0x6855); (0xFFD,0x22045); (0xFFE,0x69E9); (0xFFF,0x36C8); (0x1000,0x2227C);
  (0x1001,0x223D7); (0x1002,0x223FA); (0x1003,0x2272A); (0x1004,0x22871); (0x1005,0x2294F); (0x1006,0x82FD); (0x1007,0x22967); (0x1008,0x22993);
  (0x1009,0x22AD5); (0x100A,0x89A5); (0x100B,0x22AE8); (0x100C,0x8FA0); (0x100D,0x22B0E); (0x100E,0x97B8); (0x100F,0x22B3F); (0x1010,0x9847);
  (0x1011,0x9ABD); (0x1012,0x22C4C); (0x1014,0x22C88); (0x1015,0x22CB7); (0x1016,0x25BE8); (0x1017,0x22D08); (0x1018,0x22D12); (0x1019,0x22DB7);
  (0x101A,0x22D95); (0x101B,0x22E42); (0x101C,0x22F74); (0x101D,0x22FCC); (0x101E,0x23033); (0x101F,0x23066); (0x1020,0x2331F); (0x1021,0x233DE);
  (0x1022,0x5FB1); (0x1023,0x6648); (0x1024,0x66BF); (0x1025,0x27A79); (0x1026,0x23567); (0x1027,0x235F3); (0x1028,0x7201); (0x1029,0x249BA);
  (0x102A,0x77D7); (0x102B,0x2361A); (0x102C,0x23716); (0x102D,0x7E87); (0x102E,0x20346); (0x102F,0x58B5); (0x1030,0x670E); (0x1031,0x6918);
  (0x1032,0x23AA7); (0x1033,0x27657); (0x1034,0x25FE2); (0x1035,0x23E11); (0x1036,0x23EB9); (0x1037,0x275FE); (0x1038,0x2209A); (0x1039,0x48D0);
  (0x103A,0x4AB8); (0x103B,0x24119); (0x103C,0x28A9A); (0x103D,0x242EE); (0x103E,0x2430D); (0x103F,0x2403B); (0x1040,0x24334); (0x1041,0x24396);
  (0x1042,0x24A45); (0x1043,0x205CA); (0x1044,0x51D2); (0x1045,0x20611); (0x1046,0x599F); (0x1047,0x21EA8); (0x1048,0x3BBE); (0x1049,0x23CFF)
].
(* encoding_tables/whatwg/index-big5.txt (pointer, code point), entries 3072..3327 *)
Definition big5_index_12 : list (N * N) := [
  (0x104A,0x24404); (0x104B,0x244D6); (0x104C,0x5788); (0x104D,0x24674); (0x104E,0x399B); (0x104F,0x2472F); (0x1050,0x285E8); (0x1051,0x299C9);
  (0x1052,0x3762); (0x1053,0x221C3); (0x1054,0x8B5E); (0x1055,0x28B4E); (0x1056,0x99D6); (0x1057,0x24812); (0x1058,0x248FB); (0x1059,0x24A15);
  (0x105A,0x7209); (0x105B,0x24AC0); (0x105C,0x20C78); (0x105D,0x5965); (0x105E,0x24EA5); (0x105F,0x24F86); (0x1060,0x20779); (0x1061,0x8EDA);
  (0x1062,0x2502C); (0x1063,0x528F); (0x1064,0x573F); (0x1065,0x7171); (0x1066,0x25299); (0x1067,0x25419); (0x1068,0x23F4A); (0x1069,0x24AA7);
  (0x106A,0x55BC); (0x106B,0x25446); (0x106C,0x2546E); (0x106D,0x26B52); (0x106E,0x91D4); (0x106F,0x3473); (0x1070,0x2553F); (0x1071,0x27632);
  (0x1072,0x2555E); (0x1073,0x4718); (0x1074,0x25562); (0x1075,0x25566); (0x1076,0x257C7); (0x1077,0x2493F); (0x1078,0x2585D); (0x1079,0x5066);
  (0x107A,0x34FB); (0x107B,0x233CC); (0x107C,0x60DE); (0x107D,0x25903); (0x107E,0x477C); (0x107F,0x28948); (0x1080,0x25AAE); (0x1081,0x25B89);
  (0x1082,0x25C06); (0x1083,0x21D90); (0x1084,0x57A1); (0x1085,0x7151); (0x1086,0x6FB6); (0x1087,0x26102); (0x1088,0x27C12); (0x1089,0x9056);
  (0x108A,0x261B2); (0x108B,0x24F9A); (0x108C,0x8B62); (0x108D,0x26402); (0x108E,0x2644A); (0x108F,0x5D5B); (0x1090,0x26BF7); (0x1091,0x8F36);
  (0x1092,0x26484); (0x1093,0x2191C); (0x1094,0x8AEA); (0x1095,0x249F6); (0x1096,0x26488); (0x1097,0x23FEF); (0x1098,0x26512); (0x1099,0x4BC0);
  (0x109A,0x265BF); (0x109B,0x266B5); (0x109C,0x2271B); (0x109D,0x9465); (0x109E,0x257E1); (0x109F,0x6195); (0x10A0,0x5A27); (0x10A1,0x2F8CD);
  (0x10A2,0x4FBB); (0x10A3,0x56B9); (0x10A4,0x24521); (0x10A5,0x266FC); (0x10A6,0x4E6A); (0x10A7,0x24934); (0x10A8,0x9656); (0x10A9,0x6D8F);
  (0x10AA,0x26CBD); (0x10AB,0x3618); (0x10AC,0x8977); (0x10AD,0x26799); (0x10AE,0x2686E); (0x10AF,0x26411); (0x10B0,0x2685E); (0x10B1,0x71DF);
  (0x10B2,0x268C7); (0x10B3,0x7B42); (0x10B4,0x290C0); (0x10B5,0x20A11); (0x10B6,0x26926); (0x10B7,0x9104); (0x10B8,0x26939); (0x10B9,0x7A45);
  (0x10BA,0x9DF0); (0x10BB,0x269FA); (0x10BC,0x9A26); (0x10BD,0x26A2D); (0x10BE,0x365F); (0x10BF,0x26469); (0x10C0,0x20021); (0x10C1,0x7983);
  (0x10C2,0x26A34); (0x10C3,0x26B5B); (0x10C4,0x5D2C); (0x10C5,0x23519); (0x10C6,0x83CF); (0x10C7,0x26B9D); (0x10C8,0x46D0); (0x10C9,0x26CA4);
  (0x10CA,0x753B); (0x10CB,0x8865); (0x10CC,0x26DAE); (0x10CD,0x58B6); (0x10CE,0x371C); (0x10CF,0x2258D); (0x10D0,0x2704B); (0x10D1,0x271CD);
  (0x10D2,0x3C54); (0x10D3,0x27280); (0x10D4,0x27285); (0x10D5,0x9281); (0x10D6,0x2217A); (0x10D7,0x2728B); (0x10D8,0x9330); (0x10D9,0x272E6);
  (0x10DA,0x249D0); (0x10DB,0x6C39); (0x10DC,0x949F); (0x10DD,0x27450); (0x10DE,0x20EF8); (0x10DF,0x8827); (0x10E0,0x88F5); (0x10E1,0x22926);
  (0x10E2,0x28473); (0x10E3,0x217B1); (0x10E4,0x6EB8); (0x10E5,0x24A2A); (0x10E6,0x21820); (0x10E7,0x39A4); (0x10E8,0x36B9); (0x10E9,0x5C10);
  (0x10EA,0x79E3); (0x10EB,0x453F); (0x10EC,0x66B6); (0x10ED,0x29CAD); (0x10EE,0x298A4); (0x10EF,0x8943); (0x10F0,0x277CC); (0x10F1,0x27858);
  (0x10F2,0x56D6); (0x10F3,0x40DF); (0x10F4,0x2160A); (0x10F5,0x39A1); (0x10F6,0x2372F); (0x10F7,0x280E8); (0x10F8,0x213C5); (0x10F9,0x71AD);
  (0x10FA,0x8366); (0x10FB,0x279DD); (0x10FC,0x291A8); (0x10FD,0x5A67); (0x10FE,0x4CB7); (0x10FF,0x270AF); (0x1100,0x289AB); (0x1101,0x279FD);
  (0x1102,0x27A0A); (0x1103,0x27B0B); (0x1104,0x27D66); (0x1105,0x2417A); (0x1106,0x7B43); (0x1107,0x797E); (0x1108,0x28009); (0x1109,0x6FB5);
  (0x110A,0x2A2DF); (0x110B,0x6A03); (0x110C,0x28318); (0x110D,0x53A2); (0x110E,0x26E07); (0x110F,0x93BF); (0x1110,0x6836); (0x1111,0x975D);
  (0x1112,0x2816F); (0x1113,0x28023); (0x1114,0x269B5); (0x1115,0x213ED); (0x1116,0x2322F); (0x1117,0x28048); (0x1118,0x5D85); (0x1119,0x28C30);
  (0x111A,0x28083); (0x111B,0x5715); (0x111C,0x9823); (0x111D,0x28949); (0x111E,0x5DAB); (0x111F,0x24988); (0x1120,0x65BE); (0x1121,0x69D5);
  (0x1122,0x53D2); (0x1123,0x24AA5); (0x1124,0x23F81); (0x1125,0x3C11); (0x1126,0x6736); (0x1127,0x28090); (0x1128,0x280F4); (0x1129,0x2812E);
  (0x112A,0x21FA1); (0x112B,0x2814F); (0x112C,0x28189); (0x112D,0x281AF); (0x112E,0x2821A); (0x112F,0x28306); (0x1130,0x2832F); (0x1131,0x2838A);
  (0x1132,0x35CA); (0x1133,0x28468); (0x1134,0x286AA); (0x1135,0x48FA); (0x1136,0x63E6); (0x1137,0x28956); (0x1138,0x7808); (0x1139,0x9255);
  (0x113A,0x289B8); (0x113B,0x43F2); (0x113C,0x289E7); (0x113D,0x43DF); (0x113E,0x289E8); (0x113F,0x28B46); (0x1140,0x28BD4); (0x1141,0x59F8);
  (0x1142,0x28C09); (0x1143,0x8F0B); (0x1144,0x28FC5); (0x1145,0x290EC); (0x1146,0x7B51); (0x1147,0x29110); (0x1148,0x2913C); (0x1149,0x3DF7)
].
(* encoding_tables/whatwg/index-big5.txt (pointer, code point), entries 3328..3583 *)
Definition big5_index_13 : list (N * N) := [
  (0x114A,0x2915E); (0x114B,0x24ACA); (0x114C,0x8FD0); (0x114D,0x728F); (0x114E,0x568B); (0x114F,0x294E7); (0x1150,0x295E9); (0x1151,0x295B0);
  (0x1152,0x295B8); (0x1153,0x29732); (0x1154,0x298D1); (0x1155,0x29949); (0x1156,0x2996A); (0x1157,0x299C3); (0x1158,0x29A28); (0x1159,0x29B0E);
  (0x115A,0x29D5A); (0x115B,0x29D9B); (0x115C,0x7E9F); (0x115D,0x29EF8); (0x115E,0x29F23); (0x115F,0x4CA4); (0x1160,0x9547); (0x1161,0x2A293);
  (0x1162,0x71A2); (0x1163,0x2A2FF); (0x1164,0x4D91); (0x1165,0x9012); (0x1166,0x2A5CB); (0x1167,0x4D9C); (0x1168,0x20C9C); (0x1169,0x8FBE);
  (0x116A,0x55C1); (0x116B,0x8FBA); (0x116C,0x224B0); (0x116D,0x8FB9); (0x116E,0x24A93); (0x116F,0x4509); (0x1170,0x7E7F); (0x1171,0x6F56);
  (0x1172,0x6AB1); (0x1173,0x4EEA); (0x1174,0x34E4); (0x1175,0x28B2C); (0x1176,0x2789D); (0x1177,0x373A); (0x1178,0x8E80); (0x1179,0x217F5);
  (0x117A,0x28024); (0x117B,0x28B6C); (0x117C,0x28B99); (0x117D,0x27A3E); (0x117E,0x266AF); (0x117F,0x3DEB); (0x1180,0x27655); (0x1181,0x23CB7);
  (0x1182,0x25635); (0x1183,0x25956); (0x1184,0x4E9A); (0x1185,0x25E81); (0x1186,0x26258); (0x1187,0x56BF); (0x1188,0x20E6D); (0x1189,0x8E0E);
  (0x118A,0x5B6D); (0x118B,0x23E88); (0x118C,0x24C9E); (0x118D,0x63DE); (0x118E,0x62D0); (0x118F,0x217F6); (0x1190,0x2187B); (0x1191,0x6530);
  (0x1192,0x562D); (0x1193,0x25C4A); (0x1194,0x541A); (0x1195,0x25311); (0x1196,0x3DC6); (0x1197,0x29D98); (0x1198,0x4C7D); (0x1199,0x5622);
  (0x119A,0x561E); (0x119B,0x7F49); (0x119C,0x25ED8); (0x119D,0x5975); (0x119E,0x23D40); (0x119F,0x8770); (0x11A0,0x4E1C); (0x11A1,0x20FEA);
  (0x11A2,0x20D49); (0x11A3,0x236BA); (0x11A4,0x8117); (0x11A5,0x9D5E); (0x11A6,0x8D18); (0x11A7,0x763B); (0x11A8,0x9C45); (0x11A9,0x764E);
  (0x11AA,0x77B9); (0x11AB,0x9345); (0x11AC,0x5432); (0x11AD,0x8148); (0x11AE,0x82F7); (0x11AF,0x5625); (0x11B0,0x8132); (0x11B1,0x8418);
  (0x11B2,0x80BD); (0x11B3,0x55EA); (0x11B4,0x7962); (0x11B5,0x5643); (0x11B6,0x5416); (0x11B7,0x20E9D); (0x11B8,0x35CE); (0x11B9,0x5605);
  (0x11BA,0x55F1); (0x11BB,0x66F1); (0x11BC,0x282E2); (0x11BD,0x362D); (0x11BE,0x7534); (0x11BF,0x55F0); (0x11C0,0x55BA); (0x11C1,0x5497);
  (0x11C2,0x5572); (0x11C3,0x20C41); (0x11C4,0x20C96); (0x11C5,0x5ED0); (0x11C6,0x25148); (0x11C7,0x20E76); (0x11C8,0x22C62); (0x11C9,0x20EA2);
  (0x11CA,0x9EAB); (0x11CB,0x7D5A); (0x11CC,0x55DE); (0x11CD,0x21075); (0x11CE,0x629D); (0x11CF,0x976D); (0x11D0,0x5494); (0x11D1,0x8CCD);
  (0x11D2,0x71F6); (0x11D3,0x9176); (0x11D4,0x63FC); (0x11D5,0x63B9); (0x11D6,0x63FE); (0x11D7,0x5569); (0x11D8,0x22B43); (0x11D9,0x9C72);
  (0x11DA,0x22EB3); (0x11DB,0x519A); (0x11DC,0x34DF); (0x11DD,0x20DA7); (0x11DE,0x51A7); (0x11DF,0x544D); (0x11E0,0x551E); (0x11E1,0x5513);
  (0x11E2,0x7666); (0x11E3,0x8E2D); (0x11E4,0x2688A); (0x11E5,0x75B1); (0x11E6,0x80B6); (0x11E7,0x8804); (0x11E8,0x8786); (0x11E9,0x88C7);
  (0x11EA,0x81B6); (0x11EB,0x841C); (0x11EC,0x210C1); (0x11ED,0x44EC); (0x11EE,0x7304); (0x11EF,0x24706); (0x11F0,0x5B90); (0x11F1,0x830B);
  (0x11F2,0x26893); (0x11F3,0x567B); (0x11F4,0x226F4); (0x11F5,0x27D2F); (0x11F6,0x241A3); (0x11F7,0x27D73); (0x11F8,0x26ED0); (0x11F9,0x272B6);
  (0x11FA,0x9170); (0x11FB,0x211D9); (0x11FC,0x9208); (0x11FD,0x23CFC); (0x11FE,0x2A6A9); (0x11FF,0x20EAC); (0x1200,0x20EF9); (0x1201,0x7266);
  (0x1202,0x21CA2); (0x1203,0x474E); (0x1204,0x24FC2); (0x1205,0x27FF9); (0x1206,0x20FEB); (0x1207,0x40FA); (0x1208,0x9C5D); (0x1209,0x651F);
  (0x120A,0x22DA0); (0x120B,0x48F3); (0x120C,0x247E0); (0x120D,0x29D7C); (0x120E,0x20FEC); (0x120F,0x20E0A); (0x1210,0x6062); (0x1211,0x275A3);
  (0x1212,0x20FED); (0x1214,0x26048); (0x1215,0x21187); (0x1216,0x71A3); (0x1217,0x7E8E); (0x1218,0x9D50); (0x1219,0x4E1A); (0x121A,0x4E04);
  (0x121B,0x3577); (0x121C,0x5B0D); (0x121D,0x6CB2); (0x121E,0x5367); (0x121F,0x36AC); (0x1220,0x39DC); (0x1221,0x537D); (0x1222,0x36A5);
  (0x1223,0x24618); (0x1224,0x589A); (0x1225,0x24B6E); (0x1226,0x822D); (0x1227,0x544B); (0x1228,0x57AA); (0x1229,0x25A95); (0x122A,0x20979);
  (0x122C,0x3A52); (0x122D,0x22465); (0x122E,0x7374); (0x122F,0x29EAC); (0x1230,0x4D09); (0x1231,0x9BED); (0x1232,0x23CFE); (0x1233,0x29F30);
  (0x1234,0x4C5B); (0x1235,0x24FA9); (0x1236,0x2959E); (0x1237,0x29FDE); (0x1238,0x845C); (0x1239,0x23DB6); (0x123A,0x272B2); (0x123B,0x267B3);
  (0x123C,0x23720); (0x123D,0x632E); (0x123E,0x7D25); (0x123F,0x23EF7); (0x1240,0x23E2C); (0x1241,0x3A2A); (0x1242,0x9008); (0x1243,0x52CC);
  (0x1244,0x3E74); (0x1245,0x367A); (0x1246,0x45E9); (0x1247,0x2048E); (0x1248,0x7640); (0x1249,0x5AF0); (0x124A,0x20EB6); (0x124B,0x787A)
].
(* encoding_tables/whatwg/index-big5.txt (pointer, code point), entries 3584..3839 *)
Definition big5_index_14 : list (N * N) := [
  (0x124C,0x27F2E); (0x124D,0x58A7); (0x124E,0x40BF); (0x124F,0x567C); (0x1250,0x9B8B); (0x1251,0x5D74); (0x1252,0x7654); (0x1253,0x2A434);
  (0x1254,0x9E85); (0x1255,0x4CE1); (0x1256,0x75F9); (0x1257,0x37FB); (0x1258,0x6119); (0x1259,0x230DA); (0x125A,0x243F2); (0x125C,0x565D);
  (0x125D,0x212A9); (0x125E,0x57A7); (0x125F,0x24963); (0x1260,0x29E06); (0x1261,0x5234); (0x1262,0x270AE); (0x1263,0x35AD); (0x1264,0x6C4A);
  (0x1265,0x9D7C); (0x1266,0x7C56); (0x1267,0x9B39); (0x1268,0x57DE); (0x1269,0x2176C); (0x126A,0x5C53); (0x126B,0x64D3); (0x126C,0x294D0);
  (0x126D,0x26335); (0x126E,0x27164); (0x126F,0x86AD); (0x1270,0x20D28); (0x1271,0x26D22); (0x1272,0x24AE2); (0x1273,0x20D71); (0x1275,0x51FE);
  (0x1276,0x21F0F); (0x1277,0x5D8E); (0x1278,0x9703); (0x1279,0x21DD1); (0x127A,0x9E81); (0x127B,0x904C); (0x127C,0x7B1F); (0x127D,0x9B02);
  (0x127E,0x5CD1); (0x127F,0x7BA3); (0x1280,0x6268); (0x1281,0x6335); (0x1282,0x9AFF); (0x1283,0x7BCF); (0x1284,0x9B2A); (0x1285,0x7C7E);
  (0x1286,0x9B2E); (0x1287,0x7C42); (0x1288,0x7C86); (0x1289,0x9C15); (0x128A,0x7BFC); (0x128B,0x9B09); (0x128C,0x9F17); (0x128D,0x9C1B);
  (0x128E,0x2493E); (0x128F,0x9F5A); (0x1290,0x5573); (0x1291,0x5BC3); (0x1292,0x4FFD); (0x1293,0x9E98); (0x1294,0x4FF2); (0x1295,0x5260);
  (0x1296,0x3E06); (0x1297,0x52D1); (0x1298,0x5767); (0x1299,0x5056); (0x129A,0x59B7); (0x129B,0x5E12); (0x129C,0x97C8); (0x129D,0x9DAB);
  (0x129E,0x8F5C); (0x129F,0x5469); (0x12A0,0x97B4); (0x12A1,0x9940); (0x12A2,0x97BA); (0x12A3,0x532C); (0x12A4,0x6130); (0x12A5,0x692C);
  (0x12A6,0x53DA); (0x12A7,0x9C0A); (0x12A8,0x9D02); (0x12A9,0x4C3B); (0x12AA,0x9641); (0x12AB,0x6980); (0x12AC,0x50A6); (0x12AD,0x7546);
  (0x12AE,0x2176D); (0x12AF,0x99DA); (0x12B0,0x5273); (0x12B2,0x9159); (0x12B3,0x9681); (0x12B4,0x915C); (0x12B6,0x9151); (0x12B7,0x28E97);
  (0x12B8,0x637F); (0x12B9,0x26D23); (0x12BA,0x6ACA); (0x12BB,0x5611); (0x12BC,0x918E); (0x12BD,0x757A); (0x12BE,0x6285); (0x12BF,0x203FC);
  (0x12C0,0x734F); (0x12C1,0x7C70); (0x12C2,0x25C21); (0x12C3,0x23CFD); (0x12C5,0x24919); (0x12C6,0x76D6); (0x12C7,0x9B9D); (0x12C8,0x4E2A);
  (0x12C9,0x20CD4); (0x12CA,0x83BE); (0x12CB,0x8842); (0x12CD,0x5C4A); (0x12CE,0x69C0); (0x12CF,0x50ED); (0x12D0,0x577A); (0x12D1,0x521F);
  (0x12D2,0x5DF5); (0x12D3,0x4ECE); (0x12D4,0x6C31); (0x12D5,0x201F2); (0x12D6,0x4F39); (0x12D7,0x549C); (0x12D8,0x54DA); (0x12D9,0x529A);
  (0x12DA,0x8D82); (0x12DB,0x35FE); (0x12DC,0x5F0C); (0x12DD,0x35F3); (0x12DF,0x6B52); (0x12E0,0x917C); (0x12E1,0x9FA5); (0x12E2,0x9B97);
  (0x12E3,0x982E); (0x12E4,0x98B4); (0x12E5,0x9ABA); (0x12E6,0x9EA8); (0x12E7,0x9E84); (0x12E8,0x717A); (0x12E9,0x7B14); (0x12EB,0x6BFA);
  (0x12EC,0x8818); (0x12ED,0x7F78); (0x12EF,0x5620); (0x12F0,0x2A64A); (0x12F1,0x8E77); (0x12F2,0x9F53); (0x12F4,0x8DD4); (0x12F5,0x8E4F);
  (0x12F6,0x9E1C); (0x12F7,0x8E01); (0x12F8,0x6282); (0x12F9,0x2837D); (0x12FA,0x8E28); (0x12FB,0x8E75); (0x12FC,0x7AD3); (0x12FD,0x24A77);
  (0x12FE,0x7A3E); (0x12FF,0x78D8); (0x1300,0x6CEA); (0x1301,0x8A67); (0x1302,0x7607); (0x1303,0x28A5A); (0x1304,0x9F26); (0x1305,0x6CCE);
  (0x1306,0x87D6); (0x1307,0x75C3); (0x1308,0x2A2B2); (0x1309,0x7853); (0x130A,0x2F840); (0x130B,0x8D0C); (0x130C,0x72E2); (0x130D,0x7371);
  (0x130E,0x8B2D); (0x130F,0x7302); (0x1310,0x74F1); (0x1311,0x8CEB); (0x1312,0x24ABB); (0x1313,0x862F); (0x1314,0x5FBA); (0x1315,0x88A0);
  (0x1316,0x44B7); (0x1318,0x2183B); (0x1319,0x26E05); (0x131B,0x8A7E); (0x131C,0x2251B); (0x131E,0x60FD); (0x131F,0x7667); (0x1320,0x9AD7);
  (0x1321,0x9D44); (0x1322,0x936E); (0x1323,0x9B8F); (0x1324,0x87F5); (0x1326,0x880F); (0x1327,0x8CF7); (0x1328,0x732C); (0x1329,0x9721);
  (0x132A,0x9BB0); (0x132B,0x35D6); (0x132C,0x72B2); (0x132D,0x4C07); (0x132E,0x7C51); (0x132F,0x994A); (0x1330,0x26159); (0x1331,0x6159);
  (0x1332,0x4C04); (0x1333,0x9E96); (0x1334,0x617D); (0x1336,0x575F); (0x1337,0x616F); (0x1338,0x62A6); (0x1339,0x6239); (0x133A,0x62CE);
  (0x133B,0x3A5C); (0x133C,0x61E2); (0x133D,0x53AA); (0x133E,0x233F5); (0x133F,0x6364); (0x1340,0x6802); (0x1341,0x35D2); (0x1342,0x5D57);
  (0x1343,0x28BC2); (0x1344,0x8FDA); (0x1345,0x28E39); (0x1347,0x50D9); (0x1348,0x21D46); (0x1349,0x7906); (0x134A,0x5332); (0x134B,0x9638);
  (0x134C,0x20F3B); (0x134D,0x4065); (0x134F,0x77FE); (0x1351,0x7CC2); (0x1352,0x25F1A); (0x1353,0x7CDA); (0x1354,0x7A2D); (0x1355,0x8066);
  (0x1356,0x8063); (0x1357,0x7D4D); (0x1358,0x7505); (0x1359,0x74F2); (0x135A,0x8994); (0x135B,0x821A); (0x135C,0x670C); (0x135D,0x8062)
].
(* encoding_tables/whatwg/index-big5.txt (pointer, code point), entries 3840..4095 *)
Definition big5_index_15 : list (N * N) := [
  (0x135E,0x27486); (0x135F,0x805B); (0x1360,0x74F0); (0x1361,0x8103); (0x1362,0x7724); (0x1363,0x8989); (0x1364,0x267CC); (0x1365,0x7553);
  (0x1366,0x26ED1); (0x1367,0x87A9); (0x1368,0x87CE); (0x1369,0x81C8); (0x136A,0x878C); (0x136B,0x8A49); (0x136C,0x8CAD); (0x136D,0x8B43);
  (0x136E,0x772B); (0x136F,0x74F8); (0x1370,0x84DA); (0x1371,0x3635); (0x1372,0x69B2); (0x1373,0x8DA6); (0x1375,0x89A9); (0x1376,0x7468);
  (0x1377,0x6DB9); (0x1378,0x87C1); (0x1379,0x24011); (0x137A,0x74E7); (0x137B,0x3DDB); (0x137C,0x7176); (0x137D,0x60A4); (0x137E,0x619C);
  (0x137F,0x3CD1); (0x1380,0x7162); (0x1381,0x6077); (0x1383,0x7F71); (0x1384,0x28B2D); (0x1385,0x7250); (0x1386,0x60E9); (0x1387,0x4B7E);
  (0x1388,0x5220); (0x1389,0x3C18); (0x138A,0x23CC7); (0x138B,0x25ED7); (0x138C,0x27656); (0x138D,0x25531); (0x138E,0x21944); (0x138F,0x212FE);
  (0x1390,0x29903); (0x1391,0x26DDC); (0x1392,0x270AD); (0x1393,0x5CC1); (0x1394,0x261AD); (0x1395,0x28A0F); (0x1396,0x23677); (0x1397,0x200EE);
  (0x1398,0x26846); (0x1399,0x24F0E); (0x139A,0x4562); (0x139B,0x5B1F); (0x139C,0x2634C); (0x139D,0x9F50); (0x139E,0x9EA6); (0x139F,0x2626B);
  (0x13A0,0x3000); (0x13A1,0xFF0C); (0x13A2,0x3001); (0x13A3,0x3002); (0x13A4,0xFF0E); (0x13A5,0x2027); (0x13A6,0xFF1B); (0x13A7,0xFF1A);
  (0x13A8,0xFF1F); (0x13A9,0xFF01); (0x13AA,0xFE30); (0x13AB,0x2026); (0x13AC,0x2025); (0x13AD,0xFE50); (0x13AE,0xFE51); (0x13AF,0xFE52);
  (0x13B0,0xB7); (0x13B1,0xFE54); (0x13B2,0xFE55); (0x13B3,0xFE56); (0x13B4,0xFE57); (0x13B5,0xFF5C); (0x13B6,0x2013); (0x13B7,0xFE31);
  (0x13B8,0x2014); (0x13B9,0xFE33); (0x13BA,0x2574); (0x13BB,0xFE34); (0x13BC,0xFE4F); (0x13BD,0xFF08); (0x13BE,0xFF09); (0x13BF,0xFE35);
  (0x13C0,0xFE36); (0x13C1,0xFF5B); (0x13C2,0xFF5D); (0x13C3,0xFE37); (0x13C4,0xFE38); (0x13C5,0x3014); (0x13C6,0x3015); (0x13C7,0xFE39);
  (0x13C8,0xFE3A); (0x13C9,0x3010); (0x13CA,0x3011); (0x13CB,0xFE3B); (0x13CC,0xFE3C); (0x13CD,0x300A); (0x13CE,0x300B); (0x13CF,0xFE3D);
  (0x13D0,0xFE3E); (0x13D1,0x3008); (0x13D2,0x3009); (0x13D3,0xFE3F); (0x13D4,0xFE40); (0x13D5,0x300C); (0x13D6,0x300D); (0x13D7,0xFE41);
  (0x13D8,0xFE42); (0x13D9,0x300E); (0x13DA,0x300F); (0x13DB,0xFE43); (0x13DC,0xFE44); (0x13DD,0xFE59); (0x13DE,0xFE5A); (0x13DF,0xFE5B);
  (0x13E0,0xFE5C); (0x13E1,0xFE5D); (0x13E2,0xFE5E); (0x13E3,0x2018); (0x13E4,0x2019); (0x13E5,0x201C); (0x13E6,0x201D); (0x13E7,0x301D);
  (0x13E8,0x301E); (0x13E9,0x2035); (0x13EA,0x2032); (0x13EB,0xFF03); (0x13EC,0xFF06); (0x13ED,0xFF0A); (0x13EE,0x203B); (0x13EF,0xA7);
  (0x13F0,0x3003); (0x13F1,0x25CB); (0x13F2,0x25CF); (0x13F3,0x25B3); (0x13F4,0x25B2); (0x13F5,0x25CE); (0x13F6,0x2606); (0x13F7,0x2605);
  (0x13F8,0x25C7); (0x13F9,0x25C6); (0x13FA,0x25A1); (0x13FB,0x25A0); (0x13FC,0x25BD); (0x13FD,0x25BC); (0x13FE,0x32A3); (0x13FF,0x2105);
  (0x1400,0xAF); (0x1401,0xFFE3); (0x1402,0xFF3F); (0x1403,0x2CD); (0x1404,0xFE49); (0x1405,0xFE4A); (0x1406,0xFE4D); (0x1407,0xFE4E);
  (0x1408,0xFE4B); (0x1409,0xFE4C); (0x140A,0xFE5F); (0x140B,0xFE60); (0x140C,0xFE61); (0x140D,0xFF0B); (0x140E,0xFF0D); (0x140F,0xD7);
  (0x1410,0xF7); (0x1411,0xB1); (0x1412,0x221A); (0x1413,0xFF1C); (0x1414,0xFF1E); (0x1415,0xFF1D); (0x1416,0x2266); (0x1417,0x2267);
  (0x1418,0x2260); (0x1419,0x221E); (0x141A,0x2252); (0x141B,0x2261); (0x141C,0xFE62); (0x141D,0xFE63); (0x141E,0xFE64); (0x141F,0xFE65);
  (0x1420,0xFE66); (0x1421,0xFF5E); (0x1422,0x2229); (0x1423,0x222A); (0x1424,0x22A5); (0x1425,0x2220); (0x1426,0x221F); (0x1427,0x22BF);
  (0x1428,0x33D2); (0x1429,0x33D1); (0x142A,0x222B); (0x142B,0x222E); (0x142C,0x2235); (0x142D,0x2234); (0x142E,0x2640); (0x142F,0x2642);
  (0x1430,0x2295); (0x1431,0x2299); (0x1432,0x2191); (0x1433,0x2193); (0x1434,0x2190); (0x1435,0x2192); (0x1436,0x2196); (0x1437,0x2197);
  (0x1438,0x2199); (0x1439,0x2198); (0x143A,0x2225); (0x143B,0x2223); (0x143C,0xFF0F); (0x143D,0xFF3C); (0x143E,0x2215); (0x143F,0xFE68);
  (0x1440,0xFF04); (0x1441,0xFFE5); (0x1442,0x3012); (0x1443,0xFFE0); (0x1444,0xFFE1); (0x1445,0xFF05); (0x1446,0xFF20); (0x1447,0x2103);
  (0x1448,0x2109); (0x1449,0xFE69); (0x144A,0xFE6A); (0x144B,0xFE6B); (0x144C,0x33D5); (0x144D,0x339C); (0x144E,0x339D); (0x144F,0x339E);
  (0x1450,0x33CE); (0x1451,0x33A1); (0x1452,0x338E); (0x1453,0x338F); (0x1454,0x33C4); (0x1455,0xB0); (0x1456,0x5159); (0x1457,0x515B);
  (0x1458,0x515E); (0x1459,0x515D); (0x145A,0x5161); (0x145B,0x5163); (0x145C,0x55E7); (0x145D,0x74E9); (0x145E,0x7CCE); (0x145F,0x2581)
].
(* encoding_tables/whatwg/index-big5.txt (pointer, code point), entries 4096..4351 *)
Definition big5_index_16 : list (N * N) := [
  (0x1460,0x2582); (0x1461,0x2583); (0x1462,0x2584); (0x1463,0x2585); (0x1464,0x2586); (0x1465,0x2587); (0x1466,0x2588); (0x1467,0x258F);
  (0x1468,0x258E); (0x1469,0x258D); (0x146A,0x258C); (0x146B,0x258B); (0x146C,0x258A); (0x146D,0x2589); (0x146E,0x253C); (0x146F,0x2534);
  (0x1470,0x252C); (0x1471,0x2524); (0x1472,0x251C); (0x1473,0x2594); (0x1474,0x2500); (0x1475,0x2502); (0x1476,0x2595); (0x1477,0x250C);
  (0x1478,0x2510); (0x1479,0x2514); (0x147A,0x2518); (0x147B,0x256D); (0x147C,0x256E); (0x147D,0x2570); (0x147E,0x256F); (0x147F,0x2550);
  (0x1480,0x255E); (0x1481,0x256A); (0x1482,0x2561); (0x1483,0x25E2); (0x1484,0x25E3); (0x1485,0x25E5); (0x1486,0x25E4); (0x1487,0x2571);
  (0x1488,0x2572); (0x1489,0x2573); (0x148A,0xFF10); (0x148B,0xFF11); (0x148C,0xFF12); (0x148D,0xFF13); (0x148E,0xFF14); (0x148F,0xFF15);
  (0x1490,0xFF16); (0x1491,0xFF17); (0x1492,0xFF18); (0x1493,0xFF19); (0x1494,0x2160); (0x1495,0x2161); (0x1496,0x2162); (0x1497,0x2163);
  (0x1498,0x2164); (0x1499,0x2165); (0x149A,0x2166); (0x149B,0x2167); (0x149C,0x2168); (0x149D,0x2169); (0x149E,0x3021); (0x149F,0x3022);
  (0x14A0,0x3023); (0x14A1,0x3024); (0x14A2,0x3025); (0x14A3,0x3026); (0x14A4,0x3027); (0x14A5,0x3028); (0x14A6,0x3029); (0x14A7,0x5341);
  (0x14A8,0x5344); (0x14A9,0x5345); (0x14AA,0xFF21); (0x14AB,0xFF22); (0x14AC,0xFF23); (0x14AD,0xFF24); (0x14AE,0xFF25); (0x14AF,0xFF26);
  (0x14B0,0xFF27); (0x14B1,0xFF28); (0x14B2,0xFF29); (0x14B3,0xFF2A); (0x14B4,0xFF2B); (0x14B5,0xFF2C); (0x14B6,0xFF2D); (0x14B7,0xFF2E);
  (0x14B8,0xFF2F); (0x14B9,0xFF30); (0x14BA,0xFF31); (0x14BB,0xFF32); (0x14BC,0xFF33); (0x14BD,0xFF34); (0x14BE,0xFF35); (0x14BF,0xFF36);
  (0x14C0,0xFF37); (0x14C1,0xFF38); (0x14C2,0xFF39); (0x14C3,0xFF3A); (0x14C4,0xFF41); (0x14C5,0xFF42); (0x14C6,0xFF43); (0x14C7,0xFF44);
  (0x14C8,0xFF45); (0x14C9,0xFF46); (0x14CA,0xFF47); (0x14CB,0xFF48); (0x14CC,0xFF49); (0x14CD,0xFF4A); (0x14CE,0xFF4B); (0x14CF,0xFF4C);
  (0x14D0,0xFF4D); (0x14D1,0xFF4E); (0x14D2,0xFF4F); (0x14D3,0xFF50); (0x14D4,0xFF51); (0x14D5,0xFF52); (0x14D6,0xFF53); (0x14D7,0xFF54);
  (0x14D8,0xFF55); (0x14D9,0xFF56); (0x14DA,0xFF57); (0x14DB,0xFF58); (0x14DC,0xFF59); (0x14DD,0xFF5A); (0x14DE,0x391); (0x14DF,0x392);
  (0x14E0,0x393); (0x14E1,0x394); (0x14E2,0x395); (0x14E3,0x396); (0x14E4,0x397); (0x14E5,0x398); (0x14E6,0x399); (0x14E7,0x39A);
  (0x14E8,0x39B); (0x14E9,0x39C); (0x14EA,0x39D); (0x14EB,0x39E); (0x14EC,0x39F); (0x14ED,0x3A0); (0x14EE,0x3A1); (0x14EF,0x3A3);
  (0x14F0,0x3A4); (0x14F1,0x3A5); (0x14F2,0x3A6); (0x14F3,0x3A7); (0x14F4,0x3A8); (0x14F5,0x3A9); (0x14F6,0x3B1); (0x14F7,0x3B2);
  (0x14F8,0x3B3); (0x14F9,0x3B4); (0x14FA,0x3B5); (0x14FB,0x3B6); (0x14FC,0x3B7); (0x14FD,0x3B8); (0x14FE,0x3B9); (0x14FF,0x3BA);
  (0x1500,0x3BB); (0x1501,0x3BC); (0x1502,0x3BD); (0x1503,0x3BE); (0x1504,0x3BF); (0x1505,0x3C0); (0x1506,0x3C1); (0x1507,0x3C3);
  (0x1508,0x3C4); (0x1509,0x3C5); (0x150A,0x3C6); (0x150B,0x3C7); (0x150C,0x3C8); (0x150D,0x3C9); (0x150E,0x3105); (0x150F,0x3106);
  (0x1510,0x3107); (0x1511,0x3108); (0x1512,0x3109); (0x1513,0x310A); (0x1514,0x310B); (0x1515,0x310C); (0x1516,0x310D); (0x1517,0x310E);
  (0x1518,0x310F); (0x1519,0x3110); (0x151A,0x3111); (0x151B,0x3112); (0x151C,0x3113); (0x151D,0x3114); (0x151E,0x3115); (0x151F,0x3116);
  (0x1520,0x3117); (0x1521,0x3118); (0x1522,0x3119); (0x1523,0x311A); (0x1524,0x311B); (0x1525,0x311C); (0x1526,0x311D); (0x1527,0x311E);
  (0x1528,0x311F); (0x1529,0x3120); (0x152A,0x3121); (0x152B,0x3122); (0x152C,0x3123); (0x152D,0x3124); (0x152E,0x3125); (0x152F,0x3126);
  (0x1530,0x3127); (0x1531,0x3128); (0x1532,0x3129); (0x1533,0x2D9); (0x1534,0x2C9); (0x1535,0x2CA); (0x1536,0x2C7); (0x1537,0x2CB);
  (0x1538,0x2400); (0x1539,0x2401); (0x153A,0x2402); (0x153B,0x2403); (0x153C,0x2404); (0x153D,0x2405); (0x153E,0x2406); (0x153F,0x2407);
  (0x1540,0x2408); (0x1541,0x2409); (0x1542,0x240A); (0x1543,0x240B); (0x1544,0x240C); (0x1545,0x240D); (0x1546,0x240E); (0x1547,0x240F);
  (0x1548,0x2410); (0x1549,0x2411); (0x154A,0x2412); (0x154B,0x2413); (0x154C,0x2414); (0x154D,0x2415); (0x154E,0x2416); (0x154F,0x2417);
  (0x1550,0x2418); (0x1551,0x2419); (0x1552,0x241A); (0x1553,0x241B); (0x1554,0x241C); (0x1555,0x241D); (0x1556,0x241E); (0x1557,0x241F);
  (0x1558,0x2421); (0x1559,0x20AC); (0x1577,0x4E00); (0x1578,0x4E59); (0x1579,0x4E01); (0x157A,0x4E03); (0x157B,0x4E43); (0x157C,0x4E5D)
].
(* encoding_tables/whatwg/index-big5.txt (pointer, code point), entries 4352..4607 *)
Definition big5_index_17 : list (N * N) := [
  (0x157D,0x4E86); (0x157E,0x4E8C); (0x157F,0x4EBA); (0x1580,0x513F); (0x1581,0x5165); (0x1582,0x516B); (0x1583,0x51E0); (0x1584,0x5200);
  (0x1585,0x5201); (0x1586,0x529B); (0x1587,0x5315); (0x1588,0x5341); (0x1589,0x535C); (0x158A,0x53C8); (0x158B,0x4E09); (0x158C,0x4E0B);
  (0x158D,0x4E08); (0x158E,0x4E0A); (0x158F,0x4E2B); (0x1590,0x4E38); (0x1591,0x51E1); (0x1592,0x4E45); (0x1593,0x4E48); (0x1594,0x4E5F);
  (0x1595,0x4E5E); (0x1596,0x4E8E); (0x1597,0x4EA1); (0x1598,0x5140); (0x1599,0x5203); (0x159A,0x52FA); (0x159B,0x5343); (0x159C,0x53C9);
  (0x159D,0x53E3); (0x159E,0x571F); (0x159F,0x58EB); (0x15A0,0x5915); (0x15A1,0x5927); (0x15A2,0x5973); (0x15A3,0x5B50); (0x15A4,0x5B51);
  (0x15A5,0x5B53); (0x15A6,0x5BF8); (0x15A7,0x5C0F); (0x15A8,0x5C22); (0x15A9,0x5C38); (0x15AA,0x5C71); (0x15AB,0x5DDD); (0x15AC,0x5DE5);
  (0x15AD,0x5DF1); (0x15AE,0x5DF2); (0x15AF,0x5DF3); (0x15B0,0x5DFE); (0x15B1,0x5E72); (0x15B2,0x5EFE); (0x15B3,0x5F0B); (0x15B4,0x5F13);
  (0x15B5,0x624D); (0x15B6,0x4E11); (0x15B7,0x4E10); (0x15B8,0x4E0D); (0x15B9,0x4E2D); (0x15BA,0x4E30); (0x15BB,0x4E39); (0x15BC,0x4E4B);
  (0x15BD,0x5C39); (0x15BE,0x4E88); (0x15BF,0x4E91); (0x15C0,0x4E95); (0x15C1,0x4E92); (0x15C2,0x4E94); (0x15C3,0x4EA2); (0x15C4,0x4EC1);
  (0x15C5,0x4EC0); (0x15C6,0x4EC3); (0x15C7,0x4EC6); (0x15C8,0x4EC7); (0x15C9,0x4ECD); (0x15CA,0x4ECA); (0x15CB,0x4ECB); (0x15CC,0x4EC4);
  (0x15CD,0x5143); (0x15CE,0x5141); (0x15CF,0x5167); (0x15D0,0x516D); (0x15D1,0x516E); (0x15D2,0x516C); (0x15D3,0x5197); (0x15D4,0x51F6);
  (0x15D5,0x5206); (0x15D6,0x5207); (0x15D7,0x5208); (0x15D8,0x52FB); (0x15D9,0x52FE); (0x15DA,0x52FF); (0x15DB,0x5316); (0x15DC,0x5339);
  (0x15DD,0x5348); (0x15DE,0x5347); (0x15DF,0x5345); (0x15E0,0x535E); (0x15E1,0x5384); (0x15E2,0x53CB); (0x15E3,0x53CA); (0x15E4,0x53CD);
  (0x15E5,0x58EC); (0x15E6,0x5929); (0x15E7,0x592B); (0x15E8,0x592A); (0x15E9,0x592D); (0x15EA,0x5B54); (0x15EB,0x5C11); (0x15EC,0x5C24);
  (0x15ED,0x5C3A); (0x15EE,0x5C6F); (0x15EF,0x5DF4); (0x15F0,0x5E7B); (0x15F1,0x5EFF); (0x15F2,0x5F14); (0x15F3,0x5F15); (0x15F4,0x5FC3);
  (0x15F5,0x6208); (0x15F6,0x6236); (0x15F7,0x624B); (0x15F8,0x624E); (0x15F9,0x652F); (0x15FA,0x6587); (0x15FB,0x6597); (0x15FC,0x65A4);
  (0x15FD,0x65B9); (0x15FE,0x65E5); (0x15FF,0x66F0); (0x1600,0x6708); (0x1601,0x6728); (0x1602,0x6B20); (0x1603,0x6B62); (0x1604,0x6B79);
  (0x1605,0x6BCB); (0x1606,0x6BD4); (0x1607,0x6BDB); (0x1608,0x6C0F); (0x1609,0x6C34); (0x160A,0x706B); (0x160B,0x722A); (0x160C,0x7236);
  (0x160D,0x723B); (0x160E,0x7247); (0x160F,0x7259); (0x1610,0x725B); (0x1611,0x72AC); (0x1612,0x738B); (0x1613,0x4E19); (0x1614,0x4E16);
  (0x1615,0x4E15); (0x1616,0x4E14); (0x1617,0x4E18); (0x1618,0x4E3B); (0x1619,0x4E4D); (0x161A,0x4E4F); (0x161B,0x4E4E); (0x161C,0x4EE5);
  (0x161D,0x4ED8); (0x161E,0x4ED4); (0x161F,0x4ED5); (0x1620,0x4ED6); (0x1621,0x4ED7); (0x1622,0x4EE3); (0x1623,0x4EE4); (0x1624,0x4ED9);
  (0x1625,0x4EDE); (0x1626,0x5145); (0x1627,0x5144); (0x1628,0x5189); (0x1629,0x518A); (0x162A,0x51AC); (0x162B,0x51F9); (0x162C,0x51FA);
  (0x162D,0x51F8); (0x162E,0x520A); (0x162F,0x52A0); (0x1630,0x529F); (0x1631,0x5305); (0x1632,0x5306); (0x1633,0x5317); (0x1634,0x531D);
  (0x1635,0x4EDF); (0x1636,0x534A); (0x1637,0x5349); (0x1638,0x5361); (0x1639,0x5360); (0x163A,0x536F); (0x163B,0x536E); (0x163C,0x53BB);
  (0x163D,0x53EF); (0x163E,0x53E4); (0x163F,0x53F3); (0x1640,0x53EC); (0x1641,0x53EE); (0x1642,0x53E9); (0x1643,0x53E8); (0x1644,0x53FC);
  (0x1645,0x53F8); (0x1646,0x53F5); (0x1647,0x53EB); (0x1648,0x53E6); (0x1649,0x53EA); (0x164A,0x53F2); (0x164B,0x53F1); (0x164C,0x53F0);
  (0x164D,0x53E5); (0x164E,0x53ED); (0x164F,0x53FB); (0x1650,0x56DB); (0x1651,0x56DA); (0x1652,0x5916); (0x1653,0x592E); (0x1654,0x5931);
  (0x1655,0x5974); (0x1656,0x5976); (0x1657,0x5B55); (0x1658,0x5B83); (0x1659,0x5C3C); (0x165A,0x5DE8); (0x165B,0x5DE7); (0x165C,0x5DE6);
  (0x165D,0x5E02); (0x165E,0x5E03); (0x165F,0x5E73); (0x1660,0x5E7C); (0x1661,0x5F01); (0x1662,0x5F18); (0x1663,0x5F17); (0x1664,0x5FC5);
  (0x1665,0x620A); (0x1666,0x6253); (0x1667,0x6254); (0x1668,0x6252); (0x1669,0x6251); (0x166A,0x65A5); (0x166B,0x65E6); (0x166C,0x672E);
  (0x166D,0x672C); (0x166E,0x672A); (0x166F,0x672B); (0x1670,0x672D); (0x1671,0x6B63); (0x1672,0x6BCD); (0x1673,0x6C11); (0x1674,0x6C10);
  (0x1675,0x6C38); (0x1676,0x6C41); (0x1677,0x6C40); (0x1678,0x6C3E); (0x1679,0x72AF); (0x167A,0x7384); (0x167B,0x7389); (0x167C,0x74DC)
].
(* encoding_tables/whatwg/index-big5.txt (pointer, code point), entries 4608..4863 *)
Definition big5_index_18 : list (N * N) := [
  (0x167D,0x74E6); (0x167E,0x7518); (0x167F,0x751F); (0x1680,0x7528); (0x1681,0x7529); (0x1682,0x7530); (0x1683,0x7531); (0x1684,0x7532);
  (0x1685,0x7533); (0x1686,0x758B); (0x1687,0x767D); (0x1688,0x76AE); (0x1689,0x76BF); (0x168A,0x76EE); (0x168B,0x77DB); (0x168C,0x77E2);
  (0x168D,0x77F3); (0x168E,0x793A); (0x168F,0x79BE); (0x1690,0x7A74); (0x1691,0x7ACB); (0x1692,0x4E1E); (0x1693,0x4E1F); (0x1694,0x4E52);
  (0x1695,0x4E53); (0x1696,0x4E69); (0x1697,0x4E99); (0x1698,0x4EA4); (0x1699,0x4EA6); (0x169A,0x4EA5); (0x169B,0x4EFF); (0x169C,0x4F09);
  (0x169D,0x4F19); (0x169E,0x4F0A); (0x169F,0x4F15); (0x16A0,0x4F0D); (0x16A1,0x4F10); (0x16A2,0x4F11); (0x16A3,0x4F0F); (0x16A4,0x4EF2);
  (0x16A5,0x4EF6); (0x16A6,0x4EFB); (0x16A7,0x4EF0); (0x16A8,0x4EF3); (0x16A9,0x4EFD); (0x16AA,0x4F01); (0x16AB,0x4F0B); (0x16AC,0x5149);
  (0x16AD,0x5147); (0x16AE,0x5146); (0x16AF,0x5148); (0x16B0,0x5168); (0x16B1,0x5171); (0x16B2,0x518D); (0x16B3,0x51B0); (0x16B4,0x5217);
  (0x16B5,0x5211); (0x16B6,0x5212); (0x16B7,0x520E); (0x16B8,0x5216); (0x16B9,0x52A3); (0x16BA,0x5308); (0x16BB,0x5321); (0x16BC,0x5320);
  (0x16BD,0x5370); (0x16BE,0x5371); (0x16BF,0x5409); (0x16C0,0x540F); (0x16C1,0x540C); (0x16C2,0x540A); (0x16C3,0x5410); (0x16C4,0x5401);
  (0x16C5,0x540B); (0x16C6,0x5404); (0x16C7,0x5411); (0x16C8,0x540D); (0x16C9,0x5408); (0x16CA,0x5403); (0x16CB,0x540E); (0x16CC,0x5406);
  (0x16CD,0x5412); (0x16CE,0x56E0); (0x16CF,0x56DE); (0x16D0,0x56DD); (0x16D1,0x5733); (0x16D2,0x5730); (0x16D3,0x5728); (0x16D4,0x572D);
  (0x16D5,0x572C); (0x16D6,0x572F); (0x16D7,0x5729); (0x16D8,0x5919); (0x16D9,0x591A); (0x16DA,0x5937); (0x16DB,0x5938); (0x16DC,0x5984);
  (0x16DD,0x5978); (0x16DE,0x5983); (0x16DF,0x597D); (0x16E0,0x5979); (0x16E1,0x5982); (0x16E2,0x5981); (0x16E3,0x5B57); (0x16E4,0x5B58);
  (0x16E5,0x5B87); (0x16E6,0x5B88); (0x16E7,0x5B85); (0x16E8,0x5B89); (0x16E9,0x5BFA); (0x16EA,0x5C16); (0x16EB,0x5C79); (0x16EC,0x5DDE);
  (0x16ED,0x5E06); (0x16EE,0x5E76); (0x16EF,0x5E74); (0x16F0,0x5F0F); (0x16F1,0x5F1B); (0x16F2,0x5FD9); (0x16F3,0x5FD6); (0x16F4,0x620E);
  (0x16F5,0x620C); (0x16F6,0x620D); (0x16F7,0x6210); (0x16F8,0x6263); (0x16F9,0x625B); (0x16FA,0x6258); (0x16FB,0x6536); (0x16FC,0x65E9);
  (0x16FD,0x65E8); (0x16FE,0x65EC); (0x16FF,0x65ED); (0x1700,0x66F2); (0x1701,0x66F3); (0x1702,0x6709); (0x1703,0x673D); (0x1704,0x6734);
  (0x1705,0x6731); (0x1706,0x6735); (0x1707,0x6B21); (0x1708,0x6B64); (0x1709,0x6B7B); (0x170A,0x6C16); (0x170B,0x6C5D); (0x170C,0x6C57);
  (0x170D,0x6C59); (0x170E,0x6C5F); (0x170F,0x6C60); (0x1710,0x6C50); (0x1711,0x6C55); (0x1712,0x6C61); (0x1713,0x6C5B); (0x1714,0x6C4D);
  (0x1715,0x6C4E); (0x1716,0x7070); (0x1717,0x725F); (0x1718,0x725D); (0x1719,0x767E); (0x171A,0x7AF9); (0x171B,0x7C73); (0x171C,0x7CF8);
  (0x171D,0x7F36); (0x171E,0x7F8A); (0x171F,0x7FBD); (0x1720,0x8001); (0x1721,0x8003); (0x1722,0x800C); (0x1723,0x8012); (0x1724,0x8033);
  (0x1725,0x807F); (0x1726,0x8089); (0x1727,0x808B); (0x1728,0x808C); (0x1729,0x81E3); (0x172A,0x81EA); (0x172B,0x81F3); (0x172C,0x81FC);
  (0x172D,0x820C); (0x172E,0x821B); (0x172F,0x821F); (0x1730,0x826E); (0x1731,0x8272); (0x1732,0x827E); (0x1733,0x866B); (0x1734,0x8840);
  (0x1735,0x884C); (0x1736,0x8863); (0x1737,0x897F); (0x1738,0x9621); (0x1739,0x4E32); (0x173A,0x4EA8); (0x173B,0x4F4D); (0x173C,0x4F4F);
  (0x173D,0x4F47); (0x173E,0x4F57); (0x173F,0x4F5E); (0x1740,0x4F34); (0x1741,0x4F5B); (0x1742,0x4F55); (0x1743,0x4F30); (0x1744,0x4F50);
  (0x1745,0x4F51); (0x1746,0x4F3D); (0x1747,0x4F3A); (0x1748,0x4F38); (0x1749,0x4F43); (0x174A,0x4F54); (0x174B,0x4F3C); (0x174C,0x4F46);
  (0x174D,0x4F63); (0x174E,0x4F5C); (0x174F,0x4F60); (0x1750,0x4F2F); (0x1751,0x4F4E); (0x1752,0x4F36); (0x1753,0x4F59); (0x1754,0x4F5D);
  (0x1755,0x4F48); (0x1756,0x4F5A); (0x1757,0x514C); (0x1758,0x514B); (0x1759,0x514D); (0x175A,0x5175); (0x175B,0x51B6); (0x175C,0x51B7);
  (0x175D,0x5225); (0x175E,0x5224); (0x175F,0x5229); (0x1760,0x522A); (0x1761,0x5228); (0x1762,0x52AB); (0x1763,0x52A9); (0x1764,0x52AA);
  (0x1765,0x52AC); (0x1766,0x5323); (0x1767,0x5373); (0x1768,0x5375); (0x1769,0x541D); (0x176A,0x542D); (0x176B,0x541E); (0x176C,0x543E);
  (0x176D,0x5426); (0x176E,0x544E); (0x176F,0x5427); (0x1770,0x5446); (0x1771,0x5443); (0x1772,0x5433); (0x1773,0x5448); (0x1774,0x5442);
  (0x1775,0x541B); (0x1776,0x5429); (0x1777,0x544A); (0x1778,0x5439); (0x1779,0x543B); (0x177A,0x5438); (0x177B,0x542E); (0x177C,0x5435)
].
(* encoding_tables/whatwg/index-big5.txt (pointer, code point), entries 4864..5119 *)
Definition big5_index_19 : list (N * N) := [
  (0x177D,0x5436); (0x177E,0x5420); (0x177F,0x543C); (0x1780,0x5440); (0x1781,0x5431); (0x1782,0x542B); (0x1783,0x541F); (0x1784,0x542C);
  (0x1785,0x56EA); (0x1786,0x56F0); (0x1787,0x56E4); (0x1788,0x56EB); (0x1789,0x574A); (0x178A,0x5751); (0x178B,0x5740); (0x178C,0x574D);
  (0x178D,0x5747); (0x178E,0x574E); (0x178F,0x573E); (0x1790,0x5750); (0x1791,0x574F); (0x1792,0x573B); (0x1793,0x58EF); (0x1794,0x593E);
  (0x1795,0x599D); (0x1796,0x5992); (0x1797,0x59A8); (0x1798,0x599E); (0x1799,0x59A3); (0x179A,0x5999); (0x179B,0x5996); (0x179C,0x598D);
  (0x179D,0x59A4); (0x179E,0x5993); (0x179F,0x598A); (0x17A0,0x59A5); (0x17A1,0x5B5D); (0x17A2,0x5B5C); (0x17A3,0x5B5A); (0x17A4,0x5B5B);
  (0x17A5,0x5B8C); (0x17A6,0x5B8B); (0x17A7,0x5B8F); (0x17A8,0x5C2C); (0x17A9,0x5C40); (0x17AA,0x5C41); (0x17AB,0x5C3F); (0x17AC,0x5C3E);
  (0x17AD,0x5C90); (0x17AE,0x5C91); (0x17AF,0x5C94); (0x17B0,0x5C8C); (0x17B1,0x5DEB); (0x17B2,0x5E0C); (0x17B3,0x5E8F); (0x17B4,0x5E87);
  (0x17B5,0x5E8A); (0x17B6,0x5EF7); (0x17B7,0x5F04); (0x17B8,0x5F1F); (0x17B9,0x5F64); (0x17BA,0x5F62); (0x17BB,0x5F77); (0x17BC,0x5F79);
  (0x17BD,0x5FD8); (0x17BE,0x5FCC); (0x17BF,0x5FD7); (0x17C0,0x5FCD); (0x17C1,0x5FF1); (0x17C2,0x5FEB); (0x17C3,0x5FF8); (0x17C4,0x5FEA);
  (0x17C5,0x6212); (0x17C6,0x6211); (0x17C7,0x6284); (0x17C8,0x6297); (0x17C9,0x6296); (0x17CA,0x6280); (0x17CB,0x6276); (0x17CC,0x6289);
  (0x17CD,0x626D); (0x17CE,0x628A); (0x17CF,0x627C); (0x17D0,0x627E); (0x17D1,0x6279); (0x17D2,0x6273); (0x17D3,0x6292); (0x17D4,0x626F);
  (0x17D5,0x6298); (0x17D6,0x626E); (0x17D7,0x6295); (0x17D8,0x6293); (0x17D9,0x6291); (0x17DA,0x6286); (0x17DB,0x6539); (0x17DC,0x653B);
  (0x17DD,0x6538); (0x17DE,0x65F1); (0x17DF,0x66F4); (0x17E0,0x675F); (0x17E1,0x674E); (0x17E2,0x674F); (0x17E3,0x6750); (0x17E4,0x6751);
  (0x17E5,0x675C); (0x17E6,0x6756); (0x17E7,0x675E); (0x17E8,0x6749); (0x17E9,0x6746); (0x17EA,0x6760); (0x17EB,0x6753); (0x17EC,0x6757);
  (0x17ED,0x6B65); (0x17EE,0x6BCF); (0x17EF,0x6C42); (0x17F0,0x6C5E); (0x17F1,0x6C99); (0x17F2,0x6C81); (0x17F3,0x6C88); (0x17F4,0x6C89);
  (0x17F5,0x6C85); (0x17F6,0x6C9B); (0x17F7,0x6C6A); (0x17F8,0x6C7A); (0x17F9,0x6C90); (0x17FA,0x6C70); (0x17FB,0x6C8C); (0x17FC,0x6C68);
  (0x17FD,0x6C96); (0x17FE,0x6C92); (0x17FF,0x6C7D); (0x1800,0x6C83); (0x1801,0x6C72); (0x1802,0x6C7E); (0x1803,0x6C74); (0x1804,0x6C86);
  (0x1805,0x6C76); (0x1806,0x6C8D); (0x1807,0x6C94); (0x1808,0x6C98); (0x1809,0x6C82); (0x180A,0x7076); (0x180B,0x707C); (0x180C,0x707D);
  (0x180D,0x7078); (0x180E,0x7262); (0x180F,0x7261); (0x1810,0x7260); (0x1811,0x72C4); (0x1812,0x72C2); (0x1813,0x7396); (0x1814,0x752C);
  (0x1815,0x752B); (0x1816,0x7537); (0x1817,0x7538); (0x1818,0x7682); (0x1819,0x76EF); (0x181A,0x77E3); (0x181B,0x79C1); (0x181C,0x79C0);
  (0x181D,0x79BF); (0x181E,0x7A76); (0x181F,0x7CFB); (0x1820,0x7F55); (0x1821,0x8096); (0x1822,0x8093); (0x1823,0x809D); (0x1824,0x8098);
  (0x1825,0x809B); (0x1826,0x809A); (0x1827,0x80B2); (0x1828,0x826F); (0x1829,0x8292); (0x182A,0x828B); (0x182B,0x828D); (0x182C,0x898B);
  (0x182D,0x89D2); (0x182E,0x8A00); (0x182F,0x8C37); (0x1830,0x8C46); (0x1831,0x8C55); (0x1832,0x8C9D); (0x1833,0x8D64); (0x1834,0x8D70);
  (0x1835,0x8DB3); (0x1836,0x8EAB); (0x1837,0x8ECA); (0x1838,0x8F9B); (0x1839,0x8FB0); (0x183A,0x8FC2); (0x183B,0x8FC6); (0x183C,0x8FC5);
  (0x183D,0x8FC4); (0x183E,0x5DE1); (0x183F,0x9091); (0x1840,0x90A2); (0x1841,0x90AA); (0x1842,0x90A6); (0x1843,0x90A3); (0x1844,0x9149);
  (0x1845,0x91C6); (0x1846,0x91CC); (0x1847,0x9632); (0x1848,0x962E); (0x1849,0x9631); (0x184A,0x962A); (0x184B,0x962C); (0x184C,0x4E26);
  (0x184D,0x4E56); (0x184E,0x4E73); (0x184F,0x4E8B); (0x1850,0x4E9B); (0x1851,0x4E9E); (0x1852,0x4EAB); (0x1853,0x4EAC); (0x1854,0x4F6F);
  (0x1855,0x4F9D); (0x1856,0x4F8D); (0x1857,0x4F73); (0x1858,0x4F7F); (0x1859,0x4F6C); (0x185A,0x4F9B); (0x185B,0x4F8B); (0x185C,0x4F86);
  (0x185D,0x4F83); (0x185E,0x4F70); (0x185F,0x4F75); (0x1860,0x4F88); (0x1861,0x4F69); (0x1862,0x4F7B); (0x1863,0x4F96); (0x1864,0x4F7E);
  (0x1865,0x4F8F); (0x1866,0x4F91); (0x1867,0x4F7A); (0x1868,0x5154); (0x1869,0x5152); (0x186A,0x5155); (0x186B,0x5169); (0x186C,0x5177);
  (0x186D,0x5176); (0x186E,0x5178); (0x186F,0x51BD); (0x1870,0x51FD); (0x1871,0x523B); (0x1872,0x5238); (0x1873,0x5237); (0x1874,0x523A);
  (0x1875,0x5230); (0x1876,0x522E); (0x1877,0x5236); (0x1878,0x5241); (0x1879,0x52BE); (0x187A,0x52BB); (0x187B,0x5352); (0x187C,0x5354)
].
(* encoding_tables/whatwg/index-big5.txt (pointer, code point), entries 5120..5375 *)
Definition big5_index_20 : list (N * N) := [
  (0x187D,0x5353); (0x187E,0x5351); (0x187F,0x5366); (0x1880,0x5377); (0x1881,0x5378); (0x1882,0x5379); (0x1883,0x53D6); (0x1884,0x53D4);
  (0x1885,0x53D7); (0x1886,0x5473); (0x1887,0x5475); (0x1888,0x5496); (0x1889,0x5478); (0x188A,0x5495); (0x188B,0x5480); (0x188C,0x547B);
  (0x188D,0x5477); (0x188E,0x5484); (0x188F,0x5492); (0x1890,0x5486); (0x1891,0x547C); (0x1892,0x5490); (0x1893,0x5471); (0x1894,0x5476);
  (0x1895,0x548C); (0x1896,0x549A); (0x1897,0x5462); (0x1898,0x5468); (0x1899,0x548B); (0x189A,0x547D); (0x189B,0x548E); (0x189C,0x56FA);
  (0x189D,0x5783); (0x189E,0x5777); (0x189F,0x576A); (0x18A0,0x5769); (0x18A1,0x5761); (0x18A2,0x5766); (0x18A3,0x5764); (0x18A4,0x577C);
  (0x18A5,0x591C); (0x18A6,0x5949); (0x18A7,0x5947); (0x18A8,0x5948); (0x18A9,0x5944); (0x18AA,0x5954); (0x18AB,0x59BE); (0x18AC,0x59BB);
  (0x18AD,0x59D4); (0x18AE,0x59B9); (0x18AF,0x59AE); (0x18B0,0x59D1); (0x18B1,0x59C6); (0x18B2,0x59D0); (0x18B3,0x59CD); (0x18B4,0x59CB);
  (0x18B5,0x59D3); (0x18B6,0x59CA); (0x18B7,0x59AF); (0x18B8,0x59B3); (0x18B9,0x59D2); (0x18BA,0x59C5); (0x18BB,0x5B5F); (0x18BC,0x5B64);
  (0x18BD,0x5B63); (0x18BE,0x5B97); (0x18BF,0x5B9A); (0x18C0,0x5B98); (0x18C1,0x5B9C); (0x18C2,0x5B99); (0x18C3,0x5B9B); (0x18C4,0x5C1A);
  (0x18C5,0x5C48); (0x18C6,0x5C45); (0x18C7,0x5C46); (0x18C8,0x5CB7); (0x18C9,0x5CA1); (0x18CA,0x5CB8); (0x18CB,0x5CA9); (0x18CC,0x5CAB);
  (0x18CD,0x5CB1); (0x18CE,0x5CB3); (0x18CF,0x5E18); (0x18D0,0x5E1A); (0x18D1,0x5E16); (0x18D2,0x5E15); (0x18D3,0x5E1B); (0x18D4,0x5E11);
  (0x18D5,0x5E78); (0x18D6,0x5E9A); (0x18D7,0x5E97); (0x18D8,0x5E9C); (0x18D9,0x5E95); (0x18DA,0x5E96); (0x18DB,0x5EF6); (0x18DC,0x5F26);
  (0x18DD,0x5F27); (0x18DE,0x5F29); (0x18DF,0x5F80); (0x18E0,0x5F81); (0x18E1,0x5F7F); (0x18E2,0x5F7C); (0x18E3,0x5FDD); (0x18E4,0x5FE0);
  (0x18E5,0x5FFD); (0x18E6,0x5FF5); (0x18E7,0x5FFF); (0x18E8,0x600F); (0x18E9,0x6014); (0x18EA,0x602F); (0x18EB,0x6035); (0x18EC,0x6016);
  (0x18ED,0x602A); (0x18EE,0x6015); (0x18EF,0x6021); (0x18F0,0x6027); (0x18F1,0x6029); (0x18F2,0x602B); (0x18F3,0x601B); (0x18F4,0x6216);
  (0x18F5,0x6215); (0x18F6,0x623F); (0x18F7,0x623E); (0x18F8,0x6240); (0x18F9,0x627F); (0x18FA,0x62C9); (0x18FB,0x62CC); (0x18FC,0x62C4);
  (0x18FD,0x62BF); (0x18FE,0x62C2); (0x18FF,0x62B9); (0x1900,0x62D2); (0x1901,0x62DB); (0x1902,0x62AB); (0x1903,0x62D3); (0x1904,0x62D4);
  (0x1905,0x62CB); (0x1906,0x62C8); (0x1907,0x62A8); (0x1908,0x62BD); (0x1909,0x62BC); (0x190A,0x62D0); (0x190B,0x62D9); (0x190C,0x62C7);
  (0x190D,0x62CD); (0x190E,0x62B5); (0x190F,0x62DA); (0x1910,0x62B1); (0x1911,0x62D8); (0x1912,0x62D6); (0x1913,0x62D7); (0x1914,0x62C6);
  (0x1915,0x62AC); (0x1916,0x62CE); (0x1917,0x653E); (0x1918,0x65A7); (0x1919,0x65BC); (0x191A,0x65FA); (0x191B,0x6614); (0x191C,0x6613);
  (0x191D,0x660C); (0x191E,0x6606); (0x191F,0x6602); (0x1920,0x660E); (0x1921,0x6600); (0x1922,0x660F); (0x1923,0x6615); (0x1924,0x660A);
  (0x1925,0x6607); (0x1926,0x670D); (0x1927,0x670B); (0x1928,0x676D); (0x1929,0x678B); (0x192A,0x6795); (0x192B,0x6771); (0x192C,0x679C);
  (0x192D,0x6773); (0x192E,0x6777); (0x192F,0x6787); (0x1930,0x679D); (0x1931,0x6797); (0x1932,0x676F); (0x1933,0x6770); (0x1934,0x677F);
  (0x1935,0x6789); (0x1936,0x677E); (0x1937,0x6790); (0x1938,0x6775); (0x1939,0x679A); (0x193A,0x6793); (0x193B,0x677C); (0x193C,0x676A);
  (0x193D,0x6772); (0x193E,0x6B23); (0x193F,0x6B66); (0x1940,0x6B67); (0x1941,0x6B7F); (0x1942,0x6C13); (0x1943,0x6C1B); (0x1944,0x6CE3);
  (0x1945,0x6CE8); (0x1946,0x6CF3); (0x1947,0x6CB1); (0x1948,0x6CCC); (0x1949,0x6CE5); (0x194A,0x6CB3); (0x194B,0x6CBD); (0x194C,0x6CBE);
  (0x194D,0x6CBC); (0x194E,0x6CE2); (0x194F,0x6CAB); (0x1950,0x6CD5); (0x1951,0x6CD3); (0x1952,0x6CB8); (0x1953,0x6CC4); (0x1954,0x6CB9);
  (0x1955,0x6CC1); (0x1956,0x6CAE); (0x1957,0x6CD7); (0x1958,0x6CC5); (0x1959,0x6CF1); (0x195A,0x6CBF); (0x195B,0x6CBB); (0x195C,0x6CE1);
  (0x195D,0x6CDB); (0x195E,0x6CCA); (0x195F,0x6CAC); (0x1960,0x6CEF); (0x1961,0x6CDC); (0x1962,0x6CD6); (0x1963,0x6CE0); (0x1964,0x7095);
  (0x1965,0x708E); (0x1966,0x7092); (0x1967,0x708A); (0x1968,0x7099); (0x1969,0x722C); (0x196A,0x722D); (0x196B,0x7238); (0x196C,0x7248);
  (0x196D,0x7267); (0x196E,0x7269); (0x196F,0x72C0); (0x1970,0x72CE); (0x1971,0x72D9); (0x1972,0x72D7); (0x1973,0x72D0); (0x1974,0x73A9);
  (0x1975,0x73A8); (0x1976,0x739F); (0x1977,0x73AB); (0x1978,0x73A5); (0x1979,0x753D); (0x197A,0x759D); (0x197B,0x7599); (0x197C,0x759A)
].
(* encoding_tables/whatwg/index-big5.txt (pointer, code point), entries 5376..5631 *)
Definition big5_index_21 : list (N * N) := [
  (0x197D,0x7684); (0x197E,0x76C2); (0x197F,0x76F2); (0x1980,0x76F4); (0x1981,0x77E5); (0x1982,0x77FD); (0x1983,0x793E); (0x1984,0x7940);
  (0x1985,0x7941); (0x1986,0x79C9); (0x1987,0x79C8); (0x1988,0x7A7A); (0x1989,0x7A79); (0x198A,0x7AFA); (0x198B,0x7CFE); (0x198C,0x7F54);
  (0x198D,0x7F8C); (0x198E,0x7F8B); (0x198F,0x8005); (0x1990,0x80BA); (0x1991,0x80A5); (0x1992,0x80A2); (0x1993,0x80B1); (0x1994,0x80A1);
  (0x1995,0x80AB); (0x1996,0x80A9); (0x1997,0x80B4); (0x1998,0x80AA); (0x1999,0x80AF); (0x199A,0x81E5); (0x199B,0x81FE); (0x199C,0x820D);
  (0x199D,0x82B3); (0x199E,0x829D); (0x199F,0x8299); (0x19A0,0x82AD); (0x19A1,0x82BD); (0x19A2,0x829F); (0x19A3,0x82B9); (0x19A4,0x82B1);
  (0x19A5,0x82AC); (0x19A6,0x82A5); (0x19A7,0x82AF); (0x19A8,0x82B8); (0x19A9,0x82A3); (0x19AA,0x82B0); (0x19AB,0x82BE); (0x19AC,0x82B7);
  (0x19AD,0x864E); (0x19AE,0x8671); (0x19AF,0x521D); (0x19B0,0x8868); (0x19B1,0x8ECB); (0x19B2,0x8FCE); (0x19B3,0x8FD4); (0x19B4,0x8FD1);
  (0x19B5,0x90B5); (0x19B6,0x90B8); (0x19B7,0x90B1); (0x19B8,0x90B6); (0x19B9,0x91C7); (0x19BA,0x91D1); (0x19BB,0x9577); (0x19BC,0x9580);
  (0x19BD,0x961C); (0x19BE,0x9640); (0x19BF,0x963F); (0x19C0,0x963B); (0x19C1,0x9644); (0x19C2,0x9642); (0x19C3,0x96B9); (0x19C4,0x96E8);
  (0x19C5,0x9752); (0x19C6,0x975E); (0x19C7,0x4E9F); (0x19C8,0x4EAD); (0x19C9,0x4EAE); (0x19CA,0x4FE1); (0x19CB,0x4FB5); (0x19CC,0x4FAF);
  (0x19CD,0x4FBF); (0x19CE,0x4FE0); (0x19CF,0x4FD1); (0x19D0,0x4FCF); (0x19D1,0x4FDD); (0x19D2,0x4FC3); (0x19D3,0x4FB6); (0x19D4,0x4FD8);
  (0x19D5,0x4FDF); (0x19D6,0x4FCA); (0x19D7,0x4FD7); (0x19D8,0x4FAE); (0x19D9,0x4FD0); (0x19DA,0x4FC4); (0x19DB,0x4FC2); (0x19DC,0x4FDA);
  (0x19DD,0x4FCE); (0x19DE,0x4FDE); (0x19DF,0x4FB7); (0x19E0,0x5157); (0x19E1,0x5192); (0x19E2,0x5191); (0x19E3,0x51A0); (0x19E4,0x524E);
  (0x19E5,0x5243); (0x19E6,0x524A); (0x19E7,0x524D); (0x19E8,0x524C); (0x19E9,0x524B); (0x19EA,0x5247); (0x19EB,0x52C7); (0x19EC,0x52C9);
  (0x19ED,0x52C3); (0x19EE,0x52C1); (0x19EF,0x530D); (0x19F0,0x5357); (0x19F1,0x537B); (0x19F2,0x539A); (0x19F3,0x53DB); (0x19F4,0x54AC);
  (0x19F5,0x54C0); (0x19F6,0x54A8); (0x19F7,0x54CE); (0x19F8,0x54C9); (0x19F9,0x54B8); (0x19FA,0x54A6); (0x19FB,0x54B3); (0x19FC,0x54C7);
  (0x19FD,0x54C2); (0x19FE,0x54BD); (0x19FF,0x54AA); (0x1A00,0x54C1); (0x1A01,0x54C4); (0x1A02,0x54C8); (0x1A03,0x54AF); (0x1A04,0x54AB);
  (0x1A05,0x54B1); (0x1A06,0x54BB); (0x1A07,0x54A9); (0x1A08,0x54A7); (0x1A09,0x54BF); (0x1A0A,0x56FF); (0x1A0B,0x5782); (0x1A0C,0x578B);
  (0x1A0D,0x57A0); (0x1A0E,0x57A3); (0x1A0F,0x57A2); (0x1A10,0x57CE); (0x1A11,0x57AE); (0x1A12,0x5793); (0x1A13,0x5955); (0x1A14,0x5951);
  (0x1A15,0x594F); (0x1A16,0x594E); (0x1A17,0x5950); (0x1A18,0x59DC); (0x1A19,0x59D8); (0x1A1A,0x59FF); (0x1A1B,0x59E3); (0x1A1C,0x59E8);
  (0x1A1D,0x5A03); (0x1A1E,0x59E5); (0x1A1F,0x59EA); (0x1A20,0x59DA); (0x1A21,0x59E6); (0x1A22,0x5A01); (0x1A23,0x59FB); (0x1A24,0x5B69);
  (0x1A25,0x5BA3); (0x1A26,0x5BA6); (0x1A27,0x5BA4); (0x1A28,0x5BA2); (0x1A29,0x5BA5); (0x1A2A,0x5C01); (0x1A2B,0x5C4E); (0x1A2C,0x5C4F);
  (0x1A2D,0x5C4D); (0x1A2E,0x5C4B); (0x1A2F,0x5CD9); (0x1A30,0x5CD2); (0x1A31,0x5DF7); (0x1A32,0x5E1D); (0x1A33,0x5E25); (0x1A34,0x5E1F);
  (0x1A35,0x5E7D); (0x1A36,0x5EA0); (0x1A37,0x5EA6); (0x1A38,0x5EFA); (0x1A39,0x5F08); (0x1A3A,0x5F2D); (0x1A3B,0x5F65); (0x1A3C,0x5F88);
  (0x1A3D,0x5F85); (0x1A3E,0x5F8A); (0x1A3F,0x5F8B); (0x1A40,0x5F87); (0x1A41,0x5F8C); (0x1A42,0x5F89); (0x1A43,0x6012); (0x1A44,0x601D);
  (0x1A45,0x6020); (0x1A46,0x6025); (0x1A47,0x600E); (0x1A48,0x6028); (0x1A49,0x604D); (0x1A4A,0x6070); (0x1A4B,0x6068); (0x1A4C,0x6062);
  (0x1A4D,0x6046); (0x1A4E,0x6043); (0x1A4F,0x606C); (0x1A50,0x606B); (0x1A51,0x606A); (0x1A52,0x6064); (0x1A53,0x6241); (0x1A54,0x62DC);
  (0x1A55,0x6316); (0x1A56,0x6309); (0x1A57,0x62FC); (0x1A58,0x62ED); (0x1A59,0x6301); (0x1A5A,0x62EE); (0x1A5B,0x62FD); (0x1A5C,0x6307);
  (0x1A5D,0x62F1); (0x1A5E,0x62F7); (0x1A5F,0x62EF); (0x1A60,0x62EC); (0x1A61,0x62FE); (0x1A62,0x62F4); (0x1A63,0x6311); (0x1A64,0x6302);
  (0x1A65,0x653F); (0x1A66,0x6545); (0x1A67,0x65AB); (0x1A68,0x65BD); (0x1A69,0x65E2); (0x1A6A,0x6625); (0x1A6B,0x662D); (0x1A6C,0x6620);
  (0x1A6D,0x6627); (0x1A6E,0x662F); (0x1A6F,0x661F); (0x1A70,0x6628); (0x1A71,0x6631); (0x1A72,0x6624); (0x1A73,0x66F7); (0x1A74,0x67FF);
  (0x1A75,0x67D3); (0x1A76,0x67F1); (0x1A77,0x67D4); (0x1A78,0x67D0); (0x1A79,0x67EC); (0x1A7A,0x67B6); (0x1A7B,0x67AF); (0x1A7C,0x67F5)
].
(* encoding_tables/whatwg/index-big5.txt (pointer, code point), entries 5632..5887 *)
Definition big5_index_22 : list (N * N) := [
  (0x1A7D,0x67E9); (0x1A7E,0x67EF); (0x1A7F,0x67C4); (0x1A80,0x67D1); (0x1A81,0x67B4); (0x1A82,0x67DA); (0x1A83,0x67E5); (0x1A84,0x67B8);
  (0x1A85,0x67CF); (0x1A86,0x67DE); (0x1A87,0x67F3); (0x1A88,0x67B0); (0x1A89,0x67D9); (0x1A8A,0x67E2); (0x1A8B,0x67DD); (0x1A8C,0x67D2);
  (0x1A8D,0x6B6A); (0x1A8E,0x6B83); (0x1A8F,0x6B86); (0x1A90,0x6BB5); (0x1A91,0x6BD2); (0x1A92,0x6BD7); (0x1A93,0x6C1F); (0x1A94,0x6CC9);
  (0x1A95,0x6D0B); (0x1A96,0x6D32); (0x1A97,0x6D2A); (0x1A98,0x6D41); (0x1A99,0x6D25); (0x1A9A,0x6D0C); (0x1A9B,0x6D31); (0x1A9C,0x6D1E);
  (0x1A9D,0x6D17); (0x1A9E,0x6D3B); (0x1A9F,0x6D3D); (0x1AA0,0x6D3E); (0x1AA1,0x6D36); (0x1AA2,0x6D1B); (0x1AA3,0x6CF5); (0x1AA4,0x6D39);
  (0x1AA5,0x6D27); (0x1AA6,0x6D38); (0x1AA7,0x6D29); (0x1AA8,0x6D2E); (0x1AA9,0x6D35); (0x1AAA,0x6D0E); (0x1AAB,0x6D2B); (0x1AAC,0x70AB);
  (0x1AAD,0x70BA); (0x1AAE,0x70B3); (0x1AAF,0x70AC); (0x1AB0,0x70AF); (0x1AB1,0x70AD); (0x1AB2,0x70B8); (0x1AB3,0x70AE); (0x1AB4,0x70A4);
  (0x1AB5,0x7230); (0x1AB6,0x7272); (0x1AB7,0x726F); (0x1AB8,0x7274); (0x1AB9,0x72E9); (0x1ABA,0x72E0); (0x1ABB,0x72E1); (0x1ABC,0x73B7);
  (0x1ABD,0x73CA); (0x1ABE,0x73BB); (0x1ABF,0x73B2); (0x1AC0,0x73CD); (0x1AC1,0x73C0); (0x1AC2,0x73B3); (0x1AC3,0x751A); (0x1AC4,0x752D);
  (0x1AC5,0x754F); (0x1AC6,0x754C); (0x1AC7,0x754E); (0x1AC8,0x754B); (0x1AC9,0x75AB); (0x1ACA,0x75A4); (0x1ACB,0x75A5); (0x1ACC,0x75A2);
  (0x1ACD,0x75A3); (0x1ACE,0x7678); (0x1ACF,0x7686); (0x1AD0,0x7687); (0x1AD1,0x7688); (0x1AD2,0x76C8); (0x1AD3,0x76C6); (0x1AD4,0x76C3);
  (0x1AD5,0x76C5); (0x1AD6,0x7701); (0x1AD7,0x76F9); (0x1AD8,0x76F8); (0x1AD9,0x7709); (0x1ADA,0x770B); (0x1ADB,0x76FE); (0x1ADC,0x76FC);
  (0x1ADD,0x7707); (0x1ADE,0x77DC); (0x1ADF,0x7802); (0x1AE0,0x7814); (0x1AE1,0x780C); (0x1AE2,0x780D); (0x1AE3,0x7946); (0x1AE4,0x7949);
  (0x1AE5,0x7948); (0x1AE6,0x7947); (0x1AE7,0x79B9); (0x1AE8,0x79BA); (0x1AE9,0x79D1); (0x1AEA,0x79D2); (0x1AEB,0x79CB); (0x1AEC,0x7A7F);
  (0x1AED,0x7A81); (0x1AEE,0x7AFF); (0x1AEF,0x7AFD); (0x1AF0,0x7C7D); (0x1AF1,0x7D02); (0x1AF2,0x7D05); (0x1AF3,0x7D00); (0x1AF4,0x7D09);
  (0x1AF5,0x7D07); (0x1AF6,0x7D04); (0x1AF7,0x7D06); (0x1AF8,0x7F38); (0x1AF9,0x7F8E); (0x1AFA,0x7FBF); (0x1AFB,0x8004); (0x1AFC,0x8010);
  (0x1AFD,0x800D); (0x1AFE,0x8011); (0x1AFF,0x8036); (0x1B00,0x80D6); (0x1B01,0x80E5); (0x1B02,0x80DA); (0x1B03,0x80C3); (0x1B04,0x80C4);
  (0x1B05,0x80CC); (0x1B06,0x80E1); (0x1B07,0x80DB); (0x1B08,0x80CE); (0x1B09,0x80DE); (0x1B0A,0x80E4); (0x1B0B,0x80DD); (0x1B0C,0x81F4);
  (0x1B0D,0x8222); (0x1B0E,0x82E7); (0x1B0F,0x8303); (0x1B10,0x8305); (0x1B11,0x82E3); (0x1B12,0x82DB); (0x1B13,0x82E6); (0x1B14,0x8304);
  (0x1B15,0x82E5); (0x1B16,0x8302); (0x1B17,0x8309); (0x1B18,0x82D2); (0x1B19,0x82D7); (0x1B1A,0x82F1); (0x1B1B,0x8301); (0x1B1C,0x82DC);
  (0x1B1D,0x82D4); (0x1B1E,0x82D1); (0x1B1F,0x82DE); (0x1B20,0x82D3); (0x1B21,0x82DF); (0x1B22,0x82EF); (0x1B23,0x8306); (0x1B24,0x8650);
  (0x1B25,0x8679); (0x1B26,0x867B); (0x1B27,0x867A); (0x1B28,0x884D); (0x1B29,0x886B); (0x1B2A,0x8981); (0x1B2B,0x89D4); (0x1B2C,0x8A08);
  (0x1B2D,0x8A02); (0x1B2E,0x8A03); (0x1B2F,0x8C9E); (0x1B30,0x8CA0); (0x1B31,0x8D74); (0x1B32,0x8D73); (0x1B33,0x8DB4); (0x1B34,0x8ECD);
  (0x1B35,0x8ECC); (0x1B36,0x8FF0); (0x1B37,0x8FE6); (0x1B38,0x8FE2); (0x1B39,0x8FEA); (0x1B3A,0x8FE5); (0x1B3B,0x8FED); (0x1B3C,0x8FEB);
  (0x1B3D,0x8FE4); (0x1B3E,0x8FE8); (0x1B3F,0x90CA); (0x1B40,0x90CE); (0x1B41,0x90C1); (0x1B42,0x90C3); (0x1B43,0x914B); (0x1B44,0x914A);
  (0x1B45,0x91CD); (0x1B46,0x9582); (0x1B47,0x9650); (0x1B48,0x964B); (0x1B49,0x964C); (0x1B4A,0x964D); (0x1B4B,0x9762); (0x1B4C,0x9769);
  (0x1B4D,0x97CB); (0x1B4E,0x97ED); (0x1B4F,0x97F3); (0x1B50,0x9801); (0x1B51,0x98A8); (0x1B52,0x98DB); (0x1B53,0x98DF); (0x1B54,0x9996);
  (0x1B55,0x9999); (0x1B56,0x4E58); (0x1B57,0x4EB3); (0x1B58,0x500C); (0x1B59,0x500D); (0x1B5A,0x5023); (0x1B5B,0x4FEF); (0x1B5C,0x5026);
  (0x1B5D,0x5025); (0x1B5E,0x4FF8); (0x1B5F,0x5029); (0x1B60,0x5016); (0x1B61,0x5006); (0x1B62,0x503C); (0x1B63,0x501F); (0x1B64,0x501A);
  (0x1B65,0x5012); (0x1B66,0x5011); (0x1B67,0x4FFA); (0x1B68,0x5000); (0x1B69,0x5014); (0x1B6A,0x5028); (0x1B6B,0x4FF1); (0x1B6C,0x5021);
  (0x1B6D,0x500B); (0x1B6E,0x5019); (0x1B6F,0x5018); (0x1B70,0x4FF3); (0x1B71,0x4FEE); (0x1B72,0x502D); (0x1B73,0x502A); (0x1B74,0x4FFE);
  (0x1B75,0x502B); (0x1B76,0x5009); (0x1B77,0x517C); (0x1B78,0x51A4); (0x1B79,0x51A5); (0x1B7A,0x51A2); (0x1B7B,0x51CD); (0x1B7C,0x51CC)
].
(* encoding_tables/whatwg/index-big5.txt (pointer, code point), entries 5888..6143 *)
Definition big5_index_23 : list (N * N) := [
  (0x1B7D,0x51C6); (0x1B7E,0x51CB); (0x1B7F,0x5256); (0x1B80,0x525C); (0x1B81,0x5254); (0x1B82,0x525B); (0x1B83,0x525D); (0x1B84,0x532A);
  (0x1B85,0x537F); (0x1B86,0x539F); (0x1B87,0x539D); (0x1B88,0x53DF); (0x1B89,0x54E8); (0x1B8A,0x5510); (0x1B8B,0x5501); (0x1B8C,0x5537);
  (0x1B8D,0x54FC); (0x1B8E,0x54E5); (0x1B8F,0x54F2); (0x1B90,0x5506); (0x1B91,0x54FA); (0x1B92,0x5514); (0x1B93,0x54E9); (0x1B94,0x54ED);
  (0x1B95,0x54E1); (0x1B96,0x5509); (0x1B97,0x54EE); (0x1B98,0x54EA); (0x1B99,0x54E6); (0x1B9A,0x5527); (0x1B9B,0x5507); (0x1B9C,0x54FD);
  (0x1B9D,0x550F); (0x1B9E,0x5703); (0x1B9F,0x5704); (0x1BA0,0x57C2); (0x1BA1,0x57D4); (0x1BA2,0x57CB); (0x1BA3,0x57C3); (0x1BA4,0x5809);
  (0x1BA5,0x590F); (0x1BA6,0x5957); (0x1BA7,0x5958); (0x1BA8,0x595A); (0x1BA9,0x5A11); (0x1BAA,0x5A18); (0x1BAB,0x5A1C); (0x1BAC,0x5A1F);
  (0x1BAD,0x5A1B); (0x1BAE,0x5A13); (0x1BAF,0x59EC); (0x1BB0,0x5A20); (0x1BB1,0x5A23); (0x1BB2,0x5A29); (0x1BB3,0x5A25); (0x1BB4,0x5A0C);
  (0x1BB5,0x5A09); (0x1BB6,0x5B6B); (0x1BB7,0x5C58); (0x1BB8,0x5BB0); (0x1BB9,0x5BB3); (0x1BBA,0x5BB6); (0x1BBB,0x5BB4); (0x1BBC,0x5BAE);
  (0x1BBD,0x5BB5); (0x1BBE,0x5BB9); (0x1BBF,0x5BB8); (0x1BC0,0x5C04); (0x1BC1,0x5C51); (0x1BC2,0x5C55); (0x1BC3,0x5C50); (0x1BC4,0x5CED);
  (0x1BC5,0x5CFD); (0x1BC6,0x5CFB); (0x1BC7,0x5CEA); (0x1BC8,0x5CE8); (0x1BC9,0x5CF0); (0x1BCA,0x5CF6); (0x1BCB,0x5D01); (0x1BCC,0x5CF4);
  (0x1BCD,0x5DEE); (0x1BCE,0x5E2D); (0x1BCF,0x5E2B); (0x1BD0,0x5EAB); (0x1BD1,0x5EAD); (0x1BD2,0x5EA7); (0x1BD3,0x5F31); (0x1BD4,0x5F92);
  (0x1BD5,0x5F91); (0x1BD6,0x5F90); (0x1BD7,0x6059); (0x1BD8,0x6063); (0x1BD9,0x6065); (0x1BDA,0x6050); (0x1BDB,0x6055); (0x1BDC,0x606D);
  (0x1BDD,0x6069); (0x1BDE,0x606F); (0x1BDF,0x6084); (0x1BE0,0x609F); (0x1BE1,0x609A); (0x1BE2,0x608D); (0x1BE3,0x6094); (0x1BE4,0x608C);
  (0x1BE5,0x6085); (0x1BE6,0x6096); (0x1BE7,0x6247); (0x1BE8,0x62F3); (0x1BE9,0x6308); (0x1BEA,0x62FF); (0x1BEB,0x634E); (0x1BEC,0x633E);
  (0x1BED,0x632F); (0x1BEE,0x6355); (0x1BEF,0x6342); (0x1BF0,0x6346); (0x1BF1,0x634F); (0x1BF2,0x6349); (0x1BF3,0x633A); (0x1BF4,0x6350);
  (0x1BF5,0x633D); (0x1BF6,0x632A); (0x1BF7,0x632B); (0x1BF8,0x6328); (0x1BF9,0x634D); (0x1BFA,0x634C); (0x1BFB,0x6548); (0x1BFC,0x6549);
  (0x1BFD,0x6599); (0x1BFE,0x65C1); (0x1BFF,0x65C5); (0x1C00,0x6642); (0x1C01,0x6649); (0x1C02,0x664F); (0x1C03,0x6643); (0x1C04,0x6652);
  (0x1C05,0x664C); (0x1C06,0x6645); (0x1C07,0x6641); (0x1C08,0x66F8); (0x1C09,0x6714); (0x1C0A,0x6715); (0x1C0B,0x6717); (0x1C0C,0x6821);
  (0x1C0D,0x6838); (0x1C0E,0x6848); (0x1C0F,0x6846); (0x1C10,0x6853); (0x1C11,0x6839); (0x1C12,0x6842); (0x1C13,0x6854); (0x1C14,0x6829);
  (0x1C15,0x68B3); (0x1C16,0x6817); (0x1C17,0x684C); (0x1C18,0x6851); (0x1C19,0x683D); (0x1C1A,0x67F4); (0x1C1B,0x6850); (0x1C1C,0x6840);
  (0x1C1D,0x683C); (0x1C1E,0x6843); (0x1C1F,0x682A); (0x1C20,0x6845); (0x1C21,0x6813); (0x1C22,0x6818); (0x1C23,0x6841); (0x1C24,0x6B8A);
  (0x1C25,0x6B89); (0x1C26,0x6BB7); (0x1C27,0x6C23); (0x1C28,0x6C27); (0x1C29,0x6C28); (0x1C2A,0x6C26); (0x1C2B,0x6C24); (0x1C2C,0x6CF0);
  (0x1C2D,0x6D6A); (0x1C2E,0x6D95); (0x1C2F,0x6D88); (0x1C30,0x6D87); (0x1C31,0x6D66); (0x1C32,0x6D78); (0x1C33,0x6D77); (0x1C34,0x6D59);
  (0x1C35,0x6D93); (0x1C36,0x6D6C); (0x1C37,0x6D89); (0x1C38,0x6D6E); (0x1C39,0x6D5A); (0x1C3A,0x6D74); (0x1C3B,0x6D69); (0x1C3C,0x6D8C);
  (0x1C3D,0x6D8A); (0x1C3E,0x6D79); (0x1C3F,0x6D85); (0x1C40,0x6D65); (0x1C41,0x6D94); (0x1C42,0x70CA); (0x1C43,0x70D8); (0x1C44,0x70E4);
  (0x1C45,0x70D9); (0x1C46,0x70C8); (0x1C47,0x70CF); (0x1C48,0x7239); (0x1C49,0x7279); (0x1C4A,0x72FC); (0x1C4B,0x72F9); (0x1C4C,0x72FD);
  (0x1C4D,0x72F8); (0x1C4E,0x72F7); (0x1C4F,0x7386); (0x1C50,0x73ED); (0x1C51,0x7409); (0x1C52,0x73EE); (0x1C53,0x73E0); (0x1C54,0x73EA);
  (0x1C55,0x73DE); (0x1C56,0x7554); (0x1C57,0x755D); (0x1C58,0x755C); (0x1C59,0x755A); (0x1C5A,0x7559); (0x1C5B,0x75BE); (0x1C5C,0x75C5);
  (0x1C5D,0x75C7); (0x1C5E,0x75B2); (0x1C5F,0x75B3); (0x1C60,0x75BD); (0x1C61,0x75BC); (0x1C62,0x75B9); (0x1C63,0x75C2); (0x1C64,0x75B8);
  (0x1C65,0x768B); (0x1C66,0x76B0); (0x1C67,0x76CA); (0x1C68,0x76CD); (0x1C69,0x76CE); (0x1C6A,0x7729); (0x1C6B,0x771F); (0x1C6C,0x7720);
  (0x1C6D,0x7728); (0x1C6E,0x77E9); (0x1C6F,0x7830); (0x1C70,0x7827); (0x1C71,0x7838); (0x1C72,0x781D); (0x1C73,0x7834); (0x1C74,0x7837);
  (0x1C75,0x7825); (0x1C76,0x782D); (0x1C77,0x7820); (0x1C78,0x781F); (0x1C79,0x7832); (0x1C7A,0x7955); (0x1C7B,0x7950); (0x1C7C,0x7960)
].
(* encoding_tables/whatwg/index-big5.txt (pointer, code point), entries 6144..6399 *)
Definition big5_index_24 : list (N * N) := [
  (0x1C7D,0x795F); (0x1C7E,0x7956); (0x1C7F,0x795E); (0x1C80,0x795D); (0x1C81,0x7957); (0x1C82,0x795A); (0x1C83,0x79E4); (0x1C84,0x79E3);
  (0x1C85,0x79E7); (0x1C86,0x79DF); (0x1C87,0x79E6); (0x1C88,0x79E9); (0x1C89,0x79D8); (0x1C8A,0x7A84); (0x1C8B,0x7A88); (0x1C8C,0x7AD9);
  (0x1C8D,0x7B06); (0x1C8E,0x7B11); (0x1C8F,0x7C89); (0x1C90,0x7D21); (0x1C91,0x7D17); (0x1C92,0x7D0B); (0x1C93,0x7D0A); (0x1C94,0x7D20);
  (0x1C95,0x7D22); (0x1C96,0x7D14); (0x1C97,0x7D10); (0x1C98,0x7D15); (0x1C99,0x7D1A); (0x1C9A,0x7D1C); (0x1C9B,0x7D0D); (0x1C9C,0x7D19);
  (0x1C9D,0x7D1B); (0x1C9E,0x7F3A); (0x1C9F,0x7F5F); (0x1CA0,0x7F94); (0x1CA1,0x7FC5); (0x1CA2,0x7FC1); (0x1CA3,0x8006); (0x1CA4,0x8018);
  (0x1CA5,0x8015); (0x1CA6,0x8019); (0x1CA7,0x8017); (0x1CA8,0x803D); (0x1CA9,0x803F); (0x1CAA,0x80F1); (0x1CAB,0x8102); (0x1CAC,0x80F0);
  (0x1CAD,0x8105); (0x1CAE,0x80ED); (0x1CAF,0x80F4); (0x1CB0,0x8106); (0x1CB1,0x80F8); (0x1CB2,0x80F3); (0x1CB3,0x8108); (0x1CB4,0x80FD);
  (0x1CB5,0x810A); (0x1CB6,0x80FC); (0x1CB7,0x80EF); (0x1CB8,0x81ED); (0x1CB9,0x81EC); (0x1CBA,0x8200); (0x1CBB,0x8210); (0x1CBC,0x822A);
  (0x1CBD,0x822B); (0x1CBE,0x8228); (0x1CBF,0x822C); (0x1CC0,0x82BB); (0x1CC1,0x832B); (0x1CC2,0x8352); (0x1CC3,0x8354); (0x1CC4,0x834A);
  (0x1CC5,0x8338); (0x1CC6,0x8350); (0x1CC7,0x8349); (0x1CC8,0x8335); (0x1CC9,0x8334); (0x1CCA,0x834F); (0x1CCB,0x8332); (0x1CCC,0x8339);
  (0x1CCD,0x8336); (0x1CCE,0x8317); (0x1CCF,0x8340); (0x1CD0,0x8331); (0x1CD1,0x8328); (0x1CD2,0x8343); (0x1CD3,0x8654); (0x1CD4,0x868A);
  (0x1CD5,0x86AA); (0x1CD6,0x8693); (0x1CD7,0x86A4); (0x1CD8,0x86A9); (0x1CD9,0x868C); (0x1CDA,0x86A3); (0x1CDB,0x869C); (0x1CDC,0x8870);
  (0x1CDD,0x8877); (0x1CDE,0x8881); (0x1CDF,0x8882); (0x1CE0,0x887D); (0x1CE1,0x8879); (0x1CE2,0x8A18); (0x1CE3,0x8A10); (0x1CE4,0x8A0E);
  (0x1CE5,0x8A0C); (0x1CE6,0x8A15); (0x1CE7,0x8A0A); (0x1CE8,0x8A17); (0x1CE9,0x8A13); (0x1CEA,0x8A16); (0x1CEB,0x8A0F); (0x1CEC,0x8A11);
  (0x1CED,0x8C48); (0x1CEE,0x8C7A); (0x1CEF,0x8C79); (0x1CF0,0x8CA1); (0x1CF1,0x8CA2); (0x1CF2,0x8D77); (0x1CF3,0x8EAC); (0x1CF4,0x8ED2);
  (0x1CF5,0x8ED4); (0x1CF6,0x8ECF); (0x1CF7,0x8FB1); (0x1CF8,0x9001); (0x1CF9,0x9006); (0x1CFA,0x8FF7); (0x1CFB,0x9000); (0x1CFC,0x8FFA);
  (0x1CFD,0x8FF4); (0x1CFE,0x9003); (0x1CFF,0x8FFD); (0x1D00,0x9005); (0x1D01,0x8FF8); (0x1D02,0x9095); (0x1D03,0x90E1); (0x1D04,0x90DD);
  (0x1D05,0x90E2); (0x1D06,0x9152); (0x1D07,0x914D); (0x1D08,0x914C); (0x1D09,0x91D8); (0x1D0A,0x91DD); (0x1D0B,0x91D7); (0x1D0C,0x91DC);
  (0x1D0D,0x91D9); (0x1D0E,0x9583); (0x1D0F,0x9662); (0x1D10,0x9663); (0x1D11,0x9661); (0x1D12,0x965B); (0x1D13,0x965D); (0x1D14,0x9664);
  (0x1D15,0x9658); (0x1D16,0x965E); (0x1D17,0x96BB); (0x1D18,0x98E2); (0x1D19,0x99AC); (0x1D1A,0x9AA8); (0x1D1B,0x9AD8); (0x1D1C,0x9B25);
  (0x1D1D,0x9B32); (0x1D1E,0x9B3C); (0x1D1F,0x4E7E); (0x1D20,0x507A); (0x1D21,0x507D); (0x1D22,0x505C); (0x1D23,0x5047); (0x1D24,0x5043);
  (0x1D25,0x504C); (0x1D26,0x505A); (0x1D27,0x5049); (0x1D28,0x5065); (0x1D29,0x5076); (0x1D2A,0x504E); (0x1D2B,0x5055); (0x1D2C,0x5075);
  (0x1D2D,0x5074); (0x1D2E,0x5077); (0x1D2F,0x504F); (0x1D30,0x500F); (0x1D31,0x506F); (0x1D32,0x506D); (0x1D33,0x515C); (0x1D34,0x5195);
  (0x1D35,0x51F0); (0x1D36,0x526A); (0x1D37,0x526F); (0x1D38,0x52D2); (0x1D39,0x52D9); (0x1D3A,0x52D8); (0x1D3B,0x52D5); (0x1D3C,0x5310);
  (0x1D3D,0x530F); (0x1D3E,0x5319); (0x1D3F,0x533F); (0x1D40,0x5340); (0x1D41,0x533E); (0x1D42,0x53C3); (0x1D43,0x66FC); (0x1D44,0x5546);
  (0x1D45,0x556A); (0x1D46,0x5566); (0x1D47,0x5544); (0x1D48,0x555E); (0x1D49,0x5561); (0x1D4A,0x5543); (0x1D4B,0x554A); (0x1D4C,0x5531);
  (0x1D4D,0x5556); (0x1D4E,0x554F); (0x1D4F,0x5555); (0x1D50,0x552F); (0x1D51,0x5564); (0x1D52,0x5538); (0x1D53,0x552E); (0x1D54,0x555C);
  (0x1D55,0x552C); (0x1D56,0x5563); (0x1D57,0x5533); (0x1D58,0x5541); (0x1D59,0x5557); (0x1D5A,0x5708); (0x1D5B,0x570B); (0x1D5C,0x5709);
  (0x1D5D,0x57DF); (0x1D5E,0x5805); (0x1D5F,0x580A); (0x1D60,0x5806); (0x1D61,0x57E0); (0x1D62,0x57E4); (0x1D63,0x57FA); (0x1D64,0x5802);
  (0x1D65,0x5835); (0x1D66,0x57F7); (0x1D67,0x57F9); (0x1D68,0x5920); (0x1D69,0x5962); (0x1D6A,0x5A36); (0x1D6B,0x5A41); (0x1D6C,0x5A49);
  (0x1D6D,0x5A66); (0x1D6E,0x5A6A); (0x1D6F,0x5A40); (0x1D70,0x5A3C); (0x1D71,0x5A62); (0x1D72,0x5A5A); (0x1D73,0x5A46); (0x1D74,0x5A4A);
  (0x1D75,0x5B70); (0x1D76,0x5BC7); (0x1D77,0x5BC5); (0x1D78,0x5BC4); (0x1D79,0x5BC2); (0x1D7A,0x5BBF); (0x1D7B,0x5BC6); (0x1D7C,0x5C09)
].
(* encoding_tables/whatwg/index-big5.txt (pointer, code point), entries 6400..6655 *)
Definition big5_index_25 : list (N * N) := [
  (0x1D7D,0x5C08); (0x1D7E,0x5C07); (0x1D7F,0x5C60); (0x1D80,0x5C5C); (0x1D81,0x5C5D); (0x1D82,0x5D07); (0x1D83,0x5D06); (0x1D84,0x5D0E);
  (0x1D85,0x5D1B); (0x1D86,0x5D16); (0x1D87,0x5D22); (0x1D88,0x5D11); (0x1D89,0x5D29); (0x1D8A,0x5D14); (0x1D8B,0x5D19); (0x1D8C,0x5D24);
  (0x1D8D,0x5D27); (0x1D8E,0x5D17); (0x1D8F,0x5DE2); (0x1D90,0x5E38); (0x1D91,0x5E36); (0x1D92,0x5E33); (0x1D93,0x5E37); (0x1D94,0x5EB7);
  (0x1D95,0x5EB8); (0x1D96,0x5EB6); (0x1D97,0x5EB5); (0x1D98,0x5EBE); (0x1D99,0x5F35); (0x1D9A,0x5F37); (0x1D9B,0x5F57); (0x1D9C,0x5F6C);
  (0x1D9D,0x5F69); (0x1D9E,0x5F6B); (0x1D9F,0x5F97); (0x1DA0,0x5F99); (0x1DA1,0x5F9E); (0x1DA2,0x5F98); (0x1DA3,0x5FA1); (0x1DA4,0x5FA0);
  (0x1DA5,0x5F9C); (0x1DA6,0x607F); (0x1DA7,0x60A3); (0x1DA8,0x6089); (0x1DA9,0x60A0); (0x1DAA,0x60A8); (0x1DAB,0x60CB); (0x1DAC,0x60B4);
  (0x1DAD,0x60E6); (0x1DAE,0x60BD); (0x1DAF,0x60C5); (0x1DB0,0x60BB); (0x1DB1,0x60B5); (0x1DB2,0x60DC); (0x1DB3,0x60BC); (0x1DB4,0x60D8);
  (0x1DB5,0x60D5); (0x1DB6,0x60C6); (0x1DB7,0x60DF); (0x1DB8,0x60B8); (0x1DB9,0x60DA); (0x1DBA,0x60C7); (0x1DBB,0x621A); (0x1DBC,0x621B);
  (0x1DBD,0x6248); (0x1DBE,0x63A0); (0x1DBF,0x63A7); (0x1DC0,0x6372); (0x1DC1,0x6396); (0x1DC2,0x63A2); (0x1DC3,0x63A5); (0x1DC4,0x6377);
  (0x1DC5,0x6367); (0x1DC6,0x6398); (0x1DC7,0x63AA); (0x1DC8,0x6371); (0x1DC9,0x63A9); (0x1DCA,0x6389); (0x1DCB,0x6383); (0x1DCC,0x639B);
  (0x1DCD,0x636B); (0x1DCE,0x63A8); (0x1DCF,0x6384); (0x1DD0,0x6388); (0x1DD1,0x6399); (0x1DD2,0x63A1); (0x1DD3,0x63AC); (0x1DD4,0x6392);
  (0x1DD5,0x638F); (0x1DD6,0x6380); (0x1DD7,0x637B); (0x1DD8,0x6369); (0x1DD9,0x6368); (0x1DDA,0x637A); (0x1DDB,0x655D); (0x1DDC,0x6556);
  (0x1DDD,0x6551); (0x1DDE,0x6559); (0x1DDF,0x6557); (0x1DE0,0x555F); (0x1DE1,0x654F); (0x1DE2,0x6558); (0x1DE3,0x6555); (0x1DE4,0x6554);
  (0x1DE5,0x659C); (0x1DE6,0x659B); (0x1DE7,0x65AC); (0x1DE8,0x65CF); (0x1DE9,0x65CB); (0x1DEA,0x65CC); (0x1DEB,0x65CE); (0x1DEC,0x665D);
  (0x1DED,0x665A); (0x1DEE,0x6664); (0x1DEF,0x6668); (0x1DF0,0x6666); (0x1DF1,0x665E); (0x1DF2,0x66F9); (0x1DF3,0x52D7); (0x1DF4,0x671B);
  (0x1DF5,0x6881); (0x1DF6,0x68AF); (0x1DF7,0x68A2); (0x1DF8,0x6893); (0x1DF9,0x68B5); (0x1DFA,0x687F); (0x1DFB,0x6876); (0x1DFC,0x68B1);
  (0x1DFD,0x68A7); (0x1DFE,0x6897); (0x1DFF,0x68B0); (0x1E00,0x6883); (0x1E01,0x68C4); (0x1E02,0x68AD); (0x1E03,0x6886); (0x1E04,0x6885);
  (0x1E05,0x6894); (0x1E06,0x689D); (0x1E07,0x68A8); (0x1E08,0x689F); (0x1E09,0x68A1); (0x1E0A,0x6882); (0x1E0B,0x6B32); (0x1E0C,0x6BBA);
  (0x1E0D,0x6BEB); (0x1E0E,0x6BEC); (0x1E0F,0x6C2B); (0x1E10,0x6D8E); (0x1E11,0x6DBC); (0x1E12,0x6DF3); (0x1E13,0x6DD9); (0x1E14,0x6DB2);
  (0x1E15,0x6DE1); (0x1E16,0x6DCC); (0x1E17,0x6DE4); (0x1E18,0x6DFB); (0x1E19,0x6DFA); (0x1E1A,0x6E05); (0x1E1B,0x6DC7); (0x1E1C,0x6DCB);
  (0x1E1D,0x6DAF); (0x1E1E,0x6DD1); (0x1E1F,0x6DAE); (0x1E20,0x6DDE); (0x1E21,0x6DF9); (0x1E22,0x6DB8); (0x1E23,0x6DF7); (0x1E24,0x6DF5);
  (0x1E25,0x6DC5); (0x1E26,0x6DD2); (0x1E27,0x6E1A); (0x1E28,0x6DB5); (0x1E29,0x6DDA); (0x1E2A,0x6DEB); (0x1E2B,0x6DD8); (0x1E2C,0x6DEA);
  (0x1E2D,0x6DF1); (0x1E2E,0x6DEE); (0x1E2F,0x6DE8); (0x1E30,0x6DC6); (0x1E31,0x6DC4); (0x1E32,0x6DAA); (0x1E33,0x6DEC); (0x1E34,0x6DBF);
  (0x1E35,0x6DE6); (0x1E36,0x70F9); (0x1E37,0x7109); (0x1E38,0x710A); (0x1E39,0x70FD); (0x1E3A,0x70EF); (0x1E3B,0x723D); (0x1E3C,0x727D);
  (0x1E3D,0x7281); (0x1E3E,0x731C); (0x1E3F,0x731B); (0x1E40,0x7316); (0x1E41,0x7313); (0x1E42,0x7319); (0x1E43,0x7387); (0x1E44,0x7405);
  (0x1E45,0x740A); (0x1E46,0x7403); (0x1E47,0x7406); (0x1E48,0x73FE); (0x1E49,0x740D); (0x1E4A,0x74E0); (0x1E4B,0x74F6); (0x1E4C,0x74F7);
  (0x1E4D,0x751C); (0x1E4E,0x7522); (0x1E4F,0x7565); (0x1E50,0x7566); (0x1E51,0x7562); (0x1E52,0x7570); (0x1E53,0x758F); (0x1E54,0x75D4);
  (0x1E55,0x75D5); (0x1E56,0x75B5); (0x1E57,0x75CA); (0x1E58,0x75CD); (0x1E59,0x768E); (0x1E5A,0x76D4); (0x1E5B,0x76D2); (0x1E5C,0x76DB);
  (0x1E5D,0x7737); (0x1E5E,0x773E); (0x1E5F,0x773C); (0x1E60,0x7736); (0x1E61,0x7738); (0x1E62,0x773A); (0x1E63,0x786B); (0x1E64,0x7843);
  (0x1E65,0x784E); (0x1E66,0x7965); (0x1E67,0x7968); (0x1E68,0x796D); (0x1E69,0x79FB); (0x1E6A,0x7A92); (0x1E6B,0x7A95); (0x1E6C,0x7B20);
  (0x1E6D,0x7B28); (0x1E6E,0x7B1B); (0x1E6F,0x7B2C); (0x1E70,0x7B26); (0x1E71,0x7B19); (0x1E72,0x7B1E); (0x1E73,0x7B2E); (0x1E74,0x7C92);
  (0x1E75,0x7C97); (0x1E76,0x7C95); (0x1E77,0x7D46); (0x1E78,0x7D43); (0x1E79,0x7D71); (0x1E7A,0x7D2E); (0x1E7B,0x7D39); (0x1E7C,0x7D3C)
].
(* encoding_tables/whatwg/index-big5.txt (pointer, code point), entries 6656..6911 *)
Definition big5_index_26 : list (N * N) := [
  (0x1E7D,0x7D40); (0x1E7E,0x7D30); (0x1E7F,0x7D33); (0x1E80,0x7D44); (0x1E81,0x7D2F); (0x1E82,0x7D42); (0x1E83,0x7D32); (0x1E84,0x7D31);
  (0x1E85,0x7F3D); (0x1E86,0x7F9E); (0x1E87,0x7F9A); (0x1E88,0x7FCC); (0x1E89,0x7FCE); (0x1E8A,0x7FD2); (0x1E8B,0x801C); (0x1E8C,0x804A);
  (0x1E8D,0x8046); (0x1E8E,0x812F); (0x1E8F,0x8116); (0x1E90,0x8123); (0x1E91,0x812B); (0x1E92,0x8129); (0x1E93,0x8130); (0x1E94,0x8124);
  (0x1E95,0x8202); (0x1E96,0x8235); (0x1E97,0x8237); (0x1E98,0x8236); (0x1E99,0x8239); (0x1E9A,0x838E); (0x1E9B,0x839E); (0x1E9C,0x8398);
  (0x1E9D,0x8378); (0x1E9E,0x83A2); (0x1E9F,0x8396); (0x1EA0,0x83BD); (0x1EA1,0x83AB); (0x1EA2,0x8392); (0x1EA3,0x838A); (0x1EA4,0x8393);
  (0x1EA5,0x8389); (0x1EA6,0x83A0); (0x1EA7,0x8377); (0x1EA8,0x837B); (0x1EA9,0x837C); (0x1EAA,0x8386); (0x1EAB,0x83A7); (0x1EAC,0x8655);
  (0x1EAD,0x5F6A); (0x1EAE,0x86C7); (0x1EAF,0x86C0); (0x1EB0,0x86B6); (0x1EB1,0x86C4); (0x1EB2,0x86B5); (0x1EB3,0x86C6); (0x1EB4,0x86CB);
  (0x1EB5,0x86B1); (0x1EB6,0x86AF); (0x1EB7,0x86C9); (0x1EB8,0x8853); (0x1EB9,0x889E); (0x1EBA,0x8888); (0x1EBB,0x88AB); (0x1EBC,0x8892);
  (0x1EBD,0x8896); (0x1EBE,0x888D); (0x1EBF,0x888B); (0x1EC0,0x8993); (0x1EC1,0x898F); (0x1EC2,0x8A2A); (0x1EC3,0x8A1D); (0x1EC4,0x8A23);
  (0x1EC5,0x8A25); (0x1EC6,0x8A31); (0x1EC7,0x8A2D); (0x1EC8,0x8A1F); (0x1EC9,0x8A1B); (0x1ECA,0x8A22); (0x1ECB,0x8C49); (0x1ECC,0x8C5A);
  (0x1ECD,0x8CA9); (0x1ECE,0x8CAC); (0x1ECF,0x8CAB); (0x1ED0,0x8CA8); (0x1ED1,0x8CAA); (0x1ED2,0x8CA7); (0x1ED3,0x8D67); (0x1ED4,0x8D66);
  (0x1ED5,0x8DBE); (0x1ED6,0x8DBA); (0x1ED7,0x8EDB); (0x1ED8,0x8EDF); (0x1ED9,0x9019); (0x1EDA,0x900D); (0x1EDB,0x901A); (0x1EDC,0x9017);
  (0x1EDD,0x9023); (0x1EDE,0x901F); (0x1EDF,0x901D); (0x1EE0,0x9010); (0x1EE1,0x9015); (0x1EE2,0x901E); (0x1EE3,0x9020); (0x1EE4,0x900F);
  (0x1EE5,0x9022); (0x1EE6,0x9016); (0x1EE7,0x901B); (0x1EE8,0x9014); (0x1EE9,0x90E8); (0x1EEA,0x90ED); (0x1EEB,0x90FD); (0x1EEC,0x9157);
  (0x1EED,0x91CE); (0x1EEE,0x91F5); (0x1EEF,0x91E6); (0x1EF0,0x91E3); (0x1EF1,0x91E7); (0x1EF2,0x91ED); (0x1EF3,0x91E9); (0x1EF4,0x9589);
  (0x1EF5,0x966A); (0x1EF6,0x9675); (0x1EF7,0x9673); (0x1EF8,0x9678); (0x1EF9,0x9670); (0x1EFA,0x9674); (0x1EFB,0x9676); (0x1EFC,0x9677);
  (0x1EFD,0x966C); (0x1EFE,0x96C0); (0x1EFF,0x96EA); (0x1F00,0x96E9); (0x1F01,0x7AE0); (0x1F02,0x7ADF); (0x1F03,0x9802); (0x1F04,0x9803);
  (0x1F05,0x9B5A); (0x1F06,0x9CE5); (0x1F07,0x9E75); (0x1F08,0x9E7F); (0x1F09,0x9EA5); (0x1F0A,0x9EBB); (0x1F0B,0x50A2); (0x1F0C,0x508D);
  (0x1F0D,0x5085); (0x1F0E,0x5099); (0x1F0F,0x5091); (0x1F10,0x5080); (0x1F11,0x5096); (0x1F12,0x5098); (0x1F13,0x509A); (0x1F14,0x6700);
  (0x1F15,0x51F1); (0x1F16,0x5272); (0x1F17,0x5274); (0x1F18,0x5275); (0x1F19,0x5269); (0x1F1A,0x52DE); (0x1F1B,0x52DD); (0x1F1C,0x52DB);
  (0x1F1D,0x535A); (0x1F1E,0x53A5); (0x1F1F,0x557B); (0x1F20,0x5580); (0x1F21,0x55A7); (0x1F22,0x557C); (0x1F23,0x558A); (0x1F24,0x559D);
  (0x1F25,0x5598); (0x1F26,0x5582); (0x1F27,0x559C); (0x1F28,0x55AA); (0x1F29,0x5594); (0x1F2A,0x5587); (0x1F2B,0x558B); (0x1F2C,0x5583);
  (0x1F2D,0x55B3); (0x1F2E,0x55AE); (0x1F2F,0x559F); (0x1F30,0x553E); (0x1F31,0x55B2); (0x1F32,0x559A); (0x1F33,0x55BB); (0x1F34,0x55AC);
  (0x1F35,0x55B1); (0x1F36,0x557E); (0x1F37,0x5589); (0x1F38,0x55AB); (0x1F39,0x5599); (0x1F3A,0x570D); (0x1F3B,0x582F); (0x1F3C,0x582A);
  (0x1F3D,0x5834); (0x1F3E,0x5824); (0x1F3F,0x5830); (0x1F40,0x5831); (0x1F41,0x5821); (0x1F42,0x581D); (0x1F43,0x5820); (0x1F44,0x58F9);
  (0x1F45,0x58FA); (0x1F46,0x5960); (0x1F47,0x5A77); (0x1F48,0x5A9A); (0x1F49,0x5A7F); (0x1F4A,0x5A92); (0x1F4B,0x5A9B); (0x1F4C,0x5AA7);
  (0x1F4D,0x5B73); (0x1F4E,0x5B71); (0x1F4F,0x5BD2); (0x1F50,0x5BCC); (0x1F51,0x5BD3); (0x1F52,0x5BD0); (0x1F53,0x5C0A); (0x1F54,0x5C0B);
  (0x1F55,0x5C31); (0x1F56,0x5D4C); (0x1F57,0x5D50); (0x1F58,0x5D34); (0x1F59,0x5D47); (0x1F5A,0x5DFD); (0x1F5B,0x5E45); (0x1F5C,0x5E3D);
  (0x1F5D,0x5E40); (0x1F5E,0x5E43); (0x1F5F,0x5E7E); (0x1F60,0x5ECA); (0x1F61,0x5EC1); (0x1F62,0x5EC2); (0x1F63,0x5EC4); (0x1F64,0x5F3C);
  (0x1F65,0x5F6D); (0x1F66,0x5FA9); (0x1F67,0x5FAA); (0x1F68,0x5FA8); (0x1F69,0x60D1); (0x1F6A,0x60E1); (0x1F6B,0x60B2); (0x1F6C,0x60B6);
  (0x1F6D,0x60E0); (0x1F6E,0x611C); (0x1F6F,0x6123); (0x1F70,0x60FA); (0x1F71,0x6115); (0x1F72,0x60F0); (0x1F73,0x60FB); (0x1F74,0x60F4);
  (0x1F75,0x6168); (0x1F76,0x60F1); (0x1F77,0x610E); (0x1F78,0x60F6); (0x1F79,0x6109); (0x1F7A,0x6100); (0x1F7B,0x6112); (0x1F7C,0x621F)
].
(* encoding_tables/whatwg/index-big5.txt (pointer, code point), entries 6912..7167 *)
Definition big5_index_27 : list (N * N) := [
  (0x1F7D,0x6249); (0x1F7E,0x63A3); (0x1F7F,0x638C); (0x1F80,0x63CF); (0x1F81,0x63C0); (0x1F82,0x63E9); (0x1F83,0x63C9); (0x1F84,0x63C6);
  (0x1F85,0x63CD); (0x1F86,0x63D2); (0x1F87,0x63E3); (0x1F88,0x63D0); (0x1F89,0x63E1); (0x1F8A,0x63D6); (0x1F8B,0x63ED); (0x1F8C,0x63EE);
  (0x1F8D,0x6376); (0x1F8E,0x63F4); (0x1F8F,0x63EA); (0x1F90,0x63DB); (0x1F91,0x6452); (0x1F92,0x63DA); (0x1F93,0x63F9); (0x1F94,0x655E);
  (0x1F95,0x6566); (0x1F96,0x6562); (0x1F97,0x6563); (0x1F98,0x6591); (0x1F99,0x6590); (0x1F9A,0x65AF); (0x1F9B,0x666E); (0x1F9C,0x6670);
  (0x1F9D,0x6674); (0x1F9E,0x6676); (0x1F9F,0x666F); (0x1FA0,0x6691); (0x1FA1,0x667A); (0x1FA2,0x667E); (0x1FA3,0x6677); (0x1FA4,0x66FE);
  (0x1FA5,0x66FF); (0x1FA6,0x671F); (0x1FA7,0x671D); (0x1FA8,0x68FA); (0x1FA9,0x68D5); (0x1FAA,0x68E0); (0x1FAB,0x68D8); (0x1FAC,0x68D7);
  (0x1FAD,0x6905); (0x1FAE,0x68DF); (0x1FAF,0x68F5); (0x1FB0,0x68EE); (0x1FB1,0x68E7); (0x1FB2,0x68F9); (0x1FB3,0x68D2); (0x1FB4,0x68F2);
  (0x1FB5,0x68E3); (0x1FB6,0x68CB); (0x1FB7,0x68CD); (0x1FB8,0x690D); (0x1FB9,0x6912); (0x1FBA,0x690E); (0x1FBB,0x68C9); (0x1FBC,0x68DA);
  (0x1FBD,0x696E); (0x1FBE,0x68FB); (0x1FBF,0x6B3E); (0x1FC0,0x6B3A); (0x1FC1,0x6B3D); (0x1FC2,0x6B98); (0x1FC3,0x6B96); (0x1FC4,0x6BBC);
  (0x1FC5,0x6BEF); (0x1FC6,0x6C2E); (0x1FC7,0x6C2F); (0x1FC8,0x6C2C); (0x1FC9,0x6E2F); (0x1FCA,0x6E38); (0x1FCB,0x6E54); (0x1FCC,0x6E21);
  (0x1FCD,0x6E32); (0x1FCE,0x6E67); (0x1FCF,0x6E4A); (0x1FD0,0x6E20); (0x1FD1,0x6E25); (0x1FD2,0x6E23); (0x1FD3,0x6E1B); (0x1FD4,0x6E5B);
  (0x1FD5,0x6E58); (0x1FD6,0x6E24); (0x1FD7,0x6E56); (0x1FD8,0x6E6E); (0x1FD9,0x6E2D); (0x1FDA,0x6E26); (0x1FDB,0x6E6F); (0x1FDC,0x6E34);
  (0x1FDD,0x6E4D); (0x1FDE,0x6E3A); (0x1FDF,0x6E2C); (0x1FE0,0x6E43); (0x1FE1,0x6E1D); (0x1FE2,0x6E3E); (0x1FE3,0x6ECB); (0x1FE4,0x6E89);
  (0x1FE5,0x6E19); (0x1FE6,0x6E4E); (0x1FE7,0x6E63); (0x1FE8,0x6E44); (0x1FE9,0x6E72); (0x1FEA,0x6E69); (0x1FEB,0x6E5F); (0x1FEC,0x7119);
  (0x1FED,0x711A); (0x1FEE,0x7126); (0x1FEF,0x7130); (0x1FF0,0x7121); (0x1FF1,0x7136); (0x1FF2,0x716E); (0x1FF3,0x711C); (0x1FF4,0x724C);
  (0x1FF5,0x7284); (0x1FF6,0x7280); (0x1FF7,0x7336); (0x1FF8,0x7325); (0x1FF9,0x7334); (0x1FFA,0x7329); (0x1FFB,0x743A); (0x1FFC,0x742A);
  (0x1FFD,0x7433); (0x1FFE,0x7422); (0x1FFF,0x7425); (0x2000,0x7435); (0x2001,0x7436); (0x2002,0x7434); (0x2003,0x742F); (0x2004,0x741B);
  (0x2005,0x7426); (0x2006,0x7428); (0x2007,0x7525); (0x2008,0x7526); (0x2009,0x756B); (0x200A,0x756A); (0x200B,0x75E2); (0x200C,0x75DB);
  (0x200D,0x75E3); (0x200E,0x75D9); (0x200F,0x75D8); (0x2010,0x75DE); (0x2011,0x75E0); (0x2012,0x767B); (0x2013,0x767C); (0x2014,0x7696);
  (0x2015,0x7693); (0x2016,0x76B4); (0x2017,0x76DC); (0x2018,0x774F); (0x2019,0x77ED); (0x201A,0x785D); (0x201B,0x786C); (0x201C,0x786F);
  (0x201D,0x7A0D); (0x201E,0x7A08); (0x201F,0x7A0B); (0x2020,0x7A05); (0x2021,0x7A00); (0x2022,0x7A98); (0x2023,0x7A97); (0x2024,0x7A96);
  (0x2025,0x7AE5); (0x2026,0x7AE3); (0x2027,0x7B49); (0x2028,0x7B56); (0x2029,0x7B46); (0x202A,0x7B50); (0x202B,0x7B52); (0x202C,0x7B54);
  (0x202D,0x7B4D); (0x202E,0x7B4B); (0x202F,0x7B4F); (0x2030,0x7B51); (0x2031,0x7C9F); (0x2032,0x7CA5); (0x2033,0x7D5E); (0x2034,0x7D50);
  (0x2035,0x7D68); (0x2036,0x7D55); (0x2037,0x7D2B); (0x2038,0x7D6E); (0x2039,0x7D72); (0x203A,0x7D61); (0x203B,0x7D66); (0x203C,0x7D62);
  (0x203D,0x7D70); (0x203E,0x7D73); (0x203F,0x5584); (0x2040,0x7FD4); (0x2041,0x7FD5); (0x2042,0x800B); (0x2043,0x8052); (0x2044,0x8085);
  (0x2045,0x8155); (0x2046,0x8154); (0x2047,0x814B); (0x2048,0x8151); (0x2049,0x814E); (0x204A,0x8139); (0x204B,0x8146); (0x204C,0x813E);
  (0x204D,0x814C); (0x204E,0x8153); (0x204F,0x8174); (0x2050,0x8212); (0x2051,0x821C); (0x2052,0x83E9); (0x2053,0x8403); (0x2054,0x83F8);
  (0x2055,0x840D); (0x2056,0x83E0); (0x2057,0x83C5); (0x2058,0x840B); (0x2059,0x83C1); (0x205A,0x83EF); (0x205B,0x83F1); (0x205C,0x83F4);
  (0x205D,0x8457); (0x205E,0x840A); (0x205F,0x83F0); (0x2060,0x840C); (0x2061,0x83CC); (0x2062,0x83FD); (0x2063,0x83F2); (0x2064,0x83CA);
  (0x2065,0x8438); (0x2066,0x840E); (0x2067,0x8404); (0x2068,0x83DC); (0x2069,0x8407); (0x206A,0x83D4); (0x206B,0x83DF); (0x206C,0x865B);
  (0x206D,0x86DF); (0x206E,0x86D9); (0x206F,0x86ED); (0x2070,0x86D4); (0x2071,0x86DB); (0x2072,0x86E4); (0x2073,0x86D0); (0x2074,0x86DE);
  (0x2075,0x8857); (0x2076,0x88C1); (0x2077,0x88C2); (0x2078,0x88B1); (0x2079,0x8983); (0x207A,0x8996); (0x207B,0x8A3B); (0x207C,0x8A60)
].
(* encoding_tables/whatwg/index-big5.txt (pointer, code point), entries 7168..7423 *)
Definition big5_index_28 : list (N * N) := [
  (0x207D,0x8A55); (0x207E,0x8A5E); (0x207F,0x8A3C); (0x2080,0x8A41); (0x2081,0x8A54); (0x2082,0x8A5B); (0x2083,0x8A50); (0x2084,0x8A46);
  (0x2085,0x8A34); (0x2086,0x8A3A); (0x2087,0x8A36); (0x2088,0x8A56); (0x2089,0x8C61); (0x208A,0x8C82); (0x208B,0x8CAF); (0x208C,0x8CBC);
  (0x208D,0x8CB3); (0x208E,0x8CBD); (0x208F,0x8CC1); (0x2090,0x8CBB); (0x2091,0x8CC0); (0x2092,0x8CB4); (0x2093,0x8CB7); (0x2094,0x8CB6);
  (0x2095,0x8CBF); (0x2096,0x8CB8); (0x2097,0x8D8A); (0x2098,0x8D85); (0x2099,0x8D81); (0x209A,0x8DCE); (0x209B,0x8DDD); (0x209C,0x8DCB);
  (0x209D,0x8DDA); (0x209E,0x8DD1); (0x209F,0x8DCC); (0x20A0,0x8DDB); (0x20A1,0x8DC6); (0x20A2,0x8EFB); (0x20A3,0x8EF8); (0x20A4,0x8EFC);
  (0x20A5,0x8F9C); (0x20A6,0x902E); (0x20A7,0x9035); (0x20A8,0x9031); (0x20A9,0x9038); (0x20AA,0x9032); (0x20AB,0x9036); (0x20AC,0x9102);
  (0x20AD,0x90F5); (0x20AE,0x9109); (0x20AF,0x90FE); (0x20B0,0x9163); (0x20B1,0x9165); (0x20B2,0x91CF); (0x20B3,0x9214); (0x20B4,0x9215);
  (0x20B5,0x9223); (0x20B6,0x9209); (0x20B7,0x921E); (0x20B8,0x920D); (0x20B9,0x9210); (0x20BA,0x9207); (0x20BB,0x9211); (0x20BC,0x9594);
  (0x20BD,0x958F); (0x20BE,0x958B); (0x20BF,0x9591); (0x20C0,0x9593); (0x20C1,0x9592); (0x20C2,0x958E); (0x20C3,0x968A); (0x20C4,0x968E);
  (0x20C5,0x968B); (0x20C6,0x967D); (0x20C7,0x9685); (0x20C8,0x9686); (0x20C9,0x968D); (0x20CA,0x9672); (0x20CB,0x9684); (0x20CC,0x96C1);
  (0x20CD,0x96C5); (0x20CE,0x96C4); (0x20CF,0x96C6); (0x20D0,0x96C7); (0x20D1,0x96EF); (0x20D2,0x96F2); (0x20D3,0x97CC); (0x20D4,0x9805);
  (0x20D5,0x9806); (0x20D6,0x9808); (0x20D7,0x98E7); (0x20D8,0x98EA); (0x20D9,0x98EF); (0x20DA,0x98E9); (0x20DB,0x98F2); (0x20DC,0x98ED);
  (0x20DD,0x99AE); (0x20DE,0x99AD); (0x20DF,0x9EC3); (0x20E0,0x9ECD); (0x20E1,0x9ED1); (0x20E2,0x4E82); (0x20E3,0x50AD); (0x20E4,0x50B5);
  (0x20E5,0x50B2); (0x20E6,0x50B3); (0x20E7,0x50C5); (0x20E8,0x50BE); (0x20E9,0x50AC); (0x20EA,0x50B7); (0x20EB,0x50BB); (0x20EC,0x50AF);
  (0x20ED,0x50C7); (0x20EE,0x527F); (0x20EF,0x5277); (0x20F0,0x527D); (0x20F1,0x52DF); (0x20F2,0x52E6); (0x20F3,0x52E4); (0x20F4,0x52E2);
  (0x20F5,0x52E3); (0x20F6,0x532F); (0x20F7,0x55DF); (0x20F8,0x55E8); (0x20F9,0x55D3); (0x20FA,0x55E6); (0x20FB,0x55CE); (0x20FC,0x55DC);
  (0x20FD,0x55C7); (0x20FE,0x55D1); (0x20FF,0x55E3); (0x2100,0x55E4); (0x2101,0x55EF); (0x2102,0x55DA); (0x2103,0x55E1); (0x2104,0x55C5);
  (0x2105,0x55C6); (0x2106,0x55E5); (0x2107,0x55C9); (0x2108,0x5712); (0x2109,0x5713); (0x210A,0x585E); (0x210B,0x5851); (0x210C,0x5858);
  (0x210D,0x5857); (0x210E,0x585A); (0x210F,0x5854); (0x2110,0x586B); (0x2111,0x584C); (0x2112,0x586D); (0x2113,0x584A); (0x2114,0x5862);
  (0x2115,0x5852); (0x2116,0x584B); (0x2117,0x5967); (0x2118,0x5AC1); (0x2119,0x5AC9); (0x211A,0x5ACC); (0x211B,0x5ABE); (0x211C,0x5ABD);
  (0x211D,0x5ABC); (0x211E,0x5AB3); (0x211F,0x5AC2); (0x2120,0x5AB2); (0x2121,0x5D69); (0x2122,0x5D6F); (0x2123,0x5E4C); (0x2124,0x5E79);
  (0x2125,0x5EC9); (0x2126,0x5EC8); (0x2127,0x5F12); (0x2128,0x5F59); (0x2129,0x5FAC); (0x212A,0x5FAE); (0x212B,0x611A); (0x212C,0x610F);
  (0x212D,0x6148); (0x212E,0x611F); (0x212F,0x60F3); (0x2130,0x611B); (0x2131,0x60F9); (0x2132,0x6101); (0x2133,0x6108); (0x2134,0x614E);
  (0x2135,0x614C); (0x2136,0x6144); (0x2137,0x614D); (0x2138,0x613E); (0x2139,0x6134); (0x213A,0x6127); (0x213B,0x610D); (0x213C,0x6106);
  (0x213D,0x6137); (0x213E,0x6221); (0x213F,0x6222); (0x2140,0x6413); (0x2141,0x643E); (0x2142,0x641E); (0x2143,0x642A); (0x2144,0x642D);
  (0x2145,0x643D); (0x2146,0x642C); (0x2147,0x640F); (0x2148,0x641C); (0x2149,0x6414); (0x214A,0x640D); (0x214B,0x6436); (0x214C,0x6416);
  (0x214D,0x6417); (0x214E,0x6406); (0x214F,0x656C); (0x2150,0x659F); (0x2151,0x65B0); (0x2152,0x6697); (0x2153,0x6689); (0x2154,0x6687);
  (0x2155,0x6688); (0x2156,0x6696); (0x2157,0x6684); (0x2158,0x6698); (0x2159,0x668D); (0x215A,0x6703); (0x215B,0x6994); (0x215C,0x696D);
  (0x215D,0x695A); (0x215E,0x6977); (0x215F,0x6960); (0x2160,0x6954); (0x2161,0x6975); (0x2162,0x6930); (0x2163,0x6982); (0x2164,0x694A);
  (0x2165,0x6968); (0x2166,0x696B); (0x2167,0x695E); (0x2168,0x6953); (0x2169,0x6979); (0x216A,0x6986); (0x216B,0x695D); (0x216C,0x6963);
  (0x216D,0x695B); (0x216E,0x6B47); (0x216F,0x6B72); (0x2170,0x6BC0); (0x2171,0x6BBF); (0x2172,0x6BD3); (0x2173,0x6BFD); (0x2174,0x6EA2);
  (0x2175,0x6EAF); (0x2176,0x6ED3); (0x2177,0x6EB6); (0x2178,0x6EC2); (0x2179,0x6E90); (0x217A,0x6E9D); (0x217B,0x6EC7); (0x217C,0x6EC5)
].
(* encoding_tables/whatwg/index-big5.txt (pointer, code point), entries 7424..7679 *)
Definition big5_index_29 : list (N * N) := [
  (0x217D,0x6EA5); (0x217E,0x6E98); (0x217F,0x6EBC); (0x2180,0x6EBA); (0x2181,0x6EAB); (0x2182,0x6ED1); (0x2183,0x6E96); (0x2184,0x6E9C);
  (0x2185,0x6EC4); (0x2186,0x6ED4); (0x2187,0x6EAA); (0x2188,0x6EA7); (0x2189,0x6EB4); (0x218A,0x714E); (0x218B,0x7159); (0x218C,0x7169);
  (0x218D,0x7164); (0x218E,0x7149); (0x218F,0x7167); (0x2190,0x715C); (0x2191,0x716C); (0x2192,0x7166); (0x2193,0x714C); (0x2194,0x7165);
  (0x2195,0x715E); (0x2196,0x7146); (0x2197,0x7168); (0x2198,0x7156); (0x2199,0x723A); (0x219A,0x7252); (0x219B,0x7337); (0x219C,0x7345);
  (0x219D,0x733F); (0x219E,0x733E); (0x219F,0x746F); (0x21A0,0x745A); (0x21A1,0x7455); (0x21A2,0x745F); (0x21A3,0x745E); (0x21A4,0x7441);
  (0x21A5,0x743F); (0x21A6,0x7459); (0x21A7,0x745B); (0x21A8,0x745C); (0x21A9,0x7576); (0x21AA,0x7578); (0x21AB,0x7600); (0x21AC,0x75F0);
  (0x21AD,0x7601); (0x21AE,0x75F2); (0x21AF,0x75F1); (0x21B0,0x75FA); (0x21B1,0x75FF); (0x21B2,0x75F4); (0x21B3,0x75F3); (0x21B4,0x76DE);
  (0x21B5,0x76DF); (0x21B6,0x775B); (0x21B7,0x776B); (0x21B8,0x7766); (0x21B9,0x775E); (0x21BA,0x7763); (0x21BB,0x7779); (0x21BC,0x776A);
  (0x21BD,0x776C); (0x21BE,0x775C); (0x21BF,0x7765); (0x21C0,0x7768); (0x21C1,0x7762); (0x21C2,0x77EE); (0x21C3,0x788E); (0x21C4,0x78B0);
  (0x21C5,0x7897); (0x21C6,0x7898); (0x21C7,0x788C); (0x21C8,0x7889); (0x21C9,0x787C); (0x21CA,0x7891); (0x21CB,0x7893); (0x21CC,0x787F);
  (0x21CD,0x797A); (0x21CE,0x797F); (0x21CF,0x7981); (0x21D0,0x842C); (0x21D1,0x79BD); (0x21D2,0x7A1C); (0x21D3,0x7A1A); (0x21D4,0x7A20);
  (0x21D5,0x7A14); (0x21D6,0x7A1F); (0x21D7,0x7A1E); (0x21D8,0x7A9F); (0x21D9,0x7AA0); (0x21DA,0x7B77); (0x21DB,0x7BC0); (0x21DC,0x7B60);
  (0x21DD,0x7B6E); (0x21DE,0x7B67); (0x21DF,0x7CB1); (0x21E0,0x7CB3); (0x21E1,0x7CB5); (0x21E2,0x7D93); (0x21E3,0x7D79); (0x21E4,0x7D91);
  (0x21E5,0x7D81); (0x21E6,0x7D8F); (0x21E7,0x7D5B); (0x21E8,0x7F6E); (0x21E9,0x7F69); (0x21EA,0x7F6A); (0x21EB,0x7F72); (0x21EC,0x7FA9);
  (0x21ED,0x7FA8); (0x21EE,0x7FA4); (0x21EF,0x8056); (0x21F0,0x8058); (0x21F1,0x8086); (0x21F2,0x8084); (0x21F3,0x8171); (0x21F4,0x8170);
  (0x21F5,0x8178); (0x21F6,0x8165); (0x21F7,0x816E); (0x21F8,0x8173); (0x21F9,0x816B); (0x21FA,0x8179); (0x21FB,0x817A); (0x21FC,0x8166);
  (0x21FD,0x8205); (0x21FE,0x8247); (0x21FF,0x8482); (0x2200,0x8477); (0x2201,0x843D); (0x2202,0x8431); (0x2203,0x8475); (0x2204,0x8466);
  (0x2205,0x846B); (0x2206,0x8449); (0x2207,0x846C); (0x2208,0x845B); (0x2209,0x843C); (0x220A,0x8435); (0x220B,0x8461); (0x220C,0x8463);
  (0x220D,0x8469); (0x220E,0x846D); (0x220F,0x8446); (0x2210,0x865E); (0x2211,0x865C); (0x2212,0x865F); (0x2213,0x86F9); (0x2214,0x8713);
  (0x2215,0x8708); (0x2216,0x8707); (0x2217,0x8700); (0x2218,0x86FE); (0x2219,0x86FB); (0x221A,0x8702); (0x221B,0x8703); (0x221C,0x8706);
  (0x221D,0x870A); (0x221E,0x8859); (0x221F,0x88DF); (0x2220,0x88D4); (0x2221,0x88D9); (0x2222,0x88DC); (0x2223,0x88D8); (0x2224,0x88DD);
  (0x2225,0x88E1); (0x2226,0x88CA); (0x2227,0x88D5); (0x2228,0x88D2); (0x2229,0x899C); (0x222A,0x89E3); (0x222B,0x8A6B); (0x222C,0x8A72);
  (0x222D,0x8A73); (0x222E,0x8A66); (0x222F,0x8A69); (0x2230,0x8A70); (0x2231,0x8A87); (0x2232,0x8A7C); (0x2233,0x8A63); (0x2234,0x8AA0);
  (0x2235,0x8A71); (0x2236,0x8A85); (0x2237,0x8A6D); (0x2238,0x8A62); (0x2239,0x8A6E); (0x223A,0x8A6C); (0x223B,0x8A79); (0x223C,0x8A7B);
  (0x223D,0x8A3E); (0x223E,0x8A68); (0x223F,0x8C62); (0x2240,0x8C8A); (0x2241,0x8C89); (0x2242,0x8CCA); (0x2243,0x8CC7); (0x2244,0x8CC8);
  (0x2245,0x8CC4); (0x2246,0x8CB2); (0x2247,0x8CC3); (0x2248,0x8CC2); (0x2249,0x8CC5); (0x224A,0x8DE1); (0x224B,0x8DDF); (0x224C,0x8DE8);
  (0x224D,0x8DEF); (0x224E,0x8DF3); (0x224F,0x8DFA); (0x2250,0x8DEA); (0x2251,0x8DE4); (0x2252,0x8DE6); (0x2253,0x8EB2); (0x2254,0x8F03);
  (0x2255,0x8F09); (0x2256,0x8EFE); (0x2257,0x8F0A); (0x2258,0x8F9F); (0x2259,0x8FB2); (0x225A,0x904B); (0x225B,0x904A); (0x225C,0x9053);
  (0x225D,0x9042); (0x225E,0x9054); (0x225F,0x903C); (0x2260,0x9055); (0x2261,0x9050); (0x2262,0x9047); (0x2263,0x904F); (0x2264,0x904E);
  (0x2265,0x904D); (0x2266,0x9051); (0x2267,0x903E); (0x2268,0x9041); (0x2269,0x9112); (0x226A,0x9117); (0x226B,0x916C); (0x226C,0x916A);
  (0x226D,0x9169); (0x226E,0x91C9); (0x226F,0x9237); (0x2270,0x9257); (0x2271,0x9238); (0x2272,0x923D); (0x2273,0x9240); (0x2274,0x923E);
  (0x2275,0x925B); (0x2276,0x924B); (0x2277,0x9264); (0x2278,0x9251); (0x2279,0x9234); (0x227A,0x9249); (0x227B,0x924D); (0x227C,0x9245)
].
(* encoding_tables/whatwg/index-big5.txt (pointer, code point), entries 7680..7935 *)
Definition big5_index_30 : list (N * N) := [
  (0x227D,0x9239); (0x227E,0x923F); (0x227F,0x925A); (0x2280,0x9598); (0x2281,0x9698); (0x2282,0x9694); (0x2283,0x9695); (0x2284,0x96CD);
  (0x2285,0x96CB); (0x2286,0x96C9); (0x2287,0x96CA); (0x2288,0x96F7); (0x2289,0x96FB); (0x228A,0x96F9); (0x228B,0x96F6); (0x228C,0x9756);
  (0x228D,0x9774); (0x228E,0x9776); (0x228F,0x9810); (0x2290,0x9811); (0x2291,0x9813); (0x2292,0x980A); (0x2293,0x9812); (0x2294,0x980C);
  (0x2295,0x98FC); (0x2296,0x98F4); (0x2297,0x98FD); (0x2298,0x98FE); (0x2299,0x99B3); (0x229A,0x99B1); (0x229B,0x99B4); (0x229C,0x9AE1);
  (0x229D,0x9CE9); (0x229E,0x9E82); (0x229F,0x9F0E); (0x22A0,0x9F13); (0x22A1,0x9F20); (0x22A2,0x50E7); (0x22A3,0x50EE); (0x22A4,0x50E5);
  (0x22A5,0x50D6); (0x22A6,0x50ED); (0x22A7,0x50DA); (0x22A8,0x50D5); (0x22A9,0x50CF); (0x22AA,0x50D1); (0x22AB,0x50F1); (0x22AC,0x50CE);
  (0x22AD,0x50E9); (0x22AE,0x5162); (0x22AF,0x51F3); (0x22B0,0x5283); (0x22B1,0x5282); (0x22B2,0x5331); (0x22B3,0x53AD); (0x22B4,0x55FE);
  (0x22B5,0x5600); (0x22B6,0x561B); (0x22B7,0x5617); (0x22B8,0x55FD); (0x22B9,0x5614); (0x22BA,0x5606); (0x22BB,0x5609); (0x22BC,0x560D);
  (0x22BD,0x560E); (0x22BE,0x55F7); (0x22BF,0x5616); (0x22C0,0x561F); (0x22C1,0x5608); (0x22C2,0x5610); (0x22C3,0x55F6); (0x22C4,0x5718);
  (0x22C5,0x5716); (0x22C6,0x5875); (0x22C7,0x587E); (0x22C8,0x5883); (0x22C9,0x5893); (0x22CA,0x588A); (0x22CB,0x5879); (0x22CC,0x5885);
  (0x22CD,0x587D); (0x22CE,0x58FD); (0x22CF,0x5925); (0x22D0,0x5922); (0x22D1,0x5924); (0x22D2,0x596A); (0x22D3,0x5969); (0x22D4,0x5AE1);
  (0x22D5,0x5AE6); (0x22D6,0x5AE9); (0x22D7,0x5AD7); (0x22D8,0x5AD6); (0x22D9,0x5AD8); (0x22DA,0x5AE3); (0x22DB,0x5B75); (0x22DC,0x5BDE);
  (0x22DD,0x5BE7); (0x22DE,0x5BE1); (0x22DF,0x5BE5); (0x22E0,0x5BE6); (0x22E1,0x5BE8); (0x22E2,0x5BE2); (0x22E3,0x5BE4); (0x22E4,0x5BDF);
  (0x22E5,0x5C0D); (0x22E6,0x5C62); (0x22E7,0x5D84); (0x22E8,0x5D87); (0x22E9,0x5E5B); (0x22EA,0x5E63); (0x22EB,0x5E55); (0x22EC,0x5E57);
  (0x22ED,0x5E54); (0x22EE,0x5ED3); (0x22EF,0x5ED6); (0x22F0,0x5F0A); (0x22F1,0x5F46); (0x22F2,0x5F70); (0x22F3,0x5FB9); (0x22F4,0x6147);
  (0x22F5,0x613F); (0x22F6,0x614B); (0x22F7,0x6177); (0x22F8,0x6162); (0x22F9,0x6163); (0x22FA,0x615F); (0x22FB,0x615A); (0x22FC,0x6158);
  (0x22FD,0x6175); (0x22FE,0x622A); (0x22FF,0x6487); (0x2300,0x6458); (0x2301,0x6454); (0x2302,0x64A4); (0x2303,0x6478); (0x2304,0x645F);
  (0x2305,0x647A); (0x2306,0x6451); (0x2307,0x6467); (0x2308,0x6434); (0x2309,0x646D); (0x230A,0x647B); (0x230B,0x6572); (0x230C,0x65A1);
  (0x230D,0x65D7); (0x230E,0x65D6); (0x230F,0x66A2); (0x2310,0x66A8); (0x2311,0x669D); (0x2312,0x699C); (0x2313,0x69A8); (0x2314,0x6995);
  (0x2315,0x69C1); (0x2316,0x69AE); (0x2317,0x69D3); (0x2318,0x69CB); (0x2319,0x699B); (0x231A,0x69B7); (0x231B,0x69BB); (0x231C,0x69AB);
  (0x231D,0x69B4); (0x231E,0x69D0); (0x231F,0x69CD); (0x2320,0x69AD); (0x2321,0x69CC); (0x2322,0x69A6); (0x2323,0x69C3); (0x2324,0x69A3);
  (0x2325,0x6B49); (0x2326,0x6B4C); (0x2327,0x6C33); (0x2328,0x6F33); (0x2329,0x6F14); (0x232A,0x6EFE); (0x232B,0x6F13); (0x232C,0x6EF4);
  (0x232D,0x6F29); (0x232E,0x6F3E); (0x232F,0x6F20); (0x2330,0x6F2C); (0x2331,0x6F0F); (0x2332,0x6F02); (0x2333,0x6F22); (0x2334,0x6EFF);
  (0x2335,0x6EEF); (0x2336,0x6F06); (0x2337,0x6F31); (0x2338,0x6F38); (0x2339,0x6F32); (0x233A,0x6F23); (0x233B,0x6F15); (0x233C,0x6F2B);
  (0x233D,0x6F2F); (0x233E,0x6F88); (0x233F,0x6F2A); (0x2340,0x6EEC); (0x2341,0x6F01); (0x2342,0x6EF2); (0x2343,0x6ECC); (0x2344,0x6EF7);
  (0x2345,0x7194); (0x2346,0x7199); (0x2347,0x717D); (0x2348,0x718A); (0x2349,0x7184); (0x234A,0x7192); (0x234B,0x723E); (0x234C,0x7292);
  (0x234D,0x7296); (0x234E,0x7344); (0x234F,0x7350); (0x2350,0x7464); (0x2351,0x7463); (0x2352,0x746A); (0x2353,0x7470); (0x2354,0x746D);
  (0x2355,0x7504); (0x2356,0x7591); (0x2357,0x7627); (0x2358,0x760D); (0x2359,0x760B); (0x235A,0x7609); (0x235B,0x7613); (0x235C,0x76E1);
  (0x235D,0x76E3); (0x235E,0x7784); (0x235F,0x777D); (0x2360,0x777F); (0x2361,0x7761); (0x2362,0x78C1); (0x2363,0x789F); (0x2364,0x78A7);
  (0x2365,0x78B3); (0x2366,0x78A9); (0x2367,0x78A3); (0x2368,0x798E); (0x2369,0x798F); (0x236A,0x798D); (0x236B,0x7A2E); (0x236C,0x7A31);
  (0x236D,0x7AAA); (0x236E,0x7AA9); (0x236F,0x7AED); (0x2370,0x7AEF); (0x2371,0x7BA1); (0x2372,0x7B95); (0x2373,0x7B8B); (0x2374,0x7B75);
  (0x2375,0x7B97); (0x2376,0x7B9D); (0x2377,0x7B94); (0x2378,0x7B8F); (0x2379,0x7BB8); (0x237A,0x7B87); (0x237B,0x7B84); (0x237C,0x7CB9)
].
(* encoding_tables/whatwg/index-big5.txt (pointer, code point), entries 7936..8191 *)
Definition big5_index_31 : list (N * N) := [
  (0x237D,0x7CBD); (0x237E,0x7CBE); (0x237F,0x7DBB); (0x2380,0x7DB0); (0x2381,0x7D9C); (0x2382,0x7DBD); (0x2383,0x7DBE); (0x2384,0x7DA0);
  (0x2385,0x7DCA); (0x2386,0x7DB4); (0x2387,0x7DB2); (0x2388,0x7DB1); (0x2389,0x7DBA); (0x238A,0x7DA2); (0x238B,0x7DBF); (0x238C,0x7DB5);
  (0x238D,0x7DB8); (0x238E,0x7DAD); (0x238F,0x7DD2); (0x2390,0x7DC7); (0x2391,0x7DAC); (0x2392,0x7F70); (0x2393,0x7FE0); (0x2394,0x7FE1);
  (0x2395,0x7FDF); (0x2396,0x805E); (0x2397,0x805A); (0x2398,0x8087); (0x2399,0x8150); (0x239A,0x8180); (0x239B,0x818F); (0x239C,0x8188);
  (0x239D,0x818A); (0x239E,0x817F); (0x239F,0x8182); (0x23A0,0x81E7); (0x23A1,0x81FA); (0x23A2,0x8207); (0x23A3,0x8214); (0x23A4,0x821E);
  (0x23A5,0x824B); (0x23A6,0x84C9); (0x23A7,0x84BF); (0x23A8,0x84C6); (0x23A9,0x84C4); (0x23AA,0x8499); (0x23AB,0x849E); (0x23AC,0x84B2);
  (0x23AD,0x849C); (0x23AE,0x84CB); (0x23AF,0x84B8); (0x23B0,0x84C0); (0x23B1,0x84D3); (0x23B2,0x8490); (0x23B3,0x84BC); (0x23B4,0x84D1);
  (0x23B5,0x84CA); (0x23B6,0x873F); (0x23B7,0x871C); (0x23B8,0x873B); (0x23B9,0x8722); (0x23BA,0x8725); (0x23BB,0x8734); (0x23BC,0x8718);
  (0x23BD,0x8755); (0x23BE,0x8737); (0x23BF,0x8729); (0x23C0,0x88F3); (0x23C1,0x8902); (0x23C2,0x88F4); (0x23C3,0x88F9); (0x23C4,0x88F8);
  (0x23C5,0x88FD); (0x23C6,0x88E8); (0x23C7,0x891A); (0x23C8,0x88EF); (0x23C9,0x8AA6); (0x23CA,0x8A8C); (0x23CB,0x8A9E); (0x23CC,0x8AA3);
  (0x23CD,0x8A8D); (0x23CE,0x8AA1); (0x23CF,0x8A93); (0x23D0,0x8AA4); (0x23D1,0x8AAA); (0x23D2,0x8AA5); (0x23D3,0x8AA8); (0x23D4,0x8A98);
  (0x23D5,0x8A91); (0x23D6,0x8A9A); (0x23D7,0x8AA7); (0x23D8,0x8C6A); (0x23D9,0x8C8D); (0x23DA,0x8C8C); (0x23DB,0x8CD3); (0x23DC,0x8CD1);
  (0x23DD,0x8CD2); (0x23DE,0x8D6B); (0x23DF,0x8D99); (0x23E0,0x8D95); (0x23E1,0x8DFC); (0x23E2,0x8F14); (0x23E3,0x8F12); (0x23E4,0x8F15);
  (0x23E5,0x8F13); (0x23E6,0x8FA3); (0x23E7,0x9060); (0x23E8,0x9058); (0x23E9,0x905C); (0x23EA,0x9063); (0x23EB,0x9059); (0x23EC,0x905E);
  (0x23ED,0x9062); (0x23EE,0x905D); (0x23EF,0x905B); (0x23F0,0x9119); (0x23F1,0x9118); (0x23F2,0x911E); (0x23F3,0x9175); (0x23F4,0x9178);
  (0x23F5,0x9177); (0x23F6,0x9174); (0x23F7,0x9278); (0x23F8,0x9280); (0x23F9,0x9285); (0x23FA,0x9298); (0x23FB,0x9296); (0x23FC,0x927B);
  (0x23FD,0x9293); (0x23FE,0x929C); (0x23FF,0x92A8); (0x2400,0x927C); (0x2401,0x9291); (0x2402,0x95A1); (0x2403,0x95A8); (0x2404,0x95A9);
  (0x2405,0x95A3); (0x2406,0x95A5); (0x2407,0x95A4); (0x2408,0x9699); (0x2409,0x969C); (0x240A,0x969B); (0x240B,0x96CC); (0x240C,0x96D2);
  (0x240D,0x9700); (0x240E,0x977C); (0x240F,0x9785); (0x2410,0x97F6); (0x2411,0x9817); (0x2412,0x9818); (0x2413,0x98AF); (0x2414,0x98B1);
  (0x2415,0x9903); (0x2416,0x9905); (0x2417,0x990C); (0x2418,0x9909); (0x2419,0x99C1); (0x241A,0x9AAF); (0x241B,0x9AB0); (0x241C,0x9AE6);
  (0x241D,0x9B41); (0x241E,0x9B42); (0x241F,0x9CF4); (0x2420,0x9CF6); (0x2421,0x9CF3); (0x2422,0x9EBC); (0x2423,0x9F3B); (0x2424,0x9F4A);
  (0x2425,0x5104); (0x2426,0x5100); (0x2427,0x50FB); (0x2428,0x50F5); (0x2429,0x50F9); (0x242A,0x5102); (0x242B,0x5108); (0x242C,0x5109);
  (0x242D,0x5105); (0x242E,0x51DC); (0x242F,0x5287); (0x2430,0x5288); (0x2431,0x5289); (0x2432,0x528D); (0x2433,0x528A); (0x2434,0x52F0);
  (0x2435,0x53B2); (0x2436,0x562E); (0x2437,0x563B); (0x2438,0x5639); (0x2439,0x5632); (0x243A,0x563F); (0x243B,0x5634); (0x243C,0x5629);
  (0x243D,0x5653); (0x243E,0x564E); (0x243F,0x5657); (0x2440,0x5674); (0x2441,0x5636); (0x2442,0x562F); (0x2443,0x5630); (0x2444,0x5880);
  (0x2445,0x589F); (0x2446,0x589E); (0x2447,0x58B3); (0x2448,0x589C); (0x2449,0x58AE); (0x244A,0x58A9); (0x244B,0x58A6); (0x244C,0x596D);
  (0x244D,0x5B09); (0x244E,0x5AFB); (0x244F,0x5B0B); (0x2450,0x5AF5); (0x2451,0x5B0C); (0x2452,0x5B08); (0x2453,0x5BEE); (0x2454,0x5BEC);
  (0x2455,0x5BE9); (0x2456,0x5BEB); (0x2457,0x5C64); (0x2458,0x5C65); (0x2459,0x5D9D); (0x245A,0x5D94); (0x245B,0x5E62); (0x245C,0x5E5F);
  (0x245D,0x5E61); (0x245E,0x5EE2); (0x245F,0x5EDA); (0x2460,0x5EDF); (0x2461,0x5EDD); (0x2462,0x5EE3); (0x2463,0x5EE0); (0x2464,0x5F48);
  (0x2465,0x5F71); (0x2466,0x5FB7); (0x2467,0x5FB5); (0x2468,0x6176); (0x2469,0x6167); (0x246A,0x616E); (0x246B,0x615D); (0x246C,0x6155);
  (0x246D,0x6182); (0x246E,0x617C); (0x246F,0x6170); (0x2470,0x616B); (0x2471,0x617E); (0x2472,0x61A7); (0x2473,0x6190); (0x2474,0x61AB);
  (0x2475,0x618E); (0x2476,0x61AC); (0x2477,0x619A); (0x2478,0x61A4); (0x2479,0x6194); (0x247A,0x61AE); (0x247B,0x622E); (0x247C,0x6469)
].
(* encoding_tables/whatwg/index-big5.txt (pointer, code point), entries 8192..8447 *)
Definition big5_index_32 : list (N * N) := [
  (0x247D,0x646F); (0x247E,0x6479); (0x247F,0x649E); (0x2480,0x64B2); (0x2481,0x6488); (0x2482,0x6490); (0x2483,0x64B0); (0x2484,0x64A5);
  (0x2485,0x6493); (0x2486,0x6495); (0x2487,0x64A9); (0x2488,0x6492); (0x2489,0x64AE); (0x248A,0x64AD); (0x248B,0x64AB); (0x248C,0x649A);
  (0x248D,0x64AC); (0x248E,0x6499); (0x248F,0x64A2); (0x2490,0x64B3); (0x2491,0x6575); (0x2492,0x6577); (0x2493,0x6578); (0x2494,0x66AE);
  (0x2495,0x66AB); (0x2496,0x66B4); (0x2497,0x66B1); (0x2498,0x6A23); (0x2499,0x6A1F); (0x249A,0x69E8); (0x249B,0x6A01); (0x249C,0x6A1E);
  (0x249D,0x6A19); (0x249E,0x69FD); (0x249F,0x6A21); (0x24A0,0x6A13); (0x24A1,0x6A0A); (0x24A2,0x69F3); (0x24A3,0x6A02); (0x24A4,0x6A05);
  (0x24A5,0x69ED); (0x24A6,0x6A11); (0x24A7,0x6B50); (0x24A8,0x6B4E); (0x24A9,0x6BA4); (0x24AA,0x6BC5); (0x24AB,0x6BC6); (0x24AC,0x6F3F);
  (0x24AD,0x6F7C); (0x24AE,0x6F84); (0x24AF,0x6F51); (0x24B0,0x6F66); (0x24B1,0x6F54); (0x24B2,0x6F86); (0x24B3,0x6F6D); (0x24B4,0x6F5B);
  (0x24B5,0x6F78); (0x24B6,0x6F6E); (0x24B7,0x6F8E); (0x24B8,0x6F7A); (0x24B9,0x6F70); (0x24BA,0x6F64); (0x24BB,0x6F97); (0x24BC,0x6F58);
  (0x24BD,0x6ED5); (0x24BE,0x6F6F); (0x24BF,0x6F60); (0x24C0,0x6F5F); (0x24C1,0x719F); (0x24C2,0x71AC); (0x24C3,0x71B1); (0x24C4,0x71A8);
  (0x24C5,0x7256); (0x24C6,0x729B); (0x24C7,0x734E); (0x24C8,0x7357); (0x24C9,0x7469); (0x24CA,0x748B); (0x24CB,0x7483); (0x24CC,0x747E);
  (0x24CD,0x7480); (0x24CE,0x757F); (0x24CF,0x7620); (0x24D0,0x7629); (0x24D1,0x761F); (0x24D2,0x7624); (0x24D3,0x7626); (0x24D4,0x7621);
  (0x24D5,0x7622); (0x24D6,0x769A); (0x24D7,0x76BA); (0x24D8,0x76E4); (0x24D9,0x778E); (0x24DA,0x7787); (0x24DB,0x778C); (0x24DC,0x7791);
  (0x24DD,0x778B); (0x24DE,0x78CB); (0x24DF,0x78C5); (0x24E0,0x78BA); (0x24E1,0x78CA); (0x24E2,0x78BE); (0x24E3,0x78D5); (0x24E4,0x78BC);
  (0x24E5,0x78D0); (0x24E6,0x7A3F); (0x24E7,0x7A3C); (0x24E8,0x7A40); (0x24E9,0x7A3D); (0x24EA,0x7A37); (0x24EB,0x7A3B); (0x24EC,0x7AAF);
  (0x24ED,0x7AAE); (0x24EE,0x7BAD); (0x24EF,0x7BB1); (0x24F0,0x7BC4); (0x24F1,0x7BB4); (0x24F2,0x7BC6); (0x24F3,0x7BC7); (0x24F4,0x7BC1);
  (0x24F5,0x7BA0); (0x24F6,0x7BCC); (0x24F7,0x7CCA); (0x24F8,0x7DE0); (0x24F9,0x7DF4); (0x24FA,0x7DEF); (0x24FB,0x7DFB); (0x24FC,0x7DD8);
  (0x24FD,0x7DEC); (0x24FE,0x7DDD); (0x24FF,0x7DE8); (0x2500,0x7DE3); (0x2501,0x7DDA); (0x2502,0x7DDE); (0x2503,0x7DE9); (0x2504,0x7D9E);
  (0x2505,0x7DD9); (0x2506,0x7DF2); (0x2507,0x7DF9); (0x2508,0x7F75); (0x2509,0x7F77); (0x250A,0x7FAF); (0x250B,0x7FE9); (0x250C,0x8026);
  (0x250D,0x819B); (0x250E,0x819C); (0x250F,0x819D); (0x2510,0x81A0); (0x2511,0x819A); (0x2512,0x8198); (0x2513,0x8517); (0x2514,0x853D);
  (0x2515,0x851A); (0x2516,0x84EE); (0x2517,0x852C); (0x2518,0x852D); (0x2519,0x8513); (0x251A,0x8511); (0x251B,0x8523); (0x251C,0x8521);
  (0x251D,0x8514); (0x251E,0x84EC); (0x251F,0x8525); (0x2520,0x84FF); (0x2521,0x8506); (0x2522,0x8782); (0x2523,0x8774); (0x2524,0x8776);
  (0x2525,0x8760); (0x2526,0x8766); (0x2527,0x8778); (0x2528,0x8768); (0x2529,0x8759); (0x252A,0x8757); (0x252B,0x874C); (0x252C,0x8753);
  (0x252D,0x885B); (0x252E,0x885D); (0x252F,0x8910); (0x2530,0x8907); (0x2531,0x8912); (0x2532,0x8913); (0x2533,0x8915); (0x2534,0x890A);
  (0x2535,0x8ABC); (0x2536,0x8AD2); (0x2537,0x8AC7); (0x2538,0x8AC4); (0x2539,0x8A95); (0x253A,0x8ACB); (0x253B,0x8AF8); (0x253C,0x8AB2);
  (0x253D,0x8AC9); (0x253E,0x8AC2); (0x253F,0x8ABF); (0x2540,0x8AB0); (0x2541,0x8AD6); (0x2542,0x8ACD); (0x2543,0x8AB6); (0x2544,0x8AB9);
  (0x2545,0x8ADB); (0x2546,0x8C4C); (0x2547,0x8C4E); (0x2548,0x8C6C); (0x2549,0x8CE0); (0x254A,0x8CDE); (0x254B,0x8CE6); (0x254C,0x8CE4);
  (0x254D,0x8CEC); (0x254E,0x8CED); (0x254F,0x8CE2); (0x2550,0x8CE3); (0x2551,0x8CDC); (0x2552,0x8CEA); (0x2553,0x8CE1); (0x2554,0x8D6D);
  (0x2555,0x8D9F); (0x2556,0x8DA3); (0x2557,0x8E2B); (0x2558,0x8E10); (0x2559,0x8E1D); (0x255A,0x8E22); (0x255B,0x8E0F); (0x255C,0x8E29);
  (0x255D,0x8E1F); (0x255E,0x8E21); (0x255F,0x8E1E); (0x2560,0x8EBA); (0x2561,0x8F1D); (0x2562,0x8F1B); (0x2563,0x8F1F); (0x2564,0x8F29);
  (0x2565,0x8F26); (0x2566,0x8F2A); (0x2567,0x8F1C); (0x2568,0x8F1E); (0x2569,0x8F25); (0x256A,0x9069); (0x256B,0x906E); (0x256C,0x9068);
  (0x256D,0x906D); (0x256E,0x9077); (0x256F,0x9130); (0x2570,0x912D); (0x2571,0x9127); (0x2572,0x9131); (0x2573,0x9187); (0x2574,0x9189);
  (0x2575,0x918B); (0x2576,0x9183); (0x2577,0x92C5); (0x2578,0x92BB); (0x2579,0x92B7); (0x257A,0x92EA); (0x257B,0x92AC); (0x257C,0x92E4)
].
(* encoding_tables/whatwg/index-big5.txt (pointer, code point), entries 8448..8703 *)
Definition big5_index_33 : list (N * N) := [
  (0x257D,0x92C1); (0x257E,0x92B3); (0x257F,0x92BC); (0x2580,0x92D2); (0x2581,0x92C7); (0x2582,0x92F0); (0x2583,0x92B2); (0x2584,0x95AD);
  (0x2585,0x95B1); (0x2586,0x9704); (0x2587,0x9706); (0x2588,0x9707); (0x2589,0x9709); (0x258A,0x9760); (0x258B,0x978D); (0x258C,0x978B);
  (0x258D,0x978F); (0x258E,0x9821); (0x258F,0x982B); (0x2590,0x981C); (0x2591,0x98B3); (0x2592,0x990A); (0x2593,0x9913); (0x2594,0x9912);
  (0x2595,0x9918); (0x2596,0x99DD); (0x2597,0x99D0); (0x2598,0x99DF); (0x2599,0x99DB); (0x259A,0x99D1); (0x259B,0x99D5); (0x259C,0x99D2);
  (0x259D,0x99D9); (0x259E,0x9AB7); (0x259F,0x9AEE); (0x25A0,0x9AEF); (0x25A1,0x9B27); (0x25A2,0x9B45); (0x25A3,0x9B44); (0x25A4,0x9B77);
  (0x25A5,0x9B6F); (0x25A6,0x9D06); (0x25A7,0x9D09); (0x25A8,0x9D03); (0x25A9,0x9EA9); (0x25AA,0x9EBE); (0x25AB,0x9ECE); (0x25AC,0x58A8);
  (0x25AD,0x9F52); (0x25AE,0x5112); (0x25AF,0x5118); (0x25B0,0x5114); (0x25B1,0x5110); (0x25B2,0x5115); (0x25B3,0x5180); (0x25B4,0x51AA);
  (0x25B5,0x51DD); (0x25B6,0x5291); (0x25B7,0x5293); (0x25B8,0x52F3); (0x25B9,0x5659); (0x25BA,0x566B); (0x25BB,0x5679); (0x25BC,0x5669);
  (0x25BD,0x5664); (0x25BE,0x5678); (0x25BF,0x566A); (0x25C0,0x5668); (0x25C1,0x5665); (0x25C2,0x5671); (0x25C3,0x566F); (0x25C4,0x566C);
  (0x25C5,0x5662); (0x25C6,0x5676); (0x25C7,0x58C1); (0x25C8,0x58BE); (0x25C9,0x58C7); (0x25CA,0x58C5); (0x25CB,0x596E); (0x25CC,0x5B1D);
  (0x25CD,0x5B34); (0x25CE,0x5B78); (0x25CF,0x5BF0); (0x25D0,0x5C0E); (0x25D1,0x5F4A); (0x25D2,0x61B2); (0x25D3,0x6191); (0x25D4,0x61A9);
  (0x25D5,0x618A); (0x25D6,0x61CD); (0x25D7,0x61B6); (0x25D8,0x61BE); (0x25D9,0x61CA); (0x25DA,0x61C8); (0x25DB,0x6230); (0x25DC,0x64C5);
  (0x25DD,0x64C1); (0x25DE,0x64CB); (0x25DF,0x64BB); (0x25E0,0x64BC); (0x25E1,0x64DA); (0x25E2,0x64C4); (0x25E3,0x64C7); (0x25E4,0x64C2);
  (0x25E5,0x64CD); (0x25E6,0x64BF); (0x25E7,0x64D2); (0x25E8,0x64D4); (0x25E9,0x64BE); (0x25EA,0x6574); (0x25EB,0x66C6); (0x25EC,0x66C9);
  (0x25ED,0x66B9); (0x25EE,0x66C4); (0x25EF,0x66C7); (0x25F0,0x66B8); (0x25F1,0x6A3D); (0x25F2,0x6A38); (0x25F3,0x6A3A); (0x25F4,0x6A59);
  (0x25F5,0x6A6B); (0x25F6,0x6A58); (0x25F7,0x6A39); (0x25F8,0x6A44); (0x25F9,0x6A62); (0x25FA,0x6A61); (0x25FB,0x6A4B); (0x25FC,0x6A47);
  (0x25FD,0x6A35); (0x25FE,0x6A5F); (0x25FF,0x6A48); (0x2600,0x6B59); (0x2601,0x6B77); (0x2602,0x6C05); (0x2603,0x6FC2); (0x2604,0x6FB1);
  (0x2605,0x6FA1); (0x2606,0x6FC3); (0x2607,0x6FA4); (0x2608,0x6FC1); (0x2609,0x6FA7); (0x260A,0x6FB3); (0x260B,0x6FC0); (0x260C,0x6FB9);
  (0x260D,0x6FB6); (0x260E,0x6FA6); (0x260F,0x6FA0); (0x2610,0x6FB4); (0x2611,0x71BE); (0x2612,0x71C9); (0x2613,0x71D0); (0x2614,0x71D2);
  (0x2615,0x71C8); (0x2616,0x71D5); (0x2617,0x71B9); (0x2618,0x71CE); (0x2619,0x71D9); (0x261A,0x71DC); (0x261B,0x71C3); (0x261C,0x71C4);
  (0x261D,0x7368); (0x261E,0x749C); (0x261F,0x74A3); (0x2620,0x7498); (0x2621,0x749F); (0x2622,0x749E); (0x2623,0x74E2); (0x2624,0x750C);
  (0x2625,0x750D); (0x2626,0x7634); (0x2627,0x7638); (0x2628,0x763A); (0x2629,0x76E7); (0x262A,0x76E5); (0x262B,0x77A0); (0x262C,0x779E);
  (0x262D,0x779F); (0x262E,0x77A5); (0x262F,0x78E8); (0x2630,0x78DA); (0x2631,0x78EC); (0x2632,0x78E7); (0x2633,0x79A6); (0x2634,0x7A4D);
  (0x2635,0x7A4E); (0x2636,0x7A46); (0x2637,0x7A4C); (0x2638,0x7A4B); (0x2639,0x7ABA); (0x263A,0x7BD9); (0x263B,0x7C11); (0x263C,0x7BC9);
  (0x263D,0x7BE4); (0x263E,0x7BDB); (0x263F,0x7BE1); (0x2640,0x7BE9); (0x2641,0x7BE6); (0x2642,0x7CD5); (0x2643,0x7CD6); (0x2644,0x7E0A);
  (0x2645,0x7E11); (0x2646,0x7E08); (0x2647,0x7E1B); (0x2648,0x7E23); (0x2649,0x7E1E); (0x264A,0x7E1D); (0x264B,0x7E09); (0x264C,0x7E10);
  (0x264D,0x7F79); (0x264E,0x7FB2); (0x264F,0x7FF0); (0x2650,0x7FF1); (0x2651,0x7FEE); (0x2652,0x8028); (0x2653,0x81B3); (0x2654,0x81A9);
  (0x2655,0x81A8); (0x2656,0x81FB); (0x2657,0x8208); (0x2658,0x8258); (0x2659,0x8259); (0x265A,0x854A); (0x265B,0x8559); (0x265C,0x8548);
  (0x265D,0x8568); (0x265E,0x8569); (0x265F,0x8543); (0x2660,0x8549); (0x2661,0x856D); (0x2662,0x856A); (0x2663,0x855E); (0x2664,0x8783);
  (0x2665,0x879F); (0x2666,0x879E); (0x2667,0x87A2); (0x2668,0x878D); (0x2669,0x8861); (0x266A,0x892A); (0x266B,0x8932); (0x266C,0x8925);
  (0x266D,0x892B); (0x266E,0x8921); (0x266F,0x89AA); (0x2670,0x89A6); (0x2671,0x8AE6); (0x2672,0x8AFA); (0x2673,0x8AEB); (0x2674,0x8AF1);
  (0x2675,0x8B00); (0x2676,0x8ADC); (0x2677,0x8AE7); (0x2678,0x8AEE); (0x2679,0x8AFE); (0x267A,0x8B01); (0x267B,0x8B02); (0x267C,0x8AF7)
].
(* encoding_tables/whatwg/index-big5.txt (pointer, code point), entries 8704..8959 *)
Definition big5_index_34 : list (N * N) := [
  (0x267D,0x8AED); (0x267E,0x8AF3); (0x267F,0x8AF6); (0x2680,0x8AFC); (0x2681,0x8C6B); (0x2682,0x8C6D); (0x2683,0x8C93); (0x2684,0x8CF4);
  (0x2685,0x8E44); (0x2686,0x8E31); (0x2687,0x8E34); (0x2688,0x8E42); (0x2689,0x8E39); (0x268A,0x8E35); (0x268B,0x8F3B); (0x268C,0x8F2F);
  (0x268D,0x8F38); (0x268E,0x8F33); (0x268F,0x8FA8); (0x2690,0x8FA6); (0x2691,0x9075); (0x2692,0x9074); (0x2693,0x9078); (0x2694,0x9072);
  (0x2695,0x907C); (0x2696,0x907A); (0x2697,0x9134); (0x2698,0x9192); (0x2699,0x9320); (0x269A,0x9336); (0x269B,0x92F8); (0x269C,0x9333);
  (0x269D,0x932F); (0x269E,0x9322); (0x269F,0x92FC); (0x26A0,0x932B); (0x26A1,0x9304); (0x26A2,0x931A); (0x26A3,0x9310); (0x26A4,0x9326);
  (0x26A5,0x9321); (0x26A6,0x9315); (0x26A7,0x932E); (0x26A8,0x9319); (0x26A9,0x95BB); (0x26AA,0x96A7); (0x26AB,0x96A8); (0x26AC,0x96AA);
  (0x26AD,0x96D5); (0x26AE,0x970E); (0x26AF,0x9711); (0x26B0,0x9716); (0x26B1,0x970D); (0x26B2,0x9713); (0x26B3,0x970F); (0x26B4,0x975B);
  (0x26B5,0x975C); (0x26B6,0x9766); (0x26B7,0x9798); (0x26B8,0x9830); (0x26B9,0x9838); (0x26BA,0x983B); (0x26BB,0x9837); (0x26BC,0x982D);
  (0x26BD,0x9839); (0x26BE,0x9824); (0x26BF,0x9910); (0x26C0,0x9928); (0x26C1,0x991E); (0x26C2,0x991B); (0x26C3,0x9921); (0x26C4,0x991A);
  (0x26C5,0x99ED); (0x26C6,0x99E2); (0x26C7,0x99F1); (0x26C8,0x9AB8); (0x26C9,0x9ABC); (0x26CA,0x9AFB); (0x26CB,0x9AED); (0x26CC,0x9B28);
  (0x26CD,0x9B91); (0x26CE,0x9D15); (0x26CF,0x9D23); (0x26D0,0x9D26); (0x26D1,0x9D28); (0x26D2,0x9D12); (0x26D3,0x9D1B); (0x26D4,0x9ED8);
  (0x26D5,0x9ED4); (0x26D6,0x9F8D); (0x26D7,0x9F9C); (0x26D8,0x512A); (0x26D9,0x511F); (0x26DA,0x5121); (0x26DB,0x5132); (0x26DC,0x52F5);
  (0x26DD,0x568E); (0x26DE,0x5680); (0x26DF,0x5690); (0x26E0,0x5685); (0x26E1,0x5687); (0x26E2,0x568F); (0x26E3,0x58D5); (0x26E4,0x58D3);
  (0x26E5,0x58D1); (0x26E6,0x58CE); (0x26E7,0x5B30); (0x26E8,0x5B2A); (0x26E9,0x5B24); (0x26EA,0x5B7A); (0x26EB,0x5C37); (0x26EC,0x5C68);
  (0x26ED,0x5DBC); (0x26EE,0x5DBA); (0x26EF,0x5DBD); (0x26F0,0x5DB8); (0x26F1,0x5E6B); (0x26F2,0x5F4C); (0x26F3,0x5FBD); (0x26F4,0x61C9);
  (0x26F5,0x61C2); (0x26F6,0x61C7); (0x26F7,0x61E6); (0x26F8,0x61CB); (0x26F9,0x6232); (0x26FA,0x6234); (0x26FB,0x64CE); (0x26FC,0x64CA);
  (0x26FD,0x64D8); (0x26FE,0x64E0); (0x26FF,0x64F0); (0x2700,0x64E6); (0x2701,0x64EC); (0x2702,0x64F1); (0x2703,0x64E2); (0x2704,0x64ED);
  (0x2705,0x6582); (0x2706,0x6583); (0x2707,0x66D9); (0x2708,0x66D6); (0x2709,0x6A80); (0x270A,0x6A94); (0x270B,0x6A84); (0x270C,0x6AA2);
  (0x270D,0x6A9C); (0x270E,0x6ADB); (0x270F,0x6AA3); (0x2710,0x6A7E); (0x2711,0x6A97); (0x2712,0x6A90); (0x2713,0x6AA0); (0x2714,0x6B5C);
  (0x2715,0x6BAE); (0x2716,0x6BDA); (0x2717,0x6C08); (0x2718,0x6FD8); (0x2719,0x6FF1); (0x271A,0x6FDF); (0x271B,0x6FE0); (0x271C,0x6FDB);
  (0x271D,0x6FE4); (0x271E,0x6FEB); (0x271F,0x6FEF); (0x2720,0x6F80); (0x2721,0x6FEC); (0x2722,0x6FE1); (0x2723,0x6FE9); (0x2724,0x6FD5);
  (0x2725,0x6FEE); (0x2726,0x6FF0); (0x2727,0x71E7); (0x2728,0x71DF); (0x2729,0x71EE); (0x272A,0x71E6); (0x272B,0x71E5); (0x272C,0x71ED);
  (0x272D,0x71EC); (0x272E,0x71F4); (0x272F,0x71E0); (0x2730,0x7235); (0x2731,0x7246); (0x2732,0x7370); (0x2733,0x7372); (0x2734,0x74A9);
  (0x2735,0x74B0); (0x2736,0x74A6); (0x2737,0x74A8); (0x2738,0x7646); (0x2739,0x7642); (0x273A,0x764C); (0x273B,0x76EA); (0x273C,0x77B3);
  (0x273D,0x77AA); (0x273E,0x77B0); (0x273F,0x77AC); (0x2740,0x77A7); (0x2741,0x77AD); (0x2742,0x77EF); (0x2743,0x78F7); (0x2744,0x78FA);
  (0x2745,0x78F4); (0x2746,0x78EF); (0x2747,0x7901); (0x2748,0x79A7); (0x2749,0x79AA); (0x274A,0x7A57); (0x274B,0x7ABF); (0x274C,0x7C07);
  (0x274D,0x7C0D); (0x274E,0x7BFE); (0x274F,0x7BF7); (0x2750,0x7C0C); (0x2751,0x7BE0); (0x2752,0x7CE0); (0x2753,0x7CDC); (0x2754,0x7CDE);
  (0x2755,0x7CE2); (0x2756,0x7CDF); (0x2757,0x7CD9); (0x2758,0x7CDD); (0x2759,0x7E2E); (0x275A,0x7E3E); (0x275B,0x7E46); (0x275C,0x7E37);
  (0x275D,0x7E32); (0x275E,0x7E43); (0x275F,0x7E2B); (0x2760,0x7E3D); (0x2761,0x7E31); (0x2762,0x7E45); (0x2763,0x7E41); (0x2764,0x7E34);
  (0x2765,0x7E39); (0x2766,0x7E48); (0x2767,0x7E35); (0x2768,0x7E3F); (0x2769,0x7E2F); (0x276A,0x7F44); (0x276B,0x7FF3); (0x276C,0x7FFC);
  (0x276D,0x8071); (0x276E,0x8072); (0x276F,0x8070); (0x2770,0x806F); (0x2771,0x8073); (0x2772,0x81C6); (0x2773,0x81C3); (0x2774,0x81BA);
  (0x2775,0x81C2); (0x2776,0x81C0); (0x2777,0x81BF); (0x2778,0x81BD); (0x2779,0x81C9); (0x277A,0x81BE); (0x277B,0x81E8); (0x277C,0x8209)
].
(* encoding_tables/whatwg/index-big5.txt (pointer, code point), entries 8960..9215 *)
Definition big5_index_35 : list (N * N) := [
  (0x277D,0x8271); (0x277E,0x85AA); (0x277F,0x8584); (0x2780,0x857E); (0x2781,0x859C); (0x2782,0x8591); (0x2783,0x8594); (0x2784,0x85AF);
  (0x2785,0x859B); (0x2786,0x8587); (0x2787,0x85A8); (0x2788,0x858A); (0x2789,0x8667); (0x278A,0x87C0); (0x278B,0x87D1); (0x278C,0x87B3);
  (0x278D,0x87D2); (0x278E,0x87C6); (0x278F,0x87AB); (0x2790,0x87BB); (0x2791,0x87BA); (0x2792,0x87C8); (0x2793,0x87CB); (0x2794,0x893B);
  (0x2795,0x8936); (0x2796,0x8944); (0x2797,0x8938); (0x2798,0x893D); (0x2799,0x89AC); (0x279A,0x8B0E); (0x279B,0x8B17); (0x279C,0x8B19);
  (0x279D,0x8B1B); (0x279E,0x8B0A); (0x279F,0x8B20); (0x27A0,0x8B1D); (0x27A1,0x8B04); (0x27A2,0x8B10); (0x27A3,0x8C41); (0x27A4,0x8C3F);
  (0x27A5,0x8C73); (0x27A6,0x8CFA); (0x27A7,0x8CFD); (0x27A8,0x8CFC); (0x27A9,0x8CF8); (0x27AA,0x8CFB); (0x27AB,0x8DA8); (0x27AC,0x8E49);
  (0x27AD,0x8E4B); (0x27AE,0x8E48); (0x27AF,0x8E4A); (0x27B0,0x8F44); (0x27B1,0x8F3E); (0x27B2,0x8F42); (0x27B3,0x8F45); (0x27B4,0x8F3F);
  (0x27B5,0x907F); (0x27B6,0x907D); (0x27B7,0x9084); (0x27B8,0x9081); (0x27B9,0x9082); (0x27BA,0x9080); (0x27BB,0x9139); (0x27BC,0x91A3);
  (0x27BD,0x919E); (0x27BE,0x919C); (0x27BF,0x934D); (0x27C0,0x9382); (0x27C1,0x9328); (0x27C2,0x9375); (0x27C3,0x934A); (0x27C4,0x9365);
  (0x27C5,0x934B); (0x27C6,0x9318); (0x27C7,0x937E); (0x27C8,0x936C); (0x27C9,0x935B); (0x27CA,0x9370); (0x27CB,0x935A); (0x27CC,0x9354);
  (0x27CD,0x95CA); (0x27CE,0x95CB); (0x27CF,0x95CC); (0x27D0,0x95C8); (0x27D1,0x95C6); (0x27D2,0x96B1); (0x27D3,0x96B8); (0x27D4,0x96D6);
  (0x27D5,0x971C); (0x27D6,0x971E); (0x27D7,0x97A0); (0x27D8,0x97D3); (0x27D9,0x9846); (0x27DA,0x98B6); (0x27DB,0x9935); (0x27DC,0x9A01);
  (0x27DD,0x99FF); (0x27DE,0x9BAE); (0x27DF,0x9BAB); (0x27E0,0x9BAA); (0x27E1,0x9BAD); (0x27E2,0x9D3B); (0x27E3,0x9D3F); (0x27E4,0x9E8B);
  (0x27E5,0x9ECF); (0x27E6,0x9EDE); (0x27E7,0x9EDC); (0x27E8,0x9EDD); (0x27E9,0x9EDB); (0x27EA,0x9F3E); (0x27EB,0x9F4B); (0x27EC,0x53E2);
  (0x27ED,0x5695); (0x27EE,0x56AE); (0x27EF,0x58D9); (0x27F0,0x58D8); (0x27F1,0x5B38); (0x27F2,0x5F5D); (0x27F3,0x61E3); (0x27F4,0x6233);
  (0x27F5,0x64F4); (0x27F6,0x64F2); (0x27F7,0x64FE); (0x27F8,0x6506); (0x27F9,0x64FA); (0x27FA,0x64FB); (0x27FB,0x64F7); (0x27FC,0x65B7);
  (0x27FD,0x66DC); (0x27FE,0x6726); (0x27FF,0x6AB3); (0x2800,0x6AAC); (0x2801,0x6AC3); (0x2802,0x6ABB); (0x2803,0x6AB8); (0x2804,0x6AC2);
  (0x2805,0x6AAE); (0x2806,0x6AAF); (0x2807,0x6B5F); (0x2808,0x6B78); (0x2809,0x6BAF); (0x280A,0x7009); (0x280B,0x700B); (0x280C,0x6FFE);
  (0x280D,0x7006); (0x280E,0x6FFA); (0x280F,0x7011); (0x2810,0x700F); (0x2811,0x71FB); (0x2812,0x71FC); (0x2813,0x71FE); (0x2814,0x71F8);
  (0x2815,0x7377); (0x2816,0x7375); (0x2817,0x74A7); (0x2818,0x74BF); (0x2819,0x7515); (0x281A,0x7656); (0x281B,0x7658); (0x281C,0x7652);
  (0x281D,0x77BD); (0x281E,0x77BF); (0x281F,0x77BB); (0x2820,0x77BC); (0x2821,0x790E); (0x2822,0x79AE); (0x2823,0x7A61); (0x2824,0x7A62);
  (0x2825,0x7A60); (0x2826,0x7AC4); (0x2827,0x7AC5); (0x2828,0x7C2B); (0x2829,0x7C27); (0x282A,0x7C2A); (0x282B,0x7C1E); (0x282C,0x7C23);
  (0x282D,0x7C21); (0x282E,0x7CE7); (0x282F,0x7E54); (0x2830,0x7E55); (0x2831,0x7E5E); (0x2832,0x7E5A); (0x2833,0x7E61); (0x2834,0x7E52);
  (0x2835,0x7E59); (0x2836,0x7F48); (0x2837,0x7FF9); (0x2838,0x7FFB); (0x2839,0x8077); (0x283A,0x8076); (0x283B,0x81CD); (0x283C,0x81CF);
  (0x283D,0x820A); (0x283E,0x85CF); (0x283F,0x85A9); (0x2840,0x85CD); (0x2841,0x85D0); (0x2842,0x85C9); (0x2843,0x85B0); (0x2844,0x85BA);
  (0x2845,0x85B9); (0x2846,0x85A6); (0x2847,0x87EF); (0x2848,0x87EC); (0x2849,0x87F2); (0x284A,0x87E0); (0x284B,0x8986); (0x284C,0x89B2);
  (0x284D,0x89F4); (0x284E,0x8B28); (0x284F,0x8B39); (0x2850,0x8B2C); (0x2851,0x8B2B); (0x2852,0x8C50); (0x2853,0x8D05); (0x2854,0x8E59);
  (0x2855,0x8E63); (0x2856,0x8E66); (0x2857,0x8E64); (0x2858,0x8E5F); (0x2859,0x8E55); (0x285A,0x8EC0); (0x285B,0x8F49); (0x285C,0x8F4D);
  (0x285D,0x9087); (0x285E,0x9083); (0x285F,0x9088); (0x2860,0x91AB); (0x2861,0x91AC); (0x2862,0x91D0); (0x2863,0x9394); (0x2864,0x938A);
  (0x2865,0x9396); (0x2866,0x93A2); (0x2867,0x93B3); (0x2868,0x93AE); (0x2869,0x93AC); (0x286A,0x93B0); (0x286B,0x9398); (0x286C,0x939A);
  (0x286D,0x9397); (0x286E,0x95D4); (0x286F,0x95D6); (0x2870,0x95D0); (0x2871,0x95D5); (0x2872,0x96E2); (0x2873,0x96DC); (0x2874,0x96D9);
  (0x2875,0x96DB); (0x2876,0x96DE); (0x2877,0x9724); (0x2878,0x97A3); (0x2879,0x97A6); (0x287A,0x97AD); (0x287B,0x97F9); (0x287C,0x984D)
].
(* encoding_tables/whatwg/index-big5.txt (pointer, code point), entries 9216..9471 *)
Definition big5_index_36 : list (N * N) := [
  (0x287D,0x984F); (0x287E,0x984C); (0x287F,0x984E); (0x2880,0x9853); (0x2881,0x98BA); (0x2882,0x993E); (0x2883,0x993F); (0x2884,0x993D);
  (0x2885,0x992E); (0x2886,0x99A5); (0x2887,0x9A0E); (0x2888,0x9AC1); (0x2889,0x9B03); (0x288A,0x9B06); (0x288B,0x9B4F); (0x288C,0x9B4E);
  (0x288D,0x9B4D); (0x288E,0x9BCA); (0x288F,0x9BC9); (0x2890,0x9BFD); (0x2891,0x9BC8); (0x2892,0x9BC0); (0x2893,0x9D51); (0x2894,0x9D5D);
  (0x2895,0x9D60); (0x2896,0x9EE0); (0x2897,0x9F15); (0x2898,0x9F2C); (0x2899,0x5133); (0x289A,0x56A5); (0x289B,0x58DE); (0x289C,0x58DF);
  (0x289D,0x58E2); (0x289E,0x5BF5); (0x289F,0x9F90); (0x28A0,0x5EEC); (0x28A1,0x61F2); (0x28A2,0x61F7); (0x28A3,0x61F6); (0x28A4,0x61F5);
  (0x28A5,0x6500); (0x28A6,0x650F); (0x28A7,0x66E0); (0x28A8,0x66DD); (0x28A9,0x6AE5); (0x28AA,0x6ADD); (0x28AB,0x6ADA); (0x28AC,0x6AD3);
  (0x28AD,0x701B); (0x28AE,0x701F); (0x28AF,0x7028); (0x28B0,0x701A); (0x28B1,0x701D); (0x28B2,0x7015); (0x28B3,0x7018); (0x28B4,0x7206);
  (0x28B5,0x720D); (0x28B6,0x7258); (0x28B7,0x72A2); (0x28B8,0x7378); (0x28B9,0x737A); (0x28BA,0x74BD); (0x28BB,0x74CA); (0x28BC,0x74E3);
  (0x28BD,0x7587); (0x28BE,0x7586); (0x28BF,0x765F); (0x28C0,0x7661); (0x28C1,0x77C7); (0x28C2,0x7919); (0x28C3,0x79B1); (0x28C4,0x7A6B);
  (0x28C5,0x7A69); (0x28C6,0x7C3E); (0x28C7,0x7C3F); (0x28C8,0x7C38); (0x28C9,0x7C3D); (0x28CA,0x7C37); (0x28CB,0x7C40); (0x28CC,0x7E6B);
  (0x28CD,0x7E6D); (0x28CE,0x7E79); (0x28CF,0x7E69); (0x28D0,0x7E6A); (0x28D1,0x7F85); (0x28D2,0x7E73); (0x28D3,0x7FB6); (0x28D4,0x7FB9);
  (0x28D5,0x7FB8); (0x28D6,0x81D8); (0x28D7,0x85E9); (0x28D8,0x85DD); (0x28D9,0x85EA); (0x28DA,0x85D5); (0x28DB,0x85E4); (0x28DC,0x85E5);
  (0x28DD,0x85F7); (0x28DE,0x87FB); (0x28DF,0x8805); (0x28E0,0x880D); (0x28E1,0x87F9); (0x28E2,0x87FE); (0x28E3,0x8960); (0x28E4,0x895F);
  (0x28E5,0x8956); (0x28E6,0x895E); (0x28E7,0x8B41); (0x28E8,0x8B5C); (0x28E9,0x8B58); (0x28EA,0x8B49); (0x28EB,0x8B5A); (0x28EC,0x8B4E);
  (0x28ED,0x8B4F); (0x28EE,0x8B46); (0x28EF,0x8B59); (0x28F0,0x8D08); (0x28F1,0x8D0A); (0x28F2,0x8E7C); (0x28F3,0x8E72); (0x28F4,0x8E87);
  (0x28F5,0x8E76); (0x28F6,0x8E6C); (0x28F7,0x8E7A); (0x28F8,0x8E74); (0x28F9,0x8F54); (0x28FA,0x8F4E); (0x28FB,0x8FAD); (0x28FC,0x908A);
  (0x28FD,0x908B); (0x28FE,0x91B1); (0x28FF,0x91AE); (0x2900,0x93E1); (0x2901,0x93D1); (0x2902,0x93DF); (0x2903,0x93C3); (0x2904,0x93C8);
  (0x2905,0x93DC); (0x2906,0x93DD); (0x2907,0x93D6); (0x2908,0x93E2); (0x2909,0x93CD); (0x290A,0x93D8); (0x290B,0x93E4); (0x290C,0x93D7);
  (0x290D,0x93E8); (0x290E,0x95DC); (0x290F,0x96B4); (0x2910,0x96E3); (0x2911,0x972A); (0x2912,0x9727); (0x2913,0x9761); (0x2914,0x97DC);
  (0x2915,0x97FB); (0x2916,0x985E); (0x2917,0x9858); (0x2918,0x985B); (0x2919,0x98BC); (0x291A,0x9945); (0x291B,0x9949); (0x291C,0x9A16);
  (0x291D,0x9A19); (0x291E,0x9B0D); (0x291F,0x9BE8); (0x2920,0x9BE7); (0x2921,0x9BD6); (0x2922,0x9BDB); (0x2923,0x9D89); (0x2924,0x9D61);
  (0x2925,0x9D72); (0x2926,0x9D6A); (0x2927,0x9D6C); (0x2928,0x9E92); (0x2929,0x9E97); (0x292A,0x9E93); (0x292B,0x9EB4); (0x292C,0x52F8);
  (0x292D,0x56A8); (0x292E,0x56B7); (0x292F,0x56B6); (0x2930,0x56B4); (0x2931,0x56BC); (0x2932,0x58E4); (0x2933,0x5B40); (0x2934,0x5B43);
  (0x2935,0x5B7D); (0x2936,0x5BF6); (0x2937,0x5DC9); (0x2938,0x61F8); (0x2939,0x61FA); (0x293A,0x6518); (0x293B,0x6514); (0x293C,0x6519);
  (0x293D,0x66E6); (0x293E,0x6727); (0x293F,0x6AEC); (0x2940,0x703E); (0x2941,0x7030); (0x2942,0x7032); (0x2943,0x7210); (0x2944,0x737B);
  (0x2945,0x74CF); (0x2946,0x7662); (0x2947,0x7665); (0x2948,0x7926); (0x2949,0x792A); (0x294A,0x792C); (0x294B,0x792B); (0x294C,0x7AC7);
  (0x294D,0x7AF6); (0x294E,0x7C4C); (0x294F,0x7C43); (0x2950,0x7C4D); (0x2951,0x7CEF); (0x2952,0x7CF0); (0x2953,0x8FAE); (0x2954,0x7E7D);
  (0x2955,0x7E7C); (0x2956,0x7E82); (0x2957,0x7F4C); (0x2958,0x8000); (0x2959,0x81DA); (0x295A,0x8266); (0x295B,0x85FB); (0x295C,0x85F9);
  (0x295D,0x8611); (0x295E,0x85FA); (0x295F,0x8606); (0x2960,0x860B); (0x2961,0x8607); (0x2962,0x860A); (0x2963,0x8814); (0x2964,0x8815);
  (0x2965,0x8964); (0x2966,0x89BA); (0x2967,0x89F8); (0x2968,0x8B70); (0x2969,0x8B6C); (0x296A,0x8B66); (0x296B,0x8B6F); (0x296C,0x8B5F);
  (0x296D,0x8B6B); (0x296E,0x8D0F); (0x296F,0x8D0D); (0x2970,0x8E89); (0x2971,0x8E81); (0x2972,0x8E85); (0x2973,0x8E82); (0x2974,0x91B4);
  (0x2975,0x91CB); (0x2976,0x9418); (0x2977,0x9403); (0x2978,0x93FD); (0x2979,0x95E1); (0x297A,0x9730); (0x297B,0x98C4); (0x297C,0x9952)
].
(* encoding_tables/whatwg/index-big5.txt (pointer, code point), entries 9472..9727 *)
Definition big5_index_37 : list (N * N) := [
  (0x297D,0x9951); (0x297E,0x99A8); (0x297F,0x9A2B); (0x2980,0x9A30); (0x2981,0x9A37); (0x2982,0x9A35); (0x2983,0x9C13); (0x2984,0x9C0D);
  (0x2985,0x9E79); (0x2986,0x9EB5); (0x2987,0x9EE8); (0x2988,0x9F2F); (0x2989,0x9F5F); (0x298A,0x9F63); (0x298B,0x9F61); (0x298C,0x5137);
  (0x298D,0x5138); (0x298E,0x56C1); (0x298F,0x56C0); (0x2990,0x56C2); (0x2991,0x5914); (0x2992,0x5C6C); (0x2993,0x5DCD); (0x2994,0x61FC);
  (0x2995,0x61FE); (0x2996,0x651D); (0x2997,0x651C); (0x2998,0x6595); (0x2999,0x66E9); (0x299A,0x6AFB); (0x299B,0x6B04); (0x299C,0x6AFA);
  (0x299D,0x6BB2); (0x299E,0x704C); (0x299F,0x721B); (0x29A0,0x72A7); (0x29A1,0x74D6); (0x29A2,0x74D4); (0x29A3,0x7669); (0x29A4,0x77D3);
  (0x29A5,0x7C50); (0x29A6,0x7E8F); (0x29A7,0x7E8C); (0x29A8,0x7FBC); (0x29A9,0x8617); (0x29AA,0x862D); (0x29AB,0x861A); (0x29AC,0x8823);
  (0x29AD,0x8822); (0x29AE,0x8821); (0x29AF,0x881F); (0x29B0,0x896A); (0x29B1,0x896C); (0x29B2,0x89BD); (0x29B3,0x8B74); (0x29B4,0x8B77);
  (0x29B5,0x8B7D); (0x29B6,0x8D13); (0x29B7,0x8E8A); (0x29B8,0x8E8D); (0x29B9,0x8E8B); (0x29BA,0x8F5F); (0x29BB,0x8FAF); (0x29BC,0x91BA);
  (0x29BD,0x942E); (0x29BE,0x9433); (0x29BF,0x9435); (0x29C0,0x943A); (0x29C1,0x9438); (0x29C2,0x9432); (0x29C3,0x942B); (0x29C4,0x95E2);
  (0x29C5,0x9738); (0x29C6,0x9739); (0x29C7,0x9732); (0x29C8,0x97FF); (0x29C9,0x9867); (0x29CA,0x9865); (0x29CB,0x9957); (0x29CC,0x9A45);
  (0x29CD,0x9A43); (0x29CE,0x9A40); (0x29CF,0x9A3E); (0x29D0,0x9ACF); (0x29D1,0x9B54); (0x29D2,0x9B51); (0x29D3,0x9C2D); (0x29D4,0x9C25);
  (0x29D5,0x9DAF); (0x29D6,0x9DB4); (0x29D7,0x9DC2); (0x29D8,0x9DB8); (0x29D9,0x9E9D); (0x29DA,0x9EEF); (0x29DB,0x9F19); (0x29DC,0x9F5C);
  (0x29DD,0x9F66); (0x29DE,0x9F67); (0x29DF,0x513C); (0x29E0,0x513B); (0x29E1,0x56C8); (0x29E2,0x56CA); (0x29E3,0x56C9); (0x29E4,0x5B7F);
  (0x29E5,0x5DD4); (0x29E6,0x5DD2); (0x29E7,0x5F4E); (0x29E8,0x61FF); (0x29E9,0x6524); (0x29EA,0x6B0A); (0x29EB,0x6B61); (0x29EC,0x7051);
  (0x29ED,0x7058); (0x29EE,0x7380); (0x29EF,0x74E4); (0x29F0,0x758A); (0x29F1,0x766E); (0x29F2,0x766C); (0x29F3,0x79B3); (0x29F4,0x7C60);
  (0x29F5,0x7C5F); (0x29F6,0x807E); (0x29F7,0x807D); (0x29F8,0x81DF); (0x29F9,0x8972); (0x29FA,0x896F); (0x29FB,0x89FC); (0x29FC,0x8B80);
  (0x29FD,0x8D16); (0x29FE,0x8D17); (0x29FF,0x8E91); (0x2A00,0x8E93); (0x2A01,0x8F61); (0x2A02,0x9148); (0x2A03,0x9444); (0x2A04,0x9451);
  (0x2A05,0x9452); (0x2A06,0x973D); (0x2A07,0x973E); (0x2A08,0x97C3); (0x2A09,0x97C1); (0x2A0A,0x986B); (0x2A0B,0x9955); (0x2A0C,0x9A55);
  (0x2A0D,0x9A4D); (0x2A0E,0x9AD2); (0x2A0F,0x9B1A); (0x2A10,0x9C49); (0x2A11,0x9C31); (0x2A12,0x9C3E); (0x2A13,0x9C3B); (0x2A14,0x9DD3);
  (0x2A15,0x9DD7); (0x2A16,0x9F34); (0x2A17,0x9F6C); (0x2A18,0x9F6A); (0x2A19,0x9F94); (0x2A1A,0x56CC); (0x2A1B,0x5DD6); (0x2A1C,0x6200);
  (0x2A1D,0x6523); (0x2A1E,0x652B); (0x2A1F,0x652A); (0x2A20,0x66EC); (0x2A21,0x6B10); (0x2A22,0x74DA); (0x2A23,0x7ACA); (0x2A24,0x7C64);
  (0x2A25,0x7C63); (0x2A26,0x7C65); (0x2A27,0x7E93); (0x2A28,0x7E96); (0x2A29,0x7E94); (0x2A2A,0x81E2); (0x2A2B,0x8638); (0x2A2C,0x863F);
  (0x2A2D,0x8831); (0x2A2E,0x8B8A); (0x2A2F,0x9090); (0x2A30,0x908F); (0x2A31,0x9463); (0x2A32,0x9460); (0x2A33,0x9464); (0x2A34,0x9768);
  (0x2A35,0x986F); (0x2A36,0x995C); (0x2A37,0x9A5A); (0x2A38,0x9A5B); (0x2A39,0x9A57); (0x2A3A,0x9AD3); (0x2A3B,0x9AD4); (0x2A3C,0x9AD1);
  (0x2A3D,0x9C54); (0x2A3E,0x9C57); (0x2A3F,0x9C56); (0x2A40,0x9DE5); (0x2A41,0x9E9F); (0x2A42,0x9EF4); (0x2A43,0x56D1); (0x2A44,0x58E9);
  (0x2A45,0x652C); (0x2A46,0x705E); (0x2A47,0x7671); (0x2A48,0x7672); (0x2A49,0x77D7); (0x2A4A,0x7F50); (0x2A4B,0x7F88); (0x2A4C,0x8836);
  (0x2A4D,0x8839); (0x2A4E,0x8862); (0x2A4F,0x8B93); (0x2A50,0x8B92); (0x2A51,0x8B96); (0x2A52,0x8277); (0x2A53,0x8D1B); (0x2A54,0x91C0);
  (0x2A55,0x946A); (0x2A56,0x9742); (0x2A57,0x9748); (0x2A58,0x9744); (0x2A59,0x97C6); (0x2A5A,0x9870); (0x2A5B,0x9A5F); (0x2A5C,0x9B22);
  (0x2A5D,0x9B58); (0x2A5E,0x9C5F); (0x2A5F,0x9DF9); (0x2A60,0x9DFA); (0x2A61,0x9E7C); (0x2A62,0x9E7D); (0x2A63,0x9F07); (0x2A64,0x9F77);
  (0x2A65,0x9F72); (0x2A66,0x5EF3); (0x2A67,0x6B16); (0x2A68,0x7063); (0x2A69,0x7C6C); (0x2A6A,0x7C6E); (0x2A6B,0x883B); (0x2A6C,0x89C0);
  (0x2A6D,0x8EA1); (0x2A6E,0x91C1); (0x2A6F,0x9472); (0x2A70,0x9470); (0x2A71,0x9871); (0x2A72,0x995E); (0x2A73,0x9AD6); (0x2A74,0x9B23);
  (0x2A75,0x9ECC); (0x2A76,0x7064); (0x2A77,0x77DA); (0x2A78,0x8B9A); (0x2A79,0x9477); (0x2A7A,0x97C9); (0x2A7B,0x9A62); (0x2A7C,0x9A65)
].
(* encoding_tables/whatwg/index-big5.txt (pointer, code point), entries 9728..9983 *)
Definition big5_index_38 : list (N * N) := [
  (0x2A7D,0x7E9C); (0x2A7E,0x8B9C); (0x2A7F,0x8EAA); (0x2A80,0x91C5); (0x2A81,0x947D); (0x2A82,0x947E); (0x2A83,0x947C); (0x2A84,0x9C77);
  (0x2A85,0x9C78); (0x2A86,0x9EF7); (0x2A87,0x8C54); (0x2A88,0x947F); (0x2A89,0x9E1A); (0x2A8A,0x7228); (0x2A8B,0x9A6A); (0x2A8C,0x9B31);
  (0x2A8D,0x9E1B); (0x2A8E,0x9E1E); (0x2A8F,0x7C72); (0x2A90,0x2460); (0x2A91,0x2461); (0x2A92,0x2462); (0x2A93,0x2463); (0x2A94,0x2464);
  (0x2A95,0x2465); (0x2A96,0x2466); (0x2A97,0x2467); (0x2A98,0x2468); (0x2A99,0x2469); (0x2A9A,0x2474); (0x2A9B,0x2475); (0x2A9C,0x2476);
  (0x2A9D,0x2477); (0x2A9E,0x2478); (0x2A9F,0x2479); (0x2AA0,0x247A); (0x2AA1,0x247B); (0x2AA2,0x247C); (0x2AA3,0x247D); (0x2AA4,0x2170);
  (0x2AA5,0x2171); (0x2AA6,0x2172); (0x2AA7,0x2173); (0x2AA8,0x2174); (0x2AA9,0x2175); (0x2AAA,0x2176); (0x2AAB,0x2177); (0x2AAC,0x2178);
  (0x2AAD,0x2179); (0x2AAE,0x4E36); (0x2AAF,0x4E3F); (0x2AB0,0x4E85); (0x2AB1,0x4EA0); (0x2AB2,0x5182); (0x2AB3,0x5196); (0x2AB4,0x51AB);
  (0x2AB5,0x52F9); (0x2AB6,0x5338); (0x2AB7,0x5369); (0x2AB8,0x53B6); (0x2AB9,0x590A); (0x2ABA,0x5B80); (0x2ABB,0x5DDB); (0x2ABC,0x2F33);
  (0x2ABD,0x5E7F); (0x2ABE,0x5EF4); (0x2ABF,0x5F50); (0x2AC0,0x5F61); (0x2AC1,0x6534); (0x2AC2,0x65E0); (0x2AC3,0x7592); (0x2AC4,0x7676);
  (0x2AC5,0x8FB5); (0x2AC6,0x96B6); (0x2AC7,0xA8); (0x2AC8,0x2C6); (0x2AC9,0x30FD); (0x2ACA,0x30FE); (0x2ACB,0x309D); (0x2ACC,0x309E);
  (0x2ACD,0x3003); (0x2ACE,0x4EDD); (0x2ACF,0x3005); (0x2AD0,0x3006); (0x2AD1,0x3007); (0x2AD2,0x30FC); (0x2AD3,0xFF3B); (0x2AD4,0xFF3D);
  (0x2AD5,0x273D); (0x2AD6,0x3041); (0x2AD7,0x3042); (0x2AD8,0x3043); (0x2AD9,0x3044); (0x2ADA,0x3045); (0x2ADB,0x3046); (0x2ADC,0x3047);
  (0x2ADD,0x3048); (0x2ADE,0x3049); (0x2ADF,0x304A); (0x2AE0,0x304B); (0x2AE1,0x304C); (0x2AE2,0x304D); (0x2AE3,0x304E); (0x2AE4,0x304F);
  (0x2AE5,0x3050); (0x2AE6,0x3051); (0x2AE7,0x3052); (0x2AE8,0x3053); (0x2AE9,0x3054); (0x2AEA,0x3055); (0x2AEB,0x3056); (0x2AEC,0x3057);
  (0x2AED,0x3058); (0x2AEE,0x3059); (0x2AEF,0x305A); (0x2AF0,0x305B); (0x2AF1,0x305C); (0x2AF2,0x305D); (0x2AF3,0x305E); (0x2AF4,0x305F);
  (0x2AF5,0x3060); (0x2AF6,0x3061); (0x2AF7,0x3062); (0x2AF8,0x3063); (0x2AF9,0x3064); (0x2AFA,0x3065); (0x2AFB,0x3066); (0x2AFC,0x3067);
  (0x2AFD,0x3068); (0x2AFE,0x3069); (0x2AFF,0x306A); (0x2B00,0x306B); (0x2B01,0x306C); (0x2B02,0x306D); (0x2B03,0x306E); (0x2B04,0x306F);
  (0x2B05,0x3070); (0x2B06,0x3071); (0x2B07,0x3072); (0x2B08,0x3073); (0x2B09,0x3074); (0x2B0A,0x3075); (0x2B0B,0x3076); (0x2B0C,0x3077);
  (0x2B0D,0x3078); (0x2B0E,0x3079); (0x2B0F,0x307A); (0x2B10,0x307B); (0x2B11,0x307C); (0x2B12,0x307D); (0x2B13,0x307E); (0x2B14,0x307F);
  (0x2B15,0x3080); (0x2B16,0x3081); (0x2B17,0x3082); (0x2B18,0x3083); (0x2B19,0x3084); (0x2B1A,0x3085); (0x2B1B,0x3086); (0x2B1C,0x3087);
  (0x2B1D,0x3088); (0x2B1E,0x3089); (0x2B1F,0x308A); (0x2B20,0x308B); (0x2B21,0x308C); (0x2B22,0x308D); (0x2B23,0x308E); (0x2B24,0x308F);
  (0x2B25,0x3090); (0x2B26,0x3091); (0x2B27,0x3092); (0x2B28,0x3093); (0x2B29,0x30A1); (0x2B2A,0x30A2); (0x2B2B,0x30A3); (0x2B2C,0x30A4);
  (0x2B2D,0x30A5); (0x2B2E,0x30A6); (0x2B2F,0x30A7); (0x2B30,0x30A8); (0x2B31,0x30A9); (0x2B32,0x30AA); (0x2B33,0x30AB); (0x2B34,0x30AC);
  (0x2B35,0x30AD); (0x2B36,0x30AE); (0x2B37,0x30AF); (0x2B38,0x30B0); (0x2B39,0x30B1); (0x2B3A,0x30B2); (0x2B3B,0x30B3); (0x2B3C,0x30B4);
  (0x2B3D,0x30B5); (0x2B3E,0x30B6); (0x2B3F,0x30B7); (0x2B40,0x30B8); (0x2B41,0x30B9); (0x2B42,0x30BA); (0x2B43,0x30BB); (0x2B44,0x30BC);
  (0x2B45,0x30BD); (0x2B46,0x30BE); (0x2B47,0x30BF); (0x2B48,0x30C0); (0x2B49,0x30C1); (0x2B4A,0x30C2); (0x2B4B,0x30C3); (0x2B4C,0x30C4);
  (0x2B4D,0x30C5); (0x2B4E,0x30C6); (0x2B4F,0x30C7); (0x2B50,0x30C8); (0x2B51,0x30C9); (0x2B52,0x30CA); (0x2B53,0x30CB); (0x2B54,0x30CC);
  (0x2B55,0x30CD); (0x2B56,0x30CE); (0x2B57,0x30CF); (0x2B58,0x30D0); (0x2B59,0x30D1); (0x2B5A,0x30D2); (0x2B5B,0x30D3); (0x2B5C,0x30D4);
  (0x2B5D,0x30D5); (0x2B5E,0x30D6); (0x2B5F,0x30D7); (0x2B60,0x30D8); (0x2B61,0x30D9); (0x2B62,0x30DA); (0x2B63,0x30DB); (0x2B64,0x30DC);
  (0x2B65,0x30DD); (0x2B66,0x30DE); (0x2B67,0x30DF); (0x2B68,0x30E0); (0x2B69,0x30E1); (0x2B6A,0x30E2); (0x2B6B,0x30E3); (0x2B6C,0x30E4);
  (0x2B6D,0x30E5); (0x2B6E,0x30E6); (0x2B6F,0x30E7); (0x2B70,0x30E8); (0x2B71,0x30E9); (0x2B72,0x30EA); (0x2B73,0x30EB); (0x2B74,0x30EC);
  (0x2B75,0x30ED); (0x2B76,0x30EE); (0x2B77,0x30EF); (0x2B78,0x30F0); (0x2B79,0x30F1); (0x2B7A,0x30F2); (0x2B7B,0x30F3); (0x2B7C,0x30F4)
].
(* encoding_tables/whatwg/index-big5.txt (pointer, code point), entries 9984..10239 *)
Definition big5_index_39 : list (N * N) := [
  (0x2B7D,0x30F5); (0x2B7E,0x30F6); (0x2B7F,0x410); (0x2B80,0x411); (0x2B81,0x412); (0x2B82,0x413); (0x2B83,0x414); (0x2B84,0x415);
  (0x2B85,0x401); (0x2B86,0x416); (0x2B87,0x417); (0x2B88,0x418); (0x2B89,0x419); (0x2B8A,0x41A); (0x2B8B,0x41B); (0x2B8C,0x41C);
  (0x2B8D,0x41D); (0x2B8E,0x41E); (0x2B8F,0x41F); (0x2B90,0x420); (0x2B91,0x421); (0x2B92,0x422); (0x2B93,0x423); (0x2B94,0x424);
  (0x2B95,0x425); (0x2B96,0x426); (0x2B97,0x427); (0x2B98,0x428); (0x2B99,0x429); (0x2B9A,0x42A); (0x2B9B,0x42B); (0x2B9C,0x42C);
  (0x2B9D,0x42D); (0x2B9E,0x42E); (0x2B9F,0x42F); (0x2BA0,0x430); (0x2BA1,0x431); (0x2BA2,0x432); (0x2BA3,0x433); (0x2BA4,0x434);
  (0x2BA5,0x435); (0x2BA6,0x451); (0x2BA7,0x436); (0x2BA8,0x437); (0x2BA9,0x438); (0x2BAA,0x439); (0x2BAB,0x43A); (0x2BAC,0x43B);
  (0x2BAD,0x43C); (0x2BAE,0x43D); (0x2BAF,0x43E); (0x2BB0,0x43F); (0x2BB1,0x440); (0x2BB2,0x441); (0x2BB3,0x442); (0x2BB4,0x443);
  (0x2BB5,0x444); (0x2BB6,0x445); (0x2BB7,0x446); (0x2BB8,0x447); (0x2BB9,0x448); (0x2BBA,0x449); (0x2BBB,0x44A); (0x2BBC,0x44B);
  (0x2BBD,0x44C); (0x2BBE,0x44D); (0x2BBF,0x44E); (0x2BC0,0x44F); (0x2BC1,0x21E7); (0x2BC2,0x21B8); (0x2BC3,0x21B9); (0x2BC4,0x31CF);
  (0x2BC5,0x200CC); (0x2BC6,0x4E5A); (0x2BC7,0x2008A); (0x2BC8,0x5202); (0x2BC9,0x4491); (0x2BCA,0x9FB0); (0x2BCB,0x5188); (0x2BCC,0x9FB1);
  (0x2BCD,0x27607); (0x2BF6,0xFFE2); (0x2BF7,0xFFE4); (0x2BF8,0xFF07); (0x2BF9,0xFF02); (0x2BFA,0x3231); (0x2BFB,0x2116); (0x2BFC,0x2121);
  (0x2BFD,0x309B); (0x2BFE,0x309C); (0x2BFF,0x2E80); (0x2C00,0x2E84); (0x2C01,0x2E86); (0x2C02,0x2E87); (0x2C03,0x2E88); (0x2C04,0x2E8A);
  (0x2C05,0x2E8C); (0x2C06,0x2E8D); (0x2C07,0x2E95); (0x2C08,0x2E9C); (0x2C09,0x2E9D); (0x2C0A,0x2EA5); (0x2C0B,0x2EA7); (0x2C0C,0x2EAA);
  (0x2C0D,0x2EAC); (0x2C0E,0x2EAE); (0x2C0F,0x2EB6); (0x2C10,0x2EBC); (0x2C11,0x2EBE); (0x2C12,0x2EC6); (0x2C13,0x2ECA); (0x2C14,0x2ECC);
  (0x2C15,0x2ECD); (0x2C16,0x2ECF); (0x2C17,0x2ED6); (0x2C18,0x2ED7); (0x2C19,0x2EDE); (0x2C1A,0x2EE3); (0x2C1E,0x283); (0x2C1F,0x250);
  (0x2C20,0x25B); (0x2C21,0x254); (0x2C22,0x275); (0x2C23,0x153); (0x2C24,0xF8); (0x2C25,0x14B); (0x2C26,0x28A); (0x2C27,0x26A);
  (0x2C28,0x4E42); (0x2C29,0x4E5C); (0x2C2A,0x51F5); (0x2C2B,0x531A); (0x2C2C,0x5382); (0x2C2D,0x4E07); (0x2C2E,0x4E0C); (0x2C2F,0x4E47);
  (0x2C30,0x4E8D); (0x2C31,0x56D7); (0x2C32,0xFA0C); (0x2C33,0x5C6E); (0x2C34,0x5F73); (0x2C35,0x4E0F); (0x2C36,0x5187); (0x2C37,0x4E0E);
  (0x2C38,0x4E2E); (0x2C39,0x4E93); (0x2C3A,0x4EC2); (0x2C3B,0x4EC9); (0x2C3C,0x4EC8); (0x2C3D,0x5198); (0x2C3E,0x52FC); (0x2C3F,0x536C);
  (0x2C40,0x53B9); (0x2C41,0x5720); (0x2C42,0x5903); (0x2C43,0x592C); (0x2C44,0x5C10); (0x2C45,0x5DFF); (0x2C46,0x65E1); (0x2C47,0x6BB3);
  (0x2C48,0x6BCC); (0x2C49,0x6C14); (0x2C4A,0x723F); (0x2C4B,0x4E31); (0x2C4C,0x4E3C); (0x2C4D,0x4EE8); (0x2C4E,0x4EDC); (0x2C4F,0x4EE9);
  (0x2C50,0x4EE1); (0x2C51,0x4EDD); (0x2C52,0x4EDA); (0x2C53,0x520C); (0x2C54,0x531C); (0x2C55,0x534C); (0x2C56,0x5722); (0x2C57,0x5723);
  (0x2C58,0x5917); (0x2C59,0x592F); (0x2C5A,0x5B81); (0x2C5B,0x5B84); (0x2C5C,0x5C12); (0x2C5D,0x5C3B); (0x2C5E,0x5C74); (0x2C5F,0x5C73);
  (0x2C60,0x5E04); (0x2C61,0x5E80); (0x2C62,0x5E82); (0x2C63,0x5FC9); (0x2C64,0x6209); (0x2C65,0x6250); (0x2C66,0x6C15); (0x2C67,0x6C36);
  (0x2C68,0x6C43); (0x2C69,0x6C3F); (0x2C6A,0x6C3B); (0x2C6B,0x72AE); (0x2C6C,0x72B0); (0x2C6D,0x738A); (0x2C6E,0x79B8); (0x2C6F,0x808A);
  (0x2C70,0x961E); (0x2C71,0x4F0E); (0x2C72,0x4F18); (0x2C73,0x4F2C); (0x2C74,0x4EF5); (0x2C75,0x4F14); (0x2C76,0x4EF1); (0x2C77,0x4F00);
  (0x2C78,0x4EF7); (0x2C79,0x4F08); (0x2C7A,0x4F1D); (0x2C7B,0x4F02); (0x2C7C,0x4F05); (0x2C7D,0x4F22); (0x2C7E,0x4F13); (0x2C7F,0x4F04);
  (0x2C80,0x4EF4); (0x2C81,0x4F12); (0x2C82,0x51B1); (0x2C83,0x5213); (0x2C84,0x5209); (0x2C85,0x5210); (0x2C86,0x52A6); (0x2C87,0x5322);
  (0x2C88,0x531F); (0x2C89,0x534D); (0x2C8A,0x538A); (0x2C8B,0x5407); (0x2C8C,0x56E1); (0x2C8D,0x56DF); (0x2C8E,0x572E); (0x2C8F,0x572A);
  (0x2C90,0x5734); (0x2C91,0x593C); (0x2C92,0x5980); (0x2C93,0x597C); (0x2C94,0x5985); (0x2C95,0x597B); (0x2C96,0x597E); (0x2C97,0x5977);
  (0x2C98,0x597F); (0x2C99,0x5B56); (0x2C9A,0x5C15); (0x2C9B,0x5C25); (0x2C9C,0x5C7C); (0x2C9D,0x5C7A); (0x2C9E,0x5C7B); (0x2C9F,0x5C7E);
  (0x2CA0,0x5DDF); (0x2CA1,0x5E75); (0x2CA2,0x5E84); (0x2CA3,0x5F02); (0x2CA4,0x5F1A); (0x2CA5,0x5F74); (0x2CA6,0x5FD5); (0x2CA7,0x5FD4)
].
(* encoding_tables/whatwg/index-big5.txt (pointer, code point), entries 10240..10495 *)
Definition big5_index_40 : list (N * N) := [
  (0x2CA8,0x5FCF); (0x2CA9,0x625C); (0x2CAA,0x625E); (0x2CAB,0x6264); (0x2CAC,0x6261); (0x2CAD,0x6266); (0x2CAE,0x6262); (0x2CAF,0x6259);
  (0x2CB0,0x6260); (0x2CB1,0x625A); (0x2CB2,0x6265); (0x2CB3,0x65EF); (0x2CB4,0x65EE); (0x2CB5,0x673E); (0x2CB6,0x6739); (0x2CB7,0x6738);
  (0x2CB8,0x673B); (0x2CB9,0x673A); (0x2CBA,0x673F); (0x2CBB,0x673C); (0x2CBC,0x6733); (0x2CBD,0x6C18); (0x2CBE,0x6C46); (0x2CBF,0x6C52);
  (0x2CC0,0x6C5C); (0x2CC1,0x6C4F); (0x2CC2,0x6C4A); (0x2CC3,0x6C54); (0x2CC4,0x6C4B); (0x2CC5,0x6C4C); (0x2CC6,0x7071); (0x2CC7,0x725E);
  (0x2CC8,0x72B4); (0x2CC9,0x72B5); (0x2CCA,0x738E); (0x2CCB,0x752A); (0x2CCC,0x767F); (0x2CCD,0x7A75); (0x2CCE,0x7F51); (0x2CCF,0x8278);
  (0x2CD0,0x827C); (0x2CD1,0x8280); (0x2CD2,0x827D); (0x2CD3,0x827F); (0x2CD4,0x864D); (0x2CD5,0x897E); (0x2CD6,0x9099); (0x2CD7,0x9097);
  (0x2CD8,0x9098); (0x2CD9,0x909B); (0x2CDA,0x9094); (0x2CDB,0x9622); (0x2CDC,0x9624); (0x2CDD,0x9620); (0x2CDE,0x9623); (0x2CDF,0x4F56);
  (0x2CE0,0x4F3B); (0x2CE1,0x4F62); (0x2CE2,0x4F49); (0x2CE3,0x4F53); (0x2CE4,0x4F64); (0x2CE5,0x4F3E); (0x2CE6,0x4F67); (0x2CE7,0x4F52);
  (0x2CE8,0x4F5F); (0x2CE9,0x4F41); (0x2CEA,0x4F58); (0x2CEB,0x4F2D); (0x2CEC,0x4F33); (0x2CED,0x4F3F); (0x2CEE,0x4F61); (0x2CEF,0x518F);
  (0x2CF0,0x51B9); (0x2CF1,0x521C); (0x2CF2,0x521E); (0x2CF3,0x5221); (0x2CF4,0x52AD); (0x2CF5,0x52AE); (0x2CF6,0x5309); (0x2CF7,0x5363);
  (0x2CF8,0x5372); (0x2CF9,0x538E); (0x2CFA,0x538F); (0x2CFB,0x5430); (0x2CFC,0x5437); (0x2CFD,0x542A); (0x2CFE,0x5454); (0x2CFF,0x5445);
  (0x2D00,0x5419); (0x2D01,0x541C); (0x2D02,0x5425); (0x2D03,0x5418); (0x2D04,0x543D); (0x2D05,0x544F); (0x2D06,0x5441); (0x2D07,0x5428);
  (0x2D08,0x5424); (0x2D09,0x5447); (0x2D0A,0x56EE); (0x2D0B,0x56E7); (0x2D0C,0x56E5); (0x2D0D,0x5741); (0x2D0E,0x5745); (0x2D0F,0x574C);
  (0x2D10,0x5749); (0x2D11,0x574B); (0x2D12,0x5752); (0x2D13,0x5906); (0x2D14,0x5940); (0x2D15,0x59A6); (0x2D16,0x5998); (0x2D17,0x59A0);
  (0x2D18,0x5997); (0x2D19,0x598E); (0x2D1A,0x59A2); (0x2D1B,0x5990); (0x2D1C,0x598F); (0x2D1D,0x59A7); (0x2D1E,0x59A1); (0x2D1F,0x5B8E);
  (0x2D20,0x5B92); (0x2D21,0x5C28); (0x2D22,0x5C2A); (0x2D23,0x5C8D); (0x2D24,0x5C8F); (0x2D25,0x5C88); (0x2D26,0x5C8B); (0x2D27,0x5C89);
  (0x2D28,0x5C92); (0x2D29,0x5C8A); (0x2D2A,0x5C86); (0x2D2B,0x5C93); (0x2D2C,0x5C95); (0x2D2D,0x5DE0); (0x2D2E,0x5E0A); (0x2D2F,0x5E0E);
  (0x2D30,0x5E8B); (0x2D31,0x5E89); (0x2D32,0x5E8C); (0x2D33,0x5E88); (0x2D34,0x5E8D); (0x2D35,0x5F05); (0x2D36,0x5F1D); (0x2D37,0x5F78);
  (0x2D38,0x5F76); (0x2D39,0x5FD2); (0x2D3A,0x5FD1); (0x2D3B,0x5FD0); (0x2D3C,0x5FED); (0x2D3D,0x5FE8); (0x2D3E,0x5FEE); (0x2D3F,0x5FF3);
  (0x2D40,0x5FE1); (0x2D41,0x5FE4); (0x2D42,0x5FE3); (0x2D43,0x5FFA); (0x2D44,0x5FEF); (0x2D45,0x5FF7); (0x2D46,0x5FFB); (0x2D47,0x6000);
  (0x2D48,0x5FF4); (0x2D49,0x623A); (0x2D4A,0x6283); (0x2D4B,0x628C); (0x2D4C,0x628E); (0x2D4D,0x628F); (0x2D4E,0x6294); (0x2D4F,0x6287);
  (0x2D50,0x6271); (0x2D51,0x627B); (0x2D52,0x627A); (0x2D53,0x6270); (0x2D54,0x6281); (0x2D55,0x6288); (0x2D56,0x6277); (0x2D57,0x627D);
  (0x2D58,0x6272); (0x2D59,0x6274); (0x2D5A,0x6537); (0x2D5B,0x65F0); (0x2D5C,0x65F4); (0x2D5D,0x65F3); (0x2D5E,0x65F2); (0x2D5F,0x65F5);
  (0x2D60,0x6745); (0x2D61,0x6747); (0x2D62,0x6759); (0x2D63,0x6755); (0x2D64,0x674C); (0x2D65,0x6748); (0x2D66,0x675D); (0x2D67,0x674D);
  (0x2D68,0x675A); (0x2D69,0x674B); (0x2D6A,0x6BD0); (0x2D6B,0x6C19); (0x2D6C,0x6C1A); (0x2D6D,0x6C78); (0x2D6E,0x6C67); (0x2D6F,0x6C6B);
  (0x2D70,0x6C84); (0x2D71,0x6C8B); (0x2D72,0x6C8F); (0x2D73,0x6C71); (0x2D74,0x6C6F); (0x2D75,0x6C69); (0x2D76,0x6C9A); (0x2D77,0x6C6D);
  (0x2D78,0x6C87); (0x2D79,0x6C95); (0x2D7A,0x6C9C); (0x2D7B,0x6C66); (0x2D7C,0x6C73); (0x2D7D,0x6C65); (0x2D7E,0x6C7B); (0x2D7F,0x6C8E);
  (0x2D80,0x7074); (0x2D81,0x707A); (0x2D82,0x7263); (0x2D83,0x72BF); (0x2D84,0x72BD); (0x2D85,0x72C3); (0x2D86,0x72C6); (0x2D87,0x72C1);
  (0x2D88,0x72BA); (0x2D89,0x72C5); (0x2D8A,0x7395); (0x2D8B,0x7397); (0x2D8C,0x7393); (0x2D8D,0x7394); (0x2D8E,0x7392); (0x2D8F,0x753A);
  (0x2D90,0x7539); (0x2D91,0x7594); (0x2D92,0x7595); (0x2D93,0x7681); (0x2D94,0x793D); (0x2D95,0x8034); (0x2D96,0x8095); (0x2D97,0x8099);
  (0x2D98,0x8090); (0x2D99,0x8092); (0x2D9A,0x809C); (0x2D9B,0x8290); (0x2D9C,0x828F); (0x2D9D,0x8285); (0x2D9E,0x828E); (0x2D9F,0x8291);
  (0x2DA0,0x8293); (0x2DA1,0x828A); (0x2DA2,0x8283); (0x2DA3,0x8284); (0x2DA4,0x8C78); (0x2DA5,0x8FC9); (0x2DA6,0x8FBF); (0x2DA7,0x909F)
].
(* encoding_tables/whatwg/index-big5.txt (pointer, code point), entries 10496..10751 *)
Definition big5_index_41 : list (N * N) := [
  (0x2DA8,0x90A1); (0x2DA9,0x90A5); (0x2DAA,0x909E); (0x2DAB,0x90A7); (0x2DAC,0x90A0); (0x2DAD,0x9630); (0x2DAE,0x9628); (0x2DAF,0x962F);
  (0x2DB0,0x962D); (0x2DB1,0x4E33); (0x2DB2,0x4F98); (0x2DB3,0x4F7C); (0x2DB4,0x4F85); (0x2DB5,0x4F7D); (0x2DB6,0x4F80); (0x2DB7,0x4F87);
  (0x2DB8,0x4F76); (0x2DB9,0x4F74); (0x2DBA,0x4F89); (0x2DBB,0x4F84); (0x2DBC,0x4F77); (0x2DBD,0x4F4C); (0x2DBE,0x4F97); (0x2DBF,0x4F6A);
  (0x2DC0,0x4F9A); (0x2DC1,0x4F79); (0x2DC2,0x4F81); (0x2DC3,0x4F78); (0x2DC4,0x4F90); (0x2DC5,0x4F9C); (0x2DC6,0x4F94); (0x2DC7,0x4F9E);
  (0x2DC8,0x4F92); (0x2DC9,0x4F82); (0x2DCA,0x4F95); (0x2DCB,0x4F6B); (0x2DCC,0x4F6E); (0x2DCD,0x519E); (0x2DCE,0x51BC); (0x2DCF,0x51BE);
  (0x2DD0,0x5235); (0x2DD1,0x5232); (0x2DD2,0x5233); (0x2DD3,0x5246); (0x2DD4,0x5231); (0x2DD5,0x52BC); (0x2DD6,0x530A); (0x2DD7,0x530B);
  (0x2DD8,0x533C); (0x2DD9,0x5392); (0x2DDA,0x5394); (0x2DDB,0x5487); (0x2DDC,0x547F); (0x2DDD,0x5481); (0x2DDE,0x5491); (0x2DDF,0x5482);
  (0x2DE0,0x5488); (0x2DE1,0x546B); (0x2DE2,0x547A); (0x2DE3,0x547E); (0x2DE4,0x5465); (0x2DE5,0x546C); (0x2DE6,0x5474); (0x2DE7,0x5466);
  (0x2DE8,0x548D); (0x2DE9,0x546F); (0x2DEA,0x5461); (0x2DEB,0x5460); (0x2DEC,0x5498); (0x2DED,0x5463); (0x2DEE,0x5467); (0x2DEF,0x5464);
  (0x2DF0,0x56F7); (0x2DF1,0x56F9); (0x2DF2,0x576F); (0x2DF3,0x5772); (0x2DF4,0x576D); (0x2DF5,0x576B); (0x2DF6,0x5771); (0x2DF7,0x5770);
  (0x2DF8,0x5776); (0x2DF9,0x5780); (0x2DFA,0x5775); (0x2DFB,0x577B); (0x2DFC,0x5773); (0x2DFD,0x5774); (0x2DFE,0x5762); (0x2DFF,0x5768);
  (0x2E00,0x577D); (0x2E01,0x590C); (0x2E02,0x5945); (0x2E03,0x59B5); (0x2E04,0x59BA); (0x2E05,0x59CF); (0x2E06,0x59CE); (0x2E07,0x59B2);
  (0x2E08,0x59CC); (0x2E09,0x59C1); (0x2E0A,0x59B6); (0x2E0B,0x59BC); (0x2E0C,0x59C3); (0x2E0D,0x59D6); (0x2E0E,0x59B1); (0x2E0F,0x59BD);
  (0x2E10,0x59C0); (0x2E11,0x59C8); (0x2E12,0x59B4); (0x2E13,0x59C7); (0x2E14,0x5B62); (0x2E15,0x5B65); (0x2E16,0x5B93); (0x2E17,0x5B95);
  (0x2E18,0x5C44); (0x2E19,0x5C47); (0x2E1A,0x5CAE); (0x2E1B,0x5CA4); (0x2E1C,0x5CA0); (0x2E1D,0x5CB5); (0x2E1E,0x5CAF); (0x2E1F,0x5CA8);
  (0x2E20,0x5CAC); (0x2E21,0x5C9F); (0x2E22,0x5CA3); (0x2E23,0x5CAD); (0x2E24,0x5CA2); (0x2E25,0x5CAA); (0x2E26,0x5CA7); (0x2E27,0x5C9D);
  (0x2E28,0x5CA5); (0x2E29,0x5CB6); (0x2E2A,0x5CB0); (0x2E2B,0x5CA6); (0x2E2C,0x5E17); (0x2E2D,0x5E14); (0x2E2E,0x5E19); (0x2E2F,0x5F28);
  (0x2E30,0x5F22); (0x2E31,0x5F23); (0x2E32,0x5F24); (0x2E33,0x5F54); (0x2E34,0x5F82); (0x2E35,0x5F7E); (0x2E36,0x5F7D); (0x2E37,0x5FDE);
  (0x2E38,0x5FE5); (0x2E39,0x602D); (0x2E3A,0x6026); (0x2E3B,0x6019); (0x2E3C,0x6032); (0x2E3D,0x600B); (0x2E3E,0x6034); (0x2E3F,0x600A);
  (0x2E40,0x6017); (0x2E41,0x6033); (0x2E42,0x601A); (0x2E43,0x601E); (0x2E44,0x602C); (0x2E45,0x6022); (0x2E46,0x600D); (0x2E47,0x6010);
  (0x2E48,0x602E); (0x2E49,0x6013); (0x2E4A,0x6011); (0x2E4B,0x600C); (0x2E4C,0x6009); (0x2E4D,0x601C); (0x2E4E,0x6214); (0x2E4F,0x623D);
  (0x2E50,0x62AD); (0x2E51,0x62B4); (0x2E52,0x62D1); (0x2E53,0x62BE); (0x2E54,0x62AA); (0x2E55,0x62B6); (0x2E56,0x62CA); (0x2E57,0x62AE);
  (0x2E58,0x62B3); (0x2E59,0x62AF); (0x2E5A,0x62BB); (0x2E5B,0x62A9); (0x2E5C,0x62B0); (0x2E5D,0x62B8); (0x2E5E,0x653D); (0x2E5F,0x65A8);
  (0x2E60,0x65BB); (0x2E61,0x6609); (0x2E62,0x65FC); (0x2E63,0x6604); (0x2E64,0x6612); (0x2E65,0x6608); (0x2E66,0x65FB); (0x2E67,0x6603);
  (0x2E68,0x660B); (0x2E69,0x660D); (0x2E6A,0x6605); (0x2E6B,0x65FD); (0x2E6C,0x6611); (0x2E6D,0x6610); (0x2E6E,0x66F6); (0x2E6F,0x670A);
  (0x2E70,0x6785); (0x2E71,0x676C); (0x2E72,0x678E); (0x2E73,0x6792); (0x2E74,0x6776); (0x2E75,0x677B); (0x2E76,0x6798); (0x2E77,0x6786);
  (0x2E78,0x6784); (0x2E79,0x6774); (0x2E7A,0x678D); (0x2E7B,0x678C); (0x2E7C,0x677A); (0x2E7D,0x679F); (0x2E7E,0x6791); (0x2E7F,0x6799);
  (0x2E80,0x6783); (0x2E81,0x677D); (0x2E82,0x6781); (0x2E83,0x6778); (0x2E84,0x6779); (0x2E85,0x6794); (0x2E86,0x6B25); (0x2E87,0x6B80);
  (0x2E88,0x6B7E); (0x2E89,0x6BDE); (0x2E8A,0x6C1D); (0x2E8B,0x6C93); (0x2E8C,0x6CEC); (0x2E8D,0x6CEB); (0x2E8E,0x6CEE); (0x2E8F,0x6CD9);
  (0x2E90,0x6CB6); (0x2E91,0x6CD4); (0x2E92,0x6CAD); (0x2E93,0x6CE7); (0x2E94,0x6CB7); (0x2E95,0x6CD0); (0x2E96,0x6CC2); (0x2E97,0x6CBA);
  (0x2E98,0x6CC3); (0x2E99,0x6CC6); (0x2E9A,0x6CED); (0x2E9B,0x6CF2); (0x2E9C,0x6CD2); (0x2E9D,0x6CDD); (0x2E9E,0x6CB4); (0x2E9F,0x6C8A);
  (0x2EA0,0x6C9D); (0x2EA1,0x6C80); (0x2EA2,0x6CDE); (0x2EA3,0x6CC0); (0x2EA4,0x6D30); (0x2EA5,0x6CCD); (0x2EA6,0x6CC7); (0x2EA7,0x6CB0)
].
(* encoding_tables/whatwg/index-big5.txt (pointer, code point), entries 10752..11007 *)
Definition big5_index_42 : list (N * N) := [
  (0x2EA8,0x6CF9); (0x2EA9,0x6CCF); (0x2EAA,0x6CE9); (0x2EAB,0x6CD1); (0x2EAC,0x7094); (0x2EAD,0x7098); (0x2EAE,0x7085); (0x2EAF,0x7093);
  (0x2EB0,0x7086); (0x2EB1,0x7084); (0x2EB2,0x7091); (0x2EB3,0x7096); (0x2EB4,0x7082); (0x2EB5,0x709A); (0x2EB6,0x7083); (0x2EB7,0x726A);
  (0x2EB8,0x72D6); (0x2EB9,0x72CB); (0x2EBA,0x72D8); (0x2EBB,0x72C9); (0x2EBC,0x72DC); (0x2EBD,0x72D2); (0x2EBE,0x72D4); (0x2EBF,0x72DA);
  (0x2EC0,0x72CC); (0x2EC1,0x72D1); (0x2EC2,0x73A4); (0x2EC3,0x73A1); (0x2EC4,0x73AD); (0x2EC5,0x73A6); (0x2EC6,0x73A2); (0x2EC7,0x73A0);
  (0x2EC8,0x73AC); (0x2EC9,0x739D); (0x2ECA,0x74DD); (0x2ECB,0x74E8); (0x2ECC,0x753F); (0x2ECD,0x7540); (0x2ECE,0x753E); (0x2ECF,0x758C);
  (0x2ED0,0x7598); (0x2ED1,0x76AF); (0x2ED2,0x76F3); (0x2ED3,0x76F1); (0x2ED4,0x76F0); (0x2ED5,0x76F5); (0x2ED6,0x77F8); (0x2ED7,0x77FC);
  (0x2ED8,0x77F9); (0x2ED9,0x77FB); (0x2EDA,0x77FA); (0x2EDB,0x77F7); (0x2EDC,0x7942); (0x2EDD,0x793F); (0x2EDE,0x79C5); (0x2EDF,0x7A78);
  (0x2EE0,0x7A7B); (0x2EE1,0x7AFB); (0x2EE2,0x7C75); (0x2EE3,0x7CFD); (0x2EE4,0x8035); (0x2EE5,0x808F); (0x2EE6,0x80AE); (0x2EE7,0x80A3);
  (0x2EE8,0x80B8); (0x2EE9,0x80B5); (0x2EEA,0x80AD); (0x2EEB,0x8220); (0x2EEC,0x82A0); (0x2EED,0x82C0); (0x2EEE,0x82AB); (0x2EEF,0x829A);
  (0x2EF0,0x8298); (0x2EF1,0x829B); (0x2EF2,0x82B5); (0x2EF3,0x82A7); (0x2EF4,0x82AE); (0x2EF5,0x82BC); (0x2EF6,0x829E); (0x2EF7,0x82BA);
  (0x2EF8,0x82B4); (0x2EF9,0x82A8); (0x2EFA,0x82A1); (0x2EFB,0x82A9); (0x2EFC,0x82C2); (0x2EFD,0x82A4); (0x2EFE,0x82C3); (0x2EFF,0x82B6);
  (0x2F00,0x82A2); (0x2F01,0x8670); (0x2F02,0x866F); (0x2F03,0x866D); (0x2F04,0x866E); (0x2F05,0x8C56); (0x2F06,0x8FD2); (0x2F07,0x8FCB);
  (0x2F08,0x8FD3); (0x2F09,0x8FCD); (0x2F0A,0x8FD6); (0x2F0B,0x8FD5); (0x2F0C,0x8FD7); (0x2F0D,0x90B2); (0x2F0E,0x90B4); (0x2F0F,0x90AF);
  (0x2F10,0x90B3); (0x2F11,0x90B0); (0x2F12,0x9639); (0x2F13,0x963D); (0x2F14,0x963C); (0x2F15,0x963A); (0x2F16,0x9643); (0x2F17,0x4FCD);
  (0x2F18,0x4FC5); (0x2F19,0x4FD3); (0x2F1A,0x4FB2); (0x2F1B,0x4FC9); (0x2F1C,0x4FCB); (0x2F1D,0x4FC1); (0x2F1E,0x4FD4); (0x2F1F,0x4FDC);
  (0x2F20,0x4FD9); (0x2F21,0x4FBB); (0x2F22,0x4FB3); (0x2F23,0x4FDB); (0x2F24,0x4FC7); (0x2F25,0x4FD6); (0x2F26,0x4FBA); (0x2F27,0x4FC0);
  (0x2F28,0x4FB9); (0x2F29,0x4FEC); (0x2F2A,0x5244); (0x2F2B,0x5249); (0x2F2C,0x52C0); (0x2F2D,0x52C2); (0x2F2E,0x533D); (0x2F2F,0x537C);
  (0x2F30,0x5397); (0x2F31,0x5396); (0x2F32,0x5399); (0x2F33,0x5398); (0x2F34,0x54BA); (0x2F35,0x54A1); (0x2F36,0x54AD); (0x2F37,0x54A5);
  (0x2F38,0x54CF); (0x2F39,0x54C3); (0x2F3A,0x830D); (0x2F3B,0x54B7); (0x2F3C,0x54AE); (0x2F3D,0x54D6); (0x2F3E,0x54B6); (0x2F3F,0x54C5);
  (0x2F40,0x54C6); (0x2F41,0x54A0); (0x2F42,0x5470); (0x2F43,0x54BC); (0x2F44,0x54A2); (0x2F45,0x54BE); (0x2F46,0x5472); (0x2F47,0x54DE);
  (0x2F48,0x54B0); (0x2F49,0x57B5); (0x2F4A,0x579E); (0x2F4B,0x579F); (0x2F4C,0x57A4); (0x2F4D,0x578C); (0x2F4E,0x5797); (0x2F4F,0x579D);
  (0x2F50,0x579B); (0x2F51,0x5794); (0x2F52,0x5798); (0x2F53,0x578F); (0x2F54,0x5799); (0x2F55,0x57A5); (0x2F56,0x579A); (0x2F57,0x5795);
  (0x2F58,0x58F4); (0x2F59,0x590D); (0x2F5A,0x5953); (0x2F5B,0x59E1); (0x2F5C,0x59DE); (0x2F5D,0x59EE); (0x2F5E,0x5A00); (0x2F5F,0x59F1);
  (0x2F60,0x59DD); (0x2F61,0x59FA); (0x2F62,0x59FD); (0x2F63,0x59FC); (0x2F64,0x59F6); (0x2F65,0x59E4); (0x2F66,0x59F2); (0x2F67,0x59F7);
  (0x2F68,0x59DB); (0x2F69,0x59E9); (0x2F6A,0x59F3); (0x2F6B,0x59F5); (0x2F6C,0x59E0); (0x2F6D,0x59FE); (0x2F6E,0x59F4); (0x2F6F,0x59ED);
  (0x2F70,0x5BA8); (0x2F71,0x5C4C); (0x2F72,0x5CD0); (0x2F73,0x5CD8); (0x2F74,0x5CCC); (0x2F75,0x5CD7); (0x2F76,0x5CCB); (0x2F77,0x5CDB);
  (0x2F78,0x5CDE); (0x2F79,0x5CDA); (0x2F7A,0x5CC9); (0x2F7B,0x5CC7); (0x2F7C,0x5CCA); (0x2F7D,0x5CD6); (0x2F7E,0x5CD3); (0x2F7F,0x5CD4);
  (0x2F80,0x5CCF); (0x2F81,0x5CC8); (0x2F82,0x5CC6); (0x2F83,0x5CCE); (0x2F84,0x5CDF); (0x2F85,0x5CF8); (0x2F86,0x5DF9); (0x2F87,0x5E21);
  (0x2F88,0x5E22); (0x2F89,0x5E23); (0x2F8A,0x5E20); (0x2F8B,0x5E24); (0x2F8C,0x5EB0); (0x2F8D,0x5EA4); (0x2F8E,0x5EA2); (0x2F8F,0x5E9B);
  (0x2F90,0x5EA3); (0x2F91,0x5EA5); (0x2F92,0x5F07); (0x2F93,0x5F2E); (0x2F94,0x5F56); (0x2F95,0x5F86); (0x2F96,0x6037); (0x2F97,0x6039);
  (0x2F98,0x6054); (0x2F99,0x6072); (0x2F9A,0x605E); (0x2F9B,0x6045); (0x2F9C,0x6053); (0x2F9D,0x6047); (0x2F9E,0x6049); (0x2F9F,0x605B);
  (0x2FA0,0x604C); (0x2FA1,0x6040); (0x2FA2,0x6042); (0x2FA3,0x605F); (0x2FA4,0x6024); (0x2FA5,0x6044); (0x2FA6,0x6058); (0x2FA7,0x6066)
].
(* encoding_tables/whatwg/index-big5.txt (pointer, code point), entries 11008..11263 *)
Definition big5_index_43 : list (N * N) := [
  (0x2FA8,0x606E); (0x2FA9,0x6242); (0x2FAA,0x6243); (0x2FAB,0x62CF); (0x2FAC,0x630D); (0x2FAD,0x630B); (0x2FAE,0x62F5); (0x2FAF,0x630E);
  (0x2FB0,0x6303); (0x2FB1,0x62EB); (0x2FB2,0x62F9); (0x2FB3,0x630F); (0x2FB4,0x630C); (0x2FB5,0x62F8); (0x2FB6,0x62F6); (0x2FB7,0x6300);
  (0x2FB8,0x6313); (0x2FB9,0x6314); (0x2FBA,0x62FA); (0x2FBB,0x6315); (0x2FBC,0x62FB); (0x2FBD,0x62F0); (0x2FBE,0x6541); (0x2FBF,0x6543);
  (0x2FC0,0x65AA); (0x2FC1,0x65BF); (0x2FC2,0x6636); (0x2FC3,0x6621); (0x2FC4,0x6632); (0x2FC5,0x6635); (0x2FC6,0x661C); (0x2FC7,0x6626);
  (0x2FC8,0x6622); (0x2FC9,0x6633); (0x2FCA,0x662B); (0x2FCB,0x663A); (0x2FCC,0x661D); (0x2FCD,0x6634); (0x2FCE,0x6639); (0x2FCF,0x662E);
  (0x2FD0,0x670F); (0x2FD1,0x6710); (0x2FD2,0x67C1); (0x2FD3,0x67F2); (0x2FD4,0x67C8); (0x2FD5,0x67BA); (0x2FD6,0x67DC); (0x2FD7,0x67BB);
  (0x2FD8,0x67F8); (0x2FD9,0x67D8); (0x2FDA,0x67C0); (0x2FDB,0x67B7); (0x2FDC,0x67C5); (0x2FDD,0x67EB); (0x2FDE,0x67E4); (0x2FDF,0x67DF);
  (0x2FE0,0x67B5); (0x2FE1,0x67CD); (0x2FE2,0x67B3); (0x2FE3,0x67F7); (0x2FE4,0x67F6); (0x2FE5,0x67EE); (0x2FE6,0x67E3); (0x2FE7,0x67C2);
  (0x2FE8,0x67B9); (0x2FE9,0x67CE); (0x2FEA,0x67E7); (0x2FEB,0x67F0); (0x2FEC,0x67B2); (0x2FED,0x67FC); (0x2FEE,0x67C6); (0x2FEF,0x67ED);
  (0x2FF0,0x67CC); (0x2FF1,0x67AE); (0x2FF2,0x67E6); (0x2FF3,0x67DB); (0x2FF4,0x67FA); (0x2FF5,0x67C9); (0x2FF6,0x67CA); (0x2FF7,0x67C3);
  (0x2FF8,0x67EA); (0x2FF9,0x67CB); (0x2FFA,0x6B28); (0x2FFB,0x6B82); (0x2FFC,0x6B84); (0x2FFD,0x6BB6); (0x2FFE,0x6BD6); (0x2FFF,0x6BD8);
  (0x3000,0x6BE0); (0x3001,0x6C20); (0x3002,0x6C21); (0x3003,0x6D28); (0x3004,0x6D34); (0x3005,0x6D2D); (0x3006,0x6D1F); (0x3007,0x6D3C);
  (0x3008,0x6D3F); (0x3009,0x6D12); (0x300A,0x6D0A); (0x300B,0x6CDA); (0x300C,0x6D33); (0x300D,0x6D04); (0x300E,0x6D19); (0x300F,0x6D3A);
  (0x3010,0x6D1A); (0x3011,0x6D11); (0x3012,0x6D00); (0x3013,0x6D1D); (0x3014,0x6D42); (0x3015,0x6D01); (0x3016,0x6D18); (0x3017,0x6D37);
  (0x3018,0x6D03); (0x3019,0x6D0F); (0x301A,0x6D40); (0x301B,0x6D07); (0x301C,0x6D20); (0x301D,0x6D2C); (0x301E,0x6D08); (0x301F,0x6D22);
  (0x3020,0x6D09); (0x3021,0x6D10); (0x3022,0x70B7); (0x3023,0x709F); (0x3024,0x70BE); (0x3025,0x70B1); (0x3026,0x70B0); (0x3027,0x70A1);
  (0x3028,0x70B4); (0x3029,0x70B5); (0x302A,0x70A9); (0x302B,0x7241); (0x302C,0x7249); (0x302D,0x724A); (0x302E,0x726C); (0x302F,0x7270);
  (0x3030,0x7273); (0x3031,0x726E); (0x3032,0x72CA); (0x3033,0x72E4); (0x3034,0x72E8); (0x3035,0x72EB); (0x3036,0x72DF); (0x3037,0x72EA);
  (0x3038,0x72E6); (0x3039,0x72E3); (0x303A,0x7385); (0x303B,0x73CC); (0x303C,0x73C2); (0x303D,0x73C8); (0x303E,0x73C5); (0x303F,0x73B9);
  (0x3040,0x73B6); (0x3041,0x73B5); (0x3042,0x73B4); (0x3043,0x73EB); (0x3044,0x73BF); (0x3045,0x73C7); (0x3046,0x73BE); (0x3047,0x73C3);
  (0x3048,0x73C6); (0x3049,0x73B8); (0x304A,0x73CB); (0x304B,0x74EC); (0x304C,0x74EE); (0x304D,0x752E); (0x304E,0x7547); (0x304F,0x7548);
  (0x3050,0x75A7); (0x3051,0x75AA); (0x3052,0x7679); (0x3053,0x76C4); (0x3054,0x7708); (0x3055,0x7703); (0x3056,0x7704); (0x3057,0x7705);
  (0x3058,0x770A); (0x3059,0x76F7); (0x305A,0x76FB); (0x305B,0x76FA); (0x305C,0x77E7); (0x305D,0x77E8); (0x305E,0x7806); (0x305F,0x7811);
  (0x3060,0x7812); (0x3061,0x7805); (0x3062,0x7810); (0x3063,0x780F); (0x3064,0x780E); (0x3065,0x7809); (0x3066,0x7803); (0x3067,0x7813);
  (0x3068,0x794A); (0x3069,0x794C); (0x306A,0x794B); (0x306B,0x7945); (0x306C,0x7944); (0x306D,0x79D5); (0x306E,0x79CD); (0x306F,0x79CF);
  (0x3070,0x79D6); (0x3071,0x79CE); (0x3072,0x7A80); (0x3073,0x7A7E); (0x3074,0x7AD1); (0x3075,0x7B00); (0x3076,0x7B01); (0x3077,0x7C7A);
  (0x3078,0x7C78); (0x3079,0x7C79); (0x307A,0x7C7F); (0x307B,0x7C80); (0x307C,0x7C81); (0x307D,0x7D03); (0x307E,0x7D08); (0x307F,0x7D01);
  (0x3080,0x7F58); (0x3081,0x7F91); (0x3082,0x7F8D); (0x3083,0x7FBE); (0x3084,0x8007); (0x3085,0x800E); (0x3086,0x800F); (0x3087,0x8014);
  (0x3088,0x8037); (0x3089,0x80D8); (0x308A,0x80C7); (0x308B,0x80E0); (0x308C,0x80D1); (0x308D,0x80C8); (0x308E,0x80C2); (0x308F,0x80D0);
  (0x3090,0x80C5); (0x3091,0x80E3); (0x3092,0x80D9); (0x3093,0x80DC); (0x3094,0x80CA); (0x3095,0x80D5); (0x3096,0x80C9); (0x3097,0x80CF);
  (0x3098,0x80D7); (0x3099,0x80E6); (0x309A,0x80CD); (0x309B,0x81FF); (0x309C,0x8221); (0x309D,0x8294); (0x309E,0x82D9); (0x309F,0x82FE);
  (0x30A0,0x82F9); (0x30A1,0x8307); (0x30A2,0x82E8); (0x30A3,0x8300); (0x30A4,0x82D5); (0x30A5,0x833A); (0x30A6,0x82EB); (0x30A7,0x82D6)
].
(* encoding_tables/whatwg/index-big5.txt (pointer, code point), entries 11264..11519 *)
Definition big5_index_44 : list (N * N) := [
  (0x30A8,0x82F4); (0x30A9,0x82EC); (0x30AA,0x82E1); (0x30AB,0x82F2); (0x30AC,0x82F5); (0x30AD,0x830C); (0x30AE,0x82FB); (0x30AF,0x82F6);
  (0x30B0,0x82F0); (0x30B1,0x82EA); (0x30B2,0x82E4); (0x30B3,0x82E0); (0x30B4,0x82FA); (0x30B5,0x82F3); (0x30B6,0x82ED); (0x30B7,0x8677);
  (0x30B8,0x8674); (0x30B9,0x867C); (0x30BA,0x8673); (0x30BB,0x8841); (0x30BC,0x884E); (0x30BD,0x8867); (0x30BE,0x886A); (0x30BF,0x8869);
  (0x30C0,0x89D3); (0x30C1,0x8A04); (0x30C2,0x8A07); (0x30C3,0x8D72); (0x30C4,0x8FE3); (0x30C5,0x8FE1); (0x30C6,0x8FEE); (0x30C7,0x8FE0);
  (0x30C8,0x90F1); (0x30C9,0x90BD); (0x30CA,0x90BF); (0x30CB,0x90D5); (0x30CC,0x90C5); (0x30CD,0x90BE); (0x30CE,0x90C7); (0x30CF,0x90CB);
  (0x30D0,0x90C8); (0x30D1,0x91D4); (0x30D2,0x91D3); (0x30D3,0x9654); (0x30D4,0x964F); (0x30D5,0x9651); (0x30D6,0x9653); (0x30D7,0x964A);
  (0x30D8,0x964E); (0x30D9,0x501E); (0x30DA,0x5005); (0x30DB,0x5007); (0x30DC,0x5013); (0x30DD,0x5022); (0x30DE,0x5030); (0x30DF,0x501B);
  (0x30E0,0x4FF5); (0x30E1,0x4FF4); (0x30E2,0x5033); (0x30E3,0x5037); (0x30E4,0x502C); (0x30E5,0x4FF6); (0x30E6,0x4FF7); (0x30E7,0x5017);
  (0x30E8,0x501C); (0x30E9,0x5020); (0x30EA,0x5027); (0x30EB,0x5035); (0x30EC,0x502F); (0x30ED,0x5031); (0x30EE,0x500E); (0x30EF,0x515A);
  (0x30F0,0x5194); (0x30F1,0x5193); (0x30F2,0x51CA); (0x30F3,0x51C4); (0x30F4,0x51C5); (0x30F5,0x51C8); (0x30F6,0x51CE); (0x30F7,0x5261);
  (0x30F8,0x525A); (0x30F9,0x5252); (0x30FA,0x525E); (0x30FB,0x525F); (0x30FC,0x5255); (0x30FD,0x5262); (0x30FE,0x52CD); (0x30FF,0x530E);
  (0x3100,0x539E); (0x3101,0x5526); (0x3102,0x54E2); (0x3103,0x5517); (0x3104,0x5512); (0x3105,0x54E7); (0x3106,0x54F3); (0x3107,0x54E4);
  (0x3108,0x551A); (0x3109,0x54FF); (0x310A,0x5504); (0x310B,0x5508); (0x310C,0x54EB); (0x310D,0x5511); (0x310E,0x5505); (0x310F,0x54F1);
  (0x3110,0x550A); (0x3111,0x54FB); (0x3112,0x54F7); (0x3113,0x54F8); (0x3114,0x54E0); (0x3115,0x550E); (0x3116,0x5503); (0x3117,0x550B);
  (0x3118,0x5701); (0x3119,0x5702); (0x311A,0x57CC); (0x311B,0x5832); (0x311C,0x57D5); (0x311D,0x57D2); (0x311E,0x57BA); (0x311F,0x57C6);
  (0x3120,0x57BD); (0x3121,0x57BC); (0x3122,0x57B8); (0x3123,0x57B6); (0x3124,0x57BF); (0x3125,0x57C7); (0x3126,0x57D0); (0x3127,0x57B9);
  (0x3128,0x57C1); (0x3129,0x590E); (0x312A,0x594A); (0x312B,0x5A19); (0x312C,0x5A16); (0x312D,0x5A2D); (0x312E,0x5A2E); (0x312F,0x5A15);
  (0x3130,0x5A0F); (0x3131,0x5A17); (0x3132,0x5A0A); (0x3133,0x5A1E); (0x3134,0x5A33); (0x3135,0x5B6C); (0x3136,0x5BA7); (0x3137,0x5BAD);
  (0x3138,0x5BAC); (0x3139,0x5C03); (0x313A,0x5C56); (0x313B,0x5C54); (0x313C,0x5CEC); (0x313D,0x5CFF); (0x313E,0x5CEE); (0x313F,0x5CF1);
  (0x3140,0x5CF7); (0x3141,0x5D00); (0x3142,0x5CF9); (0x3143,0x5E29); (0x3144,0x5E28); (0x3145,0x5EA8); (0x3146,0x5EAE); (0x3147,0x5EAA);
  (0x3148,0x5EAC); (0x3149,0x5F33); (0x314A,0x5F30); (0x314B,0x5F67); (0x314C,0x605D); (0x314D,0x605A); (0x314E,0x6067); (0x314F,0x6041);
  (0x3150,0x60A2); (0x3151,0x6088); (0x3152,0x6080); (0x3153,0x6092); (0x3154,0x6081); (0x3155,0x609D); (0x3156,0x6083); (0x3157,0x6095);
  (0x3158,0x609B); (0x3159,0x6097); (0x315A,0x6087); (0x315B,0x609C); (0x315C,0x608E); (0x315D,0x6219); (0x315E,0x6246); (0x315F,0x62F2);
  (0x3160,0x6310); (0x3161,0x6356); (0x3162,0x632C); (0x3163,0x6344); (0x3164,0x6345); (0x3165,0x6336); (0x3166,0x6343); (0x3167,0x63E4);
  (0x3168,0x6339); (0x3169,0x634B); (0x316A,0x634A); (0x316B,0x633C); (0x316C,0x6329); (0x316D,0x6341); (0x316E,0x6334); (0x316F,0x6358);
  (0x3170,0x6354); (0x3171,0x6359); (0x3172,0x632D); (0x3173,0x6347); (0x3174,0x6333); (0x3175,0x635A); (0x3176,0x6351); (0x3177,0x6338);
  (0x3178,0x6357); (0x3179,0x6340); (0x317A,0x6348); (0x317B,0x654A); (0x317C,0x6546); (0x317D,0x65C6); (0x317E,0x65C3); (0x317F,0x65C4);
  (0x3180,0x65C2); (0x3181,0x664A); (0x3182,0x665F); (0x3183,0x6647); (0x3184,0x6651); (0x3185,0x6712); (0x3186,0x6713); (0x3187,0x681F);
  (0x3188,0x681A); (0x3189,0x6849); (0x318A,0x6832); (0x318B,0x6833); (0x318C,0x683B); (0x318D,0x684B); (0x318E,0x684F); (0x318F,0x6816);
  (0x3190,0x6831); (0x3191,0x681C); (0x3192,0x6835); (0x3193,0x682B); (0x3194,0x682D); (0x3195,0x682F); (0x3196,0x684E); (0x3197,0x6844);
  (0x3198,0x6834); (0x3199,0x681D); (0x319A,0x6812); (0x319B,0x6814); (0x319C,0x6826); (0x319D,0x6828); (0x319E,0x682E); (0x319F,0x684D);
  (0x31A0,0x683A); (0x31A1,0x6825); (0x31A2,0x6820); (0x31A3,0x6B2C); (0x31A4,0x6B2F); (0x31A5,0x6B2D); (0x31A6,0x6B31); (0x31A7,0x6B34)
].
(* encoding_tables/whatwg/index-big5.txt (pointer, code point), entries 11520..11775 *)
Definition big5_index_45 : list (N * N) := [
  (0x31A8,0x6B6D); (0x31A9,0x8082); (0x31AA,0x6B88); (0x31AB,0x6BE6); (0x31AC,0x6BE4); (0x31AD,0x6BE8); (0x31AE,0x6BE3); (0x31AF,0x6BE2);
  (0x31B0,0x6BE7); (0x31B1,0x6C25); (0x31B2,0x6D7A); (0x31B3,0x6D63); (0x31B4,0x6D64); (0x31B5,0x6D76); (0x31B6,0x6D0D); (0x31B7,0x6D61);
  (0x31B8,0x6D92); (0x31B9,0x6D58); (0x31BA,0x6D62); (0x31BB,0x6D6D); (0x31BC,0x6D6F); (0x31BD,0x6D91); (0x31BE,0x6D8D); (0x31BF,0x6DEF);
  (0x31C0,0x6D7F); (0x31C1,0x6D86); (0x31C2,0x6D5E); (0x31C3,0x6D67); (0x31C4,0x6D60); (0x31C5,0x6D97); (0x31C6,0x6D70); (0x31C7,0x6D7C);
  (0x31C8,0x6D5F); (0x31C9,0x6D82); (0x31CA,0x6D98); (0x31CB,0x6D2F); (0x31CC,0x6D68); (0x31CD,0x6D8B); (0x31CE,0x6D7E); (0x31CF,0x6D80);
  (0x31D0,0x6D84); (0x31D1,0x6D16); (0x31D2,0x6D83); (0x31D3,0x6D7B); (0x31D4,0x6D7D); (0x31D5,0x6D75); (0x31D6,0x6D90); (0x31D7,0x70DC);
  (0x31D8,0x70D3); (0x31D9,0x70D1); (0x31DA,0x70DD); (0x31DB,0x70CB); (0x31DC,0x7F39); (0x31DD,0x70E2); (0x31DE,0x70D7); (0x31DF,0x70D2);
  (0x31E0,0x70DE); (0x31E1,0x70E0); (0x31E2,0x70D4); (0x31E3,0x70CD); (0x31E4,0x70C5); (0x31E5,0x70C6); (0x31E6,0x70C7); (0x31E7,0x70DA);
  (0x31E8,0x70CE); (0x31E9,0x70E1); (0x31EA,0x7242); (0x31EB,0x7278); (0x31EC,0x7277); (0x31ED,0x7276); (0x31EE,0x7300); (0x31EF,0x72FA);
  (0x31F0,0x72F4); (0x31F1,0x72FE); (0x31F2,0x72F6); (0x31F3,0x72F3); (0x31F4,0x72FB); (0x31F5,0x7301); (0x31F6,0x73D3); (0x31F7,0x73D9);
  (0x31F8,0x73E5); (0x31F9,0x73D6); (0x31FA,0x73BC); (0x31FB,0x73E7); (0x31FC,0x73E3); (0x31FD,0x73E9); (0x31FE,0x73DC); (0x31FF,0x73D2);
  (0x3200,0x73DB); (0x3201,0x73D4); (0x3202,0x73DD); (0x3203,0x73DA); (0x3204,0x73D7); (0x3205,0x73D8); (0x3206,0x73E8); (0x3207,0x74DE);
  (0x3208,0x74DF); (0x3209,0x74F4); (0x320A,0x74F5); (0x320B,0x7521); (0x320C,0x755B); (0x320D,0x755F); (0x320E,0x75B0); (0x320F,0x75C1);
  (0x3210,0x75BB); (0x3211,0x75C4); (0x3212,0x75C0); (0x3213,0x75BF); (0x3214,0x75B6); (0x3215,0x75BA); (0x3216,0x768A); (0x3217,0x76C9);
  (0x3218,0x771D); (0x3219,0x771B); (0x321A,0x7710); (0x321B,0x7713); (0x321C,0x7712); (0x321D,0x7723); (0x321E,0x7711); (0x321F,0x7715);
  (0x3220,0x7719); (0x3221,0x771A); (0x3222,0x7722); (0x3223,0x7727); (0x3224,0x7823); (0x3225,0x782C); (0x3226,0x7822); (0x3227,0x7835);
  (0x3228,0x782F); (0x3229,0x7828); (0x322A,0x782E); (0x322B,0x782B); (0x322C,0x7821); (0x322D,0x7829); (0x322E,0x7833); (0x322F,0x782A);
  (0x3230,0x7831); (0x3231,0x7954); (0x3232,0x795B); (0x3233,0x794F); (0x3234,0x795C); (0x3235,0x7953); (0x3236,0x7952); (0x3237,0x7951);
  (0x3238,0x79EB); (0x3239,0x79EC); (0x323A,0x79E0); (0x323B,0x79EE); (0x323C,0x79ED); (0x323D,0x79EA); (0x323E,0x79DC); (0x323F,0x79DE);
  (0x3240,0x79DD); (0x3241,0x7A86); (0x3242,0x7A89); (0x3243,0x7A85); (0x3244,0x7A8B); (0x3245,0x7A8C); (0x3246,0x7A8A); (0x3247,0x7A87);
  (0x3248,0x7AD8); (0x3249,0x7B10); (0x324A,0x7B04); (0x324B,0x7B13); (0x324C,0x7B05); (0x324D,0x7B0F); (0x324E,0x7B08); (0x324F,0x7B0A);
  (0x3250,0x7B0E); (0x3251,0x7B09); (0x3252,0x7B12); (0x3253,0x7C84); (0x3254,0x7C91); (0x3255,0x7C8A); (0x3256,0x7C8C); (0x3257,0x7C88);
  (0x3258,0x7C8D); (0x3259,0x7C85); (0x325A,0x7D1E); (0x325B,0x7D1D); (0x325C,0x7D11); (0x325D,0x7D0E); (0x325E,0x7D18); (0x325F,0x7D16);
  (0x3260,0x7D13); (0x3261,0x7D1F); (0x3262,0x7D12); (0x3263,0x7D0F); (0x3264,0x7D0C); (0x3265,0x7F5C); (0x3266,0x7F61); (0x3267,0x7F5E);
  (0x3268,0x7F60); (0x3269,0x7F5D); (0x326A,0x7F5B); (0x326B,0x7F96); (0x326C,0x7F92); (0x326D,0x7FC3); (0x326E,0x7FC2); (0x326F,0x7FC0);
  (0x3270,0x8016); (0x3271,0x803E); (0x3272,0x8039); (0x3273,0x80FA); (0x3274,0x80F2); (0x3275,0x80F9); (0x3276,0x80F5); (0x3277,0x8101);
  (0x3278,0x80FB); (0x3279,0x8100); (0x327A,0x8201); (0x327B,0x822F); (0x327C,0x8225); (0x327D,0x8333); (0x327E,0x832D); (0x327F,0x8344);
  (0x3280,0x8319); (0x3281,0x8351); (0x3282,0x8325); (0x3283,0x8356); (0x3284,0x833F); (0x3285,0x8341); (0x3286,0x8326); (0x3287,0x831C);
  (0x3288,0x8322); (0x3289,0x8342); (0x328A,0x834E); (0x328B,0x831B); (0x328C,0x832A); (0x328D,0x8308); (0x328E,0x833C); (0x328F,0x834D);
  (0x3290,0x8316); (0x3291,0x8324); (0x3292,0x8320); (0x3293,0x8337); (0x3294,0x832F); (0x3295,0x8329); (0x3296,0x8347); (0x3297,0x8345);
  (0x3298,0x834C); (0x3299,0x8353); (0x329A,0x831E); (0x329B,0x832C); (0x329C,0x834B); (0x329D,0x8327); (0x329E,0x8348); (0x329F,0x8653);
  (0x32A0,0x8652); (0x32A1,0x86A2); (0x32A2,0x86A8); (0x32A3,0x8696); (0x32A4,0x868D); (0x32A5,0x8691); (0x32A6,0x869E); (0x32A7,0x8687)
].
(* encoding_tables/whatwg/index-big5.txt (pointer, code point), entries 11776..12031 *)
Definition big5_index_46 : list (N * N) := [
  (0x32A8,0x8697); (0x32A9,0x8686); (0x32AA,0x868B); (0x32AB,0x869A); (0x32AC,0x8685); (0x32AD,0x86A5); (0x32AE,0x8699); (0x32AF,0x86A1);
  (0x32B0,0x86A7); (0x32B1,0x8695); (0x32B2,0x8698); (0x32B3,0x868E); (0x32B4,0x869D); (0x32B5,0x8690); (0x32B6,0x8694); (0x32B7,0x8843);
  (0x32B8,0x8844); (0x32B9,0x886D); (0x32BA,0x8875); (0x32BB,0x8876); (0x32BC,0x8872); (0x32BD,0x8880); (0x32BE,0x8871); (0x32BF,0x887F);
  (0x32C0,0x886F); (0x32C1,0x8883); (0x32C2,0x887E); (0x32C3,0x8874); (0x32C4,0x887C); (0x32C5,0x8A12); (0x32C6,0x8C47); (0x32C7,0x8C57);
  (0x32C8,0x8C7B); (0x32C9,0x8CA4); (0x32CA,0x8CA3); (0x32CB,0x8D76); (0x32CC,0x8D78); (0x32CD,0x8DB5); (0x32CE,0x8DB7); (0x32CF,0x8DB6);
  (0x32D0,0x8ED1); (0x32D1,0x8ED3); (0x32D2,0x8FFE); (0x32D3,0x8FF5); (0x32D4,0x9002); (0x32D5,0x8FFF); (0x32D6,0x8FFB); (0x32D7,0x9004);
  (0x32D8,0x8FFC); (0x32D9,0x8FF6); (0x32DA,0x90D6); (0x32DB,0x90E0); (0x32DC,0x90D9); (0x32DD,0x90DA); (0x32DE,0x90E3); (0x32DF,0x90DF);
  (0x32E0,0x90E5); (0x32E1,0x90D8); (0x32E2,0x90DB); (0x32E3,0x90D7); (0x32E4,0x90DC); (0x32E5,0x90E4); (0x32E6,0x9150); (0x32E7,0x914E);
  (0x32E8,0x914F); (0x32E9,0x91D5); (0x32EA,0x91E2); (0x32EB,0x91DA); (0x32EC,0x965C); (0x32ED,0x965F); (0x32EE,0x96BC); (0x32EF,0x98E3);
  (0x32F0,0x9ADF); (0x32F1,0x9B2F); (0x32F2,0x4E7F); (0x32F3,0x5070); (0x32F4,0x506A); (0x32F5,0x5061); (0x32F6,0x505E); (0x32F7,0x5060);
  (0x32F8,0x5053); (0x32F9,0x504B); (0x32FA,0x505D); (0x32FB,0x5072); (0x32FC,0x5048); (0x32FD,0x504D); (0x32FE,0x5041); (0x32FF,0x505B);
  (0x3300,0x504A); (0x3301,0x5062); (0x3302,0x5015); (0x3303,0x5045); (0x3304,0x505F); (0x3305,0x5069); (0x3306,0x506B); (0x3307,0x5063);
  (0x3308,0x5064); (0x3309,0x5046); (0x330A,0x5040); (0x330B,0x506E); (0x330C,0x5073); (0x330D,0x5057); (0x330E,0x5051); (0x330F,0x51D0);
  (0x3310,0x526B); (0x3311,0x526D); (0x3312,0x526C); (0x3313,0x526E); (0x3314,0x52D6); (0x3315,0x52D3); (0x3316,0x532D); (0x3317,0x539C);
  (0x3318,0x5575); (0x3319,0x5576); (0x331A,0x553C); (0x331B,0x554D); (0x331C,0x5550); (0x331D,0x5534); (0x331E,0x552A); (0x331F,0x5551);
  (0x3320,0x5562); (0x3321,0x5536); (0x3322,0x5535); (0x3323,0x5530); (0x3324,0x5552); (0x3325,0x5545); (0x3326,0x550C); (0x3327,0x5532);
  (0x3328,0x5565); (0x3329,0x554E); (0x332A,0x5539); (0x332B,0x5548); (0x332C,0x552D); (0x332D,0x553B); (0x332E,0x5540); (0x332F,0x554B);
  (0x3330,0x570A); (0x3331,0x5707); (0x3332,0x57FB); (0x3333,0x5814); (0x3334,0x57E2); (0x3335,0x57F6); (0x3336,0x57DC); (0x3337,0x57F4);
  (0x3338,0x5800); (0x3339,0x57ED); (0x333A,0x57FD); (0x333B,0x5808); (0x333C,0x57F8); (0x333D,0x580B); (0x333E,0x57F3); (0x333F,0x57CF);
  (0x3340,0x5807); (0x3341,0x57EE); (0x3342,0x57E3); (0x3343,0x57F2); (0x3344,0x57E5); (0x3345,0x57EC); (0x3346,0x57E1); (0x3347,0x580E);
  (0x3348,0x57FC); (0x3349,0x5810); (0x334A,0x57E7); (0x334B,0x5801); (0x334C,0x580C); (0x334D,0x57F1); (0x334E,0x57E9); (0x334F,0x57F0);
  (0x3350,0x580D); (0x3351,0x5804); (0x3352,0x595C); (0x3353,0x5A60); (0x3354,0x5A58); (0x3355,0x5A55); (0x3356,0x5A67); (0x3357,0x5A5E);
  (0x3358,0x5A38); (0x3359,0x5A35); (0x335A,0x5A6D); (0x335B,0x5A50); (0x335C,0x5A5F); (0x335D,0x5A65); (0x335E,0x5A6C); (0x335F,0x5A53);
  (0x3360,0x5A64); (0x3361,0x5A57); (0x3362,0x5A43); (0x3363,0x5A5D); (0x3364,0x5A52); (0x3365,0x5A44); (0x3366,0x5A5B); (0x3367,0x5A48);
  (0x3368,0x5A8E); (0x3369,0x5A3E); (0x336A,0x5A4D); (0x336B,0x5A39); (0x336C,0x5A4C); (0x336D,0x5A70); (0x336E,0x5A69); (0x336F,0x5A47);
  (0x3370,0x5A51); (0x3371,0x5A56); (0x3372,0x5A42); (0x3373,0x5A5C); (0x3374,0x5B72); (0x3375,0x5B6E); (0x3376,0x5BC1); (0x3377,0x5BC0);
  (0x3378,0x5C59); (0x3379,0x5D1E); (0x337A,0x5D0B); (0x337B,0x5D1D); (0x337C,0x5D1A); (0x337D,0x5D20); (0x337E,0x5D0C); (0x337F,0x5D28);
  (0x3380,0x5D0D); (0x3381,0x5D26); (0x3382,0x5D25); (0x3383,0x5D0F); (0x3384,0x5D30); (0x3385,0x5D12); (0x3386,0x5D23); (0x3387,0x5D1F);
  (0x3388,0x5D2E); (0x3389,0x5E3E); (0x338A,0x5E34); (0x338B,0x5EB1); (0x338C,0x5EB4); (0x338D,0x5EB9); (0x338E,0x5EB2); (0x338F,0x5EB3);
  (0x3390,0x5F36); (0x3391,0x5F38); (0x3392,0x5F9B); (0x3393,0x5F96); (0x3394,0x5F9F); (0x3395,0x608A); (0x3396,0x6090); (0x3397,0x6086);
  (0x3398,0x60BE); (0x3399,0x60B0); (0x339A,0x60BA); (0x339B,0x60D3); (0x339C,0x60D4); (0x339D,0x60CF); (0x339E,0x60E4); (0x339F,0x60D9);
  (0x33A0,0x60DD); (0x33A1,0x60C8); (0x33A2,0x60B1); (0x33A3,0x60DB); (0x33A4,0x60B7); (0x33A5,0x60CA); (0x33A6,0x60BF); (0x33A7,0x60C3)
].
(* encoding_tables/whatwg/index-big5.txt (pointer, code point), entries 12032..12287 *)
Definition big5_index_47 : list (N * N) := [
  (0x33A8,0x60CD); (0x33A9,0x60C0); (0x33AA,0x6332); (0x33AB,0x6365); (0x33AC,0x638A); (0x33AD,0x6382); (0x33AE,0x637D); (0x33AF,0x63BD);
  (0x33B0,0x639E); (0x33B1,0x63AD); (0x33B2,0x639D); (0x33B3,0x6397); (0x33B4,0x63AB); (0x33B5,0x638E); (0x33B6,0x636F); (0x33B7,0x6387);
  (0x33B8,0x6390); (0x33B9,0x636E); (0x33BA,0x63AF); (0x33BB,0x6375); (0x33BC,0x639C); (0x33BD,0x636D); (0x33BE,0x63AE); (0x33BF,0x637C);
  (0x33C0,0x63A4); (0x33C1,0x633B); (0x33C2,0x639F); (0x33C3,0x6378); (0x33C4,0x6385); (0x33C5,0x6381); (0x33C6,0x6391); (0x33C7,0x638D);
  (0x33C8,0x6370); (0x33C9,0x6553); (0x33CA,0x65CD); (0x33CB,0x6665); (0x33CC,0x6661); (0x33CD,0x665B); (0x33CE,0x6659); (0x33CF,0x665C);
  (0x33D0,0x6662); (0x33D1,0x6718); (0x33D2,0x6879); (0x33D3,0x6887); (0x33D4,0x6890); (0x33D5,0x689C); (0x33D6,0x686D); (0x33D7,0x686E);
  (0x33D8,0x68AE); (0x33D9,0x68AB); (0x33DA,0x6956); (0x33DB,0x686F); (0x33DC,0x68A3); (0x33DD,0x68AC); (0x33DE,0x68A9); (0x33DF,0x6875);
  (0x33E0,0x6874); (0x33E1,0x68B2); (0x33E2,0x688F); (0x33E3,0x6877); (0x33E4,0x6892); (0x33E5,0x687C); (0x33E6,0x686B); (0x33E7,0x6872);
  (0x33E8,0x68AA); (0x33E9,0x6880); (0x33EA,0x6871); (0x33EB,0x687E); (0x33EC,0x689B); (0x33ED,0x6896); (0x33EE,0x688B); (0x33EF,0x68A0);
  (0x33F0,0x6889); (0x33F1,0x68A4); (0x33F2,0x6878); (0x33F3,0x687B); (0x33F4,0x6891); (0x33F5,0x688C); (0x33F6,0x688A); (0x33F7,0x687D);
  (0x33F8,0x6B36); (0x33F9,0x6B33); (0x33FA,0x6B37); (0x33FB,0x6B38); (0x33FC,0x6B91); (0x33FD,0x6B8F); (0x33FE,0x6B8D); (0x33FF,0x6B8E);
  (0x3400,0x6B8C); (0x3401,0x6C2A); (0x3402,0x6DC0); (0x3403,0x6DAB); (0x3404,0x6DB4); (0x3405,0x6DB3); (0x3406,0x6E74); (0x3407,0x6DAC);
  (0x3408,0x6DE9); (0x3409,0x6DE2); (0x340A,0x6DB7); (0x340B,0x6DF6); (0x340C,0x6DD4); (0x340D,0x6E00); (0x340E,0x6DC8); (0x340F,0x6DE0);
  (0x3410,0x6DDF); (0x3411,0x6DD6); (0x3412,0x6DBE); (0x3413,0x6DE5); (0x3414,0x6DDC); (0x3415,0x6DDD); (0x3416,0x6DDB); (0x3417,0x6DF4);
  (0x3418,0x6DCA); (0x3419,0x6DBD); (0x341A,0x6DED); (0x341B,0x6DF0); (0x341C,0x6DBA); (0x341D,0x6DD5); (0x341E,0x6DC2); (0x341F,0x6DCF);
  (0x3420,0x6DC9); (0x3421,0x6DD0); (0x3422,0x6DF2); (0x3423,0x6DD3); (0x3424,0x6DFD); (0x3425,0x6DD7); (0x3426,0x6DCD); (0x3427,0x6DE3);
  (0x3428,0x6DBB); (0x3429,0x70FA); (0x342A,0x710D); (0x342B,0x70F7); (0x342C,0x7117); (0x342D,0x70F4); (0x342E,0x710C); (0x342F,0x70F0);
  (0x3430,0x7104); (0x3431,0x70F3); (0x3432,0x7110); (0x3433,0x70FC); (0x3434,0x70FF); (0x3435,0x7106); (0x3436,0x7113); (0x3437,0x7100);
  (0x3438,0x70F8); (0x3439,0x70F6); (0x343A,0x710B); (0x343B,0x7102); (0x343C,0x710E); (0x343D,0x727E); (0x343E,0x727B); (0x343F,0x727C);
  (0x3440,0x727F); (0x3441,0x731D); (0x3442,0x7317); (0x3443,0x7307); (0x3444,0x7311); (0x3445,0x7318); (0x3446,0x730A); (0x3447,0x7308);
  (0x3448,0x72FF); (0x3449,0x730F); (0x344A,0x731E); (0x344B,0x7388); (0x344C,0x73F6); (0x344D,0x73F8); (0x344E,0x73F5); (0x344F,0x7404);
  (0x3450,0x7401); (0x3451,0x73FD); (0x3452,0x7407); (0x3453,0x7400); (0x3454,0x73FA); (0x3455,0x73FC); (0x3456,0x73FF); (0x3457,0x740C);
  (0x3458,0x740B); (0x3459,0x73F4); (0x345A,0x7408); (0x345B,0x7564); (0x345C,0x7563); (0x345D,0x75CE); (0x345E,0x75D2); (0x345F,0x75CF);
  (0x3460,0x75CB); (0x3461,0x75CC); (0x3462,0x75D1); (0x3463,0x75D0); (0x3464,0x768F); (0x3465,0x7689); (0x3466,0x76D3); (0x3467,0x7739);
  (0x3468,0x772F); (0x3469,0x772D); (0x346A,0x7731); (0x346B,0x7732); (0x346C,0x7734); (0x346D,0x7733); (0x346E,0x773D); (0x346F,0x7725);
  (0x3470,0x773B); (0x3471,0x7735); (0x3472,0x7848); (0x3473,0x7852); (0x3474,0x7849); (0x3475,0x784D); (0x3476,0x784A); (0x3477,0x784C);
  (0x3478,0x7826); (0x3479,0x7845); (0x347A,0x7850); (0x347B,0x7964); (0x347C,0x7967); (0x347D,0x7969); (0x347E,0x796A); (0x347F,0x7963);
  (0x3480,0x796B); (0x3481,0x7961); (0x3482,0x79BB); (0x3483,0x79FA); (0x3484,0x79F8); (0x3485,0x79F6); (0x3486,0x79F7); (0x3487,0x7A8F);
  (0x3488,0x7A94); (0x3489,0x7A90); (0x348A,0x7B35); (0x348B,0x7B47); (0x348C,0x7B34); (0x348D,0x7B25); (0x348E,0x7B30); (0x348F,0x7B22);
  (0x3490,0x7B24); (0x3491,0x7B33); (0x3492,0x7B18); (0x3493,0x7B2A); (0x3494,0x7B1D); (0x3495,0x7B31); (0x3496,0x7B2B); (0x3497,0x7B2D);
  (0x3498,0x7B2F); (0x3499,0x7B32); (0x349A,0x7B38); (0x349B,0x7B1A); (0x349C,0x7B23); (0x349D,0x7C94); (0x349E,0x7C98); (0x349F,0x7C96);
  (0x34A0,0x7CA3); (0x34A1,0x7D35); (0x34A2,0x7D3D); (0x34A3,0x7D38); (0x34A4,0x7D36); (0x34A5,0x7D3A); (0x34A6,0x7D45); (0x34A7,0x7D2C)
].
(* encoding_tables/whatwg/index-big5.txt (pointer, code point), entries 12288..12543 *)
Definition big5_index_48 : list (N * N) := [
  (0x34A8,0x7D29); (0x34A9,0x7D41); (0x34AA,0x7D47); (0x34AB,0x7D3E); (0x34AC,0x7D3F); (0x34AD,0x7D4A); (0x34AE,0x7D3B); (0x34AF,0x7D28);
  (0x34B0,0x7F63); (0x34B1,0x7F95); (0x34B2,0x7F9C); (0x34B3,0x7F9D); (0x34B4,0x7F9B); (0x34B5,0x7FCA); (0x34B6,0x7FCB); (0x34B7,0x7FCD);
  (0x34B8,0x7FD0); (0x34B9,0x7FD1); (0x34BA,0x7FC7); (0x34BB,0x7FCF); (0x34BC,0x7FC9); (0x34BD,0x801F); (0x34BE,0x801E); (0x34BF,0x801B);
  (0x34C0,0x8047); (0x34C1,0x8043); (0x34C2,0x8048); (0x34C3,0x8118); (0x34C4,0x8125); (0x34C5,0x8119); (0x34C6,0x811B); (0x34C7,0x812D);
  (0x34C8,0x811F); (0x34C9,0x812C); (0x34CA,0x811E); (0x34CB,0x8121); (0x34CC,0x8115); (0x34CD,0x8127); (0x34CE,0x811D); (0x34CF,0x8122);
  (0x34D0,0x8211); (0x34D1,0x8238); (0x34D2,0x8233); (0x34D3,0x823A); (0x34D4,0x8234); (0x34D5,0x8232); (0x34D6,0x8274); (0x34D7,0x8390);
  (0x34D8,0x83A3); (0x34D9,0x83A8); (0x34DA,0x838D); (0x34DB,0x837A); (0x34DC,0x8373); (0x34DD,0x83A4); (0x34DE,0x8374); (0x34DF,0x838F);
  (0x34E0,0x8381); (0x34E1,0x8395); (0x34E2,0x8399); (0x34E3,0x8375); (0x34E4,0x8394); (0x34E5,0x83A9); (0x34E6,0x837D); (0x34E7,0x8383);
  (0x34E8,0x838C); (0x34E9,0x839D); (0x34EA,0x839B); (0x34EB,0x83AA); (0x34EC,0x838B); (0x34ED,0x837E); (0x34EE,0x83A5); (0x34EF,0x83AF);
  (0x34F0,0x8388); (0x34F1,0x8397); (0x34F2,0x83B0); (0x34F3,0x837F); (0x34F4,0x83A6); (0x34F5,0x8387); (0x34F6,0x83AE); (0x34F7,0x8376);
  (0x34F8,0x839A); (0x34F9,0x8659); (0x34FA,0x8656); (0x34FB,0x86BF); (0x34FC,0x86B7); (0x34FD,0x86C2); (0x34FE,0x86C1); (0x34FF,0x86C5);
  (0x3500,0x86BA); (0x3501,0x86B0); (0x3502,0x86C8); (0x3503,0x86B9); (0x3504,0x86B3); (0x3505,0x86B8); (0x3506,0x86CC); (0x3507,0x86B4);
  (0x3508,0x86BB); (0x3509,0x86BC); (0x350A,0x86C3); (0x350B,0x86BD); (0x350C,0x86BE); (0x350D,0x8852); (0x350E,0x8889); (0x350F,0x8895);
  (0x3510,0x88A8); (0x3511,0x88A2); (0x3512,0x88AA); (0x3513,0x889A); (0x3514,0x8891); (0x3515,0x88A1); (0x3516,0x889F); (0x3517,0x8898);
  (0x3518,0x88A7); (0x3519,0x8899); (0x351A,0x889B); (0x351B,0x8897); (0x351C,0x88A4); (0x351D,0x88AC); (0x351E,0x888C); (0x351F,0x8893);
  (0x3520,0x888E); (0x3521,0x8982); (0x3522,0x89D6); (0x3523,0x89D9); (0x3524,0x89D5); (0x3525,0x8A30); (0x3526,0x8A27); (0x3527,0x8A2C);
  (0x3528,0x8A1E); (0x3529,0x8C39); (0x352A,0x8C3B); (0x352B,0x8C5C); (0x352C,0x8C5D); (0x352D,0x8C7D); (0x352E,0x8CA5); (0x352F,0x8D7D);
  (0x3530,0x8D7B); (0x3531,0x8D79); (0x3532,0x8DBC); (0x3533,0x8DC2); (0x3534,0x8DB9); (0x3535,0x8DBF); (0x3536,0x8DC1); (0x3537,0x8ED8);
  (0x3538,0x8EDE); (0x3539,0x8EDD); (0x353A,0x8EDC); (0x353B,0x8ED7); (0x353C,0x8EE0); (0x353D,0x8EE1); (0x353E,0x9024); (0x353F,0x900B);
  (0x3540,0x9011); (0x3541,0x901C); (0x3542,0x900C); (0x3543,0x9021); (0x3544,0x90EF); (0x3545,0x90EA); (0x3546,0x90F0); (0x3547,0x90F4);
  (0x3548,0x90F2); (0x3549,0x90F3); (0x354A,0x90D4); (0x354B,0x90EB); (0x354C,0x90EC); (0x354D,0x90E9); (0x354E,0x9156); (0x354F,0x9158);
  (0x3550,0x915A); (0x3551,0x9153); (0x3552,0x9155); (0x3553,0x91EC); (0x3554,0x91F4); (0x3555,0x91F1); (0x3556,0x91F3); (0x3557,0x91F8);
  (0x3558,0x91E4); (0x3559,0x91F9); (0x355A,0x91EA); (0x355B,0x91EB); (0x355C,0x91F7); (0x355D,0x91E8); (0x355E,0x91EE); (0x355F,0x957A);
  (0x3560,0x9586); (0x3561,0x9588); (0x3562,0x967C); (0x3563,0x966D); (0x3564,0x966B); (0x3565,0x9671); (0x3566,0x966F); (0x3567,0x96BF);
  (0x3568,0x976A); (0x3569,0x9804); (0x356A,0x98E5); (0x356B,0x9997); (0x356C,0x509B); (0x356D,0x5095); (0x356E,0x5094); (0x356F,0x509E);
  (0x3570,0x508B); (0x3571,0x50A3); (0x3572,0x5083); (0x3573,0x508C); (0x3574,0x508E); (0x3575,0x509D); (0x3576,0x5068); (0x3577,0x509C);
  (0x3578,0x5092); (0x3579,0x5082); (0x357A,0x5087); (0x357B,0x515F); (0x357C,0x51D4); (0x357D,0x5312); (0x357E,0x5311); (0x357F,0x53A4);
  (0x3580,0x53A7); (0x3581,0x5591); (0x3582,0x55A8); (0x3583,0x55A5); (0x3584,0x55AD); (0x3585,0x5577); (0x3586,0x5645); (0x3587,0x55A2);
  (0x3588,0x5593); (0x3589,0x5588); (0x358A,0x558F); (0x358B,0x55B5); (0x358C,0x5581); (0x358D,0x55A3); (0x358E,0x5592); (0x358F,0x55A4);
  (0x3590,0x557D); (0x3591,0x558C); (0x3592,0x55A6); (0x3593,0x557F); (0x3594,0x5595); (0x3595,0x55A1); (0x3596,0x558E); (0x3597,0x570C);
  (0x3598,0x5829); (0x3599,0x5837); (0x359A,0x5819); (0x359B,0x581E); (0x359C,0x5827); (0x359D,0x5823); (0x359E,0x5828); (0x359F,0x57F5);
  (0x35A0,0x5848); (0x35A1,0x5825); (0x35A2,0x581C); (0x35A3,0x581B); (0x35A4,0x5833); (0x35A5,0x583F); (0x35A6,0x5836); (0x35A7,0x582E)
].
(* encoding_tables/whatwg/index-big5.txt (pointer, code point), entries 12544..12799 *)
Definition big5_index_49 : list (N * N) := [
  (0x35A8,0x5839); (0x35A9,0x5838); (0x35AA,0x582D); (0x35AB,0x582C); (0x35AC,0x583B); (0x35AD,0x5961); (0x35AE,0x5AAF); (0x35AF,0x5A94);
  (0x35B0,0x5A9F); (0x35B1,0x5A7A); (0x35B2,0x5AA2); (0x35B3,0x5A9E); (0x35B4,0x5A78); (0x35B5,0x5AA6); (0x35B6,0x5A7C); (0x35B7,0x5AA5);
  (0x35B8,0x5AAC); (0x35B9,0x5A95); (0x35BA,0x5AAE); (0x35BB,0x5A37); (0x35BC,0x5A84); (0x35BD,0x5A8A); (0x35BE,0x5A97); (0x35BF,0x5A83);
  (0x35C0,0x5A8B); (0x35C1,0x5AA9); (0x35C2,0x5A7B); (0x35C3,0x5A7D); (0x35C4,0x5A8C); (0x35C5,0x5A9C); (0x35C6,0x5A8F); (0x35C7,0x5A93);
  (0x35C8,0x5A9D); (0x35C9,0x5BEA); (0x35CA,0x5BCD); (0x35CB,0x5BCB); (0x35CC,0x5BD4); (0x35CD,0x5BD1); (0x35CE,0x5BCA); (0x35CF,0x5BCE);
  (0x35D0,0x5C0C); (0x35D1,0x5C30); (0x35D2,0x5D37); (0x35D3,0x5D43); (0x35D4,0x5D6B); (0x35D5,0x5D41); (0x35D6,0x5D4B); (0x35D7,0x5D3F);
  (0x35D8,0x5D35); (0x35D9,0x5D51); (0x35DA,0x5D4E); (0x35DB,0x5D55); (0x35DC,0x5D33); (0x35DD,0x5D3A); (0x35DE,0x5D52); (0x35DF,0x5D3D);
  (0x35E0,0x5D31); (0x35E1,0x5D59); (0x35E2,0x5D42); (0x35E3,0x5D39); (0x35E4,0x5D49); (0x35E5,0x5D38); (0x35E6,0x5D3C); (0x35E7,0x5D32);
  (0x35E8,0x5D36); (0x35E9,0x5D40); (0x35EA,0x5D45); (0x35EB,0x5E44); (0x35EC,0x5E41); (0x35ED,0x5F58); (0x35EE,0x5FA6); (0x35EF,0x5FA5);
  (0x35F0,0x5FAB); (0x35F1,0x60C9); (0x35F2,0x60B9); (0x35F3,0x60CC); (0x35F4,0x60E2); (0x35F5,0x60CE); (0x35F6,0x60C4); (0x35F7,0x6114);
  (0x35F8,0x60F2); (0x35F9,0x610A); (0x35FA,0x6116); (0x35FB,0x6105); (0x35FC,0x60F5); (0x35FD,0x6113); (0x35FE,0x60F8); (0x35FF,0x60FC);
  (0x3600,0x60FE); (0x3601,0x60C1); (0x3602,0x6103); (0x3603,0x6118); (0x3604,0x611D); (0x3605,0x6110); (0x3606,0x60FF); (0x3607,0x6104);
  (0x3608,0x610B); (0x3609,0x624A); (0x360A,0x6394); (0x360B,0x63B1); (0x360C,0x63B0); (0x360D,0x63CE); (0x360E,0x63E5); (0x360F,0x63E8);
  (0x3610,0x63EF); (0x3611,0x63C3); (0x3612,0x649D); (0x3613,0x63F3); (0x3614,0x63CA); (0x3615,0x63E0); (0x3616,0x63F6); (0x3617,0x63D5);
  (0x3618,0x63F2); (0x3619,0x63F5); (0x361A,0x6461); (0x361B,0x63DF); (0x361C,0x63BE); (0x361D,0x63DD); (0x361E,0x63DC); (0x361F,0x63C4);
  (0x3620,0x63D8); (0x3621,0x63D3); (0x3622,0x63C2); (0x3623,0x63C7); (0x3624,0x63CC); (0x3625,0x63CB); (0x3626,0x63C8); (0x3627,0x63F0);
  (0x3628,0x63D7); (0x3629,0x63D9); (0x362A,0x6532); (0x362B,0x6567); (0x362C,0x656A); (0x362D,0x6564); (0x362E,0x655C); (0x362F,0x6568);
  (0x3630,0x6565); (0x3631,0x658C); (0x3632,0x659D); (0x3633,0x659E); (0x3634,0x65AE); (0x3635,0x65D0); (0x3636,0x65D2); (0x3637,0x667C);
  (0x3638,0x666C); (0x3639,0x667B); (0x363A,0x6680); (0x363B,0x6671); (0x363C,0x6679); (0x363D,0x666A); (0x363E,0x6672); (0x363F,0x6701);
  (0x3640,0x690C); (0x3641,0x68D3); (0x3642,0x6904); (0x3643,0x68DC); (0x3644,0x692A); (0x3645,0x68EC); (0x3646,0x68EA); (0x3647,0x68F1);
  (0x3648,0x690F); (0x3649,0x68D6); (0x364A,0x68F7); (0x364B,0x68EB); (0x364C,0x68E4); (0x364D,0x68F6); (0x364E,0x6913); (0x364F,0x6910);
  (0x3650,0x68F3); (0x3651,0x68E1); (0x3652,0x6907); (0x3653,0x68CC); (0x3654,0x6908); (0x3655,0x6970); (0x3656,0x68B4); (0x3657,0x6911);
  (0x3658,0x68EF); (0x3659,0x68C6); (0x365A,0x6914); (0x365B,0x68F8); (0x365C,0x68D0); (0x365D,0x68FD); (0x365E,0x68FC); (0x365F,0x68E8);
  (0x3660,0x690B); (0x3661,0x690A); (0x3662,0x6917); (0x3663,0x68CE); (0x3664,0x68C8); (0x3665,0x68DD); (0x3666,0x68DE); (0x3667,0x68E6);
  (0x3668,0x68F4); (0x3669,0x68D1); (0x366A,0x6906); (0x366B,0x68D4); (0x366C,0x68E9); (0x366D,0x6915); (0x366E,0x6925); (0x366F,0x68C7);
  (0x3670,0x6B39); (0x3671,0x6B3B); (0x3672,0x6B3F); (0x3673,0x6B3C); (0x3674,0x6B94); (0x3675,0x6B97); (0x3676,0x6B99); (0x3677,0x6B95);
  (0x3678,0x6BBD); (0x3679,0x6BF0); (0x367A,0x6BF2); (0x367B,0x6BF3); (0x367C,0x6C30); (0x367D,0x6DFC); (0x367E,0x6E46); (0x367F,0x6E47);
  (0x3680,0x6E1F); (0x3681,0x6E49); (0x3682,0x6E88); (0x3683,0x6E3C); (0x3684,0x6E3D); (0x3685,0x6E45); (0x3686,0x6E62); (0x3687,0x6E2B);
  (0x3688,0x6E3F); (0x3689,0x6E41); (0x368A,0x6E5D); (0x368B,0x6E73); (0x368C,0x6E1C); (0x368D,0x6E33); (0x368E,0x6E4B); (0x368F,0x6E40);
  (0x3690,0x6E51); (0x3691,0x6E3B); (0x3692,0x6E03); (0x3693,0x6E2E); (0x3694,0x6E5E); (0x3695,0x6E68); (0x3696,0x6E5C); (0x3697,0x6E61);
  (0x3698,0x6E31); (0x3699,0x6E28); (0x369A,0x6E60); (0x369B,0x6E71); (0x369C,0x6E6B); (0x369D,0x6E39); (0x369E,0x6E22); (0x369F,0x6E30);
  (0x36A0,0x6E53); (0x36A1,0x6E65); (0x36A2,0x6E27); (0x36A3,0x6E78); (0x36A4,0x6E64); (0x36A5,0x6E77); (0x36A6,0x6E55); (0x36A7,0x6E79)
].
(* encoding_tables/whatwg/index-big5.txt (pointer, code point), entries 12800..13055 *)
Definition big5_index_50 : list (N * N) := [
  (0x36A8,0x6E52); (0x36A9,0x6E66); (0x36AA,0x6E35); (0x36AB,0x6E36); (0x36AC,0x6E5A); (0x36AD,0x7120); (0x36AE,0x711E); (0x36AF,0x712F);
  (0x36B0,0x70FB); (0x36B1,0x712E); (0x36B2,0x7131); (0x36B3,0x7123); (0x36B4,0x7125); (0x36B5,0x7122); (0x36B6,0x7132); (0x36B7,0x711F);
  (0x36B8,0x7128); (0x36B9,0x713A); (0x36BA,0x711B); (0x36BB,0x724B); (0x36BC,0x725A); (0x36BD,0x7288); (0x36BE,0x7289); (0x36BF,0x7286);
  (0x36C0,0x7285); (0x36C1,0x728B); (0x36C2,0x7312); (0x36C3,0x730B); (0x36C4,0x7330); (0x36C5,0x7322); (0x36C6,0x7331); (0x36C7,0x7333);
  (0x36C8,0x7327); (0x36C9,0x7332); (0x36CA,0x732D); (0x36CB,0x7326); (0x36CC,0x7323); (0x36CD,0x7335); (0x36CE,0x730C); (0x36CF,0x742E);
  (0x36D0,0x742C); (0x36D1,0x7430); (0x36D2,0x742B); (0x36D3,0x7416); (0x36D4,0x741A); (0x36D5,0x7421); (0x36D6,0x742D); (0x36D7,0x7431);
  (0x36D8,0x7424); (0x36D9,0x7423); (0x36DA,0x741D); (0x36DB,0x7429); (0x36DC,0x7420); (0x36DD,0x7432); (0x36DE,0x74FB); (0x36DF,0x752F);
  (0x36E0,0x756F); (0x36E1,0x756C); (0x36E2,0x75E7); (0x36E3,0x75DA); (0x36E4,0x75E1); (0x36E5,0x75E6); (0x36E6,0x75DD); (0x36E7,0x75DF);
  (0x36E8,0x75E4); (0x36E9,0x75D7); (0x36EA,0x7695); (0x36EB,0x7692); (0x36EC,0x76DA); (0x36ED,0x7746); (0x36EE,0x7747); (0x36EF,0x7744);
  (0x36F0,0x774D); (0x36F1,0x7745); (0x36F2,0x774A); (0x36F3,0x774E); (0x36F4,0x774B); (0x36F5,0x774C); (0x36F6,0x77DE); (0x36F7,0x77EC);
  (0x36F8,0x7860); (0x36F9,0x7864); (0x36FA,0x7865); (0x36FB,0x785C); (0x36FC,0x786D); (0x36FD,0x7871); (0x36FE,0x786A); (0x36FF,0x786E);
  (0x3700,0x7870); (0x3701,0x7869); (0x3702,0x7868); (0x3703,0x785E); (0x3704,0x7862); (0x3705,0x7974); (0x3706,0x7973); (0x3707,0x7972);
  (0x3708,0x7970); (0x3709,0x7A02); (0x370A,0x7A0A); (0x370B,0x7A03); (0x370C,0x7A0C); (0x370D,0x7A04); (0x370E,0x7A99); (0x370F,0x7AE6);
  (0x3710,0x7AE4); (0x3711,0x7B4A); (0x3712,0x7B3B); (0x3713,0x7B44); (0x3714,0x7B48); (0x3715,0x7B4C); (0x3716,0x7B4E); (0x3717,0x7B40);
  (0x3718,0x7B58); (0x3719,0x7B45); (0x371A,0x7CA2); (0x371B,0x7C9E); (0x371C,0x7CA8); (0x371D,0x7CA1); (0x371E,0x7D58); (0x371F,0x7D6F);
  (0x3720,0x7D63); (0x3721,0x7D53); (0x3722,0x7D56); (0x3723,0x7D67); (0x3724,0x7D6A); (0x3725,0x7D4F); (0x3726,0x7D6D); (0x3727,0x7D5C);
  (0x3728,0x7D6B); (0x3729,0x7D52); (0x372A,0x7D54); (0x372B,0x7D69); (0x372C,0x7D51); (0x372D,0x7D5F); (0x372E,0x7D4E); (0x372F,0x7F3E);
  (0x3730,0x7F3F); (0x3731,0x7F65); (0x3732,0x7F66); (0x3733,0x7FA2); (0x3734,0x7FA0); (0x3735,0x7FA1); (0x3736,0x7FD7); (0x3737,0x8051);
  (0x3738,0x804F); (0x3739,0x8050); (0x373A,0x80FE); (0x373B,0x80D4); (0x373C,0x8143); (0x373D,0x814A); (0x373E,0x8152); (0x373F,0x814F);
  (0x3740,0x8147); (0x3741,0x813D); (0x3742,0x814D); (0x3743,0x813A); (0x3744,0x81E6); (0x3745,0x81EE); (0x3746,0x81F7); (0x3747,0x81F8);
  (0x3748,0x81F9); (0x3749,0x8204); (0x374A,0x823C); (0x374B,0x823D); (0x374C,0x823F); (0x374D,0x8275); (0x374E,0x833B); (0x374F,0x83CF);
  (0x3750,0x83F9); (0x3751,0x8423); (0x3752,0x83C0); (0x3753,0x83E8); (0x3754,0x8412); (0x3755,0x83E7); (0x3756,0x83E4); (0x3757,0x83FC);
  (0x3758,0x83F6); (0x3759,0x8410); (0x375A,0x83C6); (0x375B,0x83C8); (0x375C,0x83EB); (0x375D,0x83E3); (0x375E,0x83BF); (0x375F,0x8401);
  (0x3760,0x83DD); (0x3761,0x83E5); (0x3762,0x83D8); (0x3763,0x83FF); (0x3764,0x83E1); (0x3765,0x83CB); (0x3766,0x83CE); (0x3767,0x83D6);
  (0x3768,0x83F5); (0x3769,0x83C9); (0x376A,0x8409); (0x376B,0x840F); (0x376C,0x83DE); (0x376D,0x8411); (0x376E,0x8406); (0x376F,0x83C2);
  (0x3770,0x83F3); (0x3771,0x83D5); (0x3772,0x83FA); (0x3773,0x83C7); (0x3774,0x83D1); (0x3775,0x83EA); (0x3776,0x8413); (0x3777,0x83C3);
  (0x3778,0x83EC); (0x3779,0x83EE); (0x377A,0x83C4); (0x377B,0x83FB); (0x377C,0x83D7); (0x377D,0x83E2); (0x377E,0x841B); (0x377F,0x83DB);
  (0x3780,0x83FE); (0x3781,0x86D8); (0x3782,0x86E2); (0x3783,0x86E6); (0x3784,0x86D3); (0x3785,0x86E3); (0x3786,0x86DA); (0x3787,0x86EA);
  (0x3788,0x86DD); (0x3789,0x86EB); (0x378A,0x86DC); (0x378B,0x86EC); (0x378C,0x86E9); (0x378D,0x86D7); (0x378E,0x86E8); (0x378F,0x86D1);
  (0x3790,0x8848); (0x3791,0x8856); (0x3792,0x8855); (0x3793,0x88BA); (0x3794,0x88D7); (0x3795,0x88B9); (0x3796,0x88B8); (0x3797,0x88C0);
  (0x3798,0x88BE); (0x3799,0x88B6); (0x379A,0x88BC); (0x379B,0x88B7); (0x379C,0x88BD); (0x379D,0x88B2); (0x379E,0x8901); (0x379F,0x88C9);
  (0x37A0,0x8995); (0x37A1,0x8998); (0x37A2,0x8997); (0x37A3,0x89DD); (0x37A4,0x89DA); (0x37A5,0x89DB); (0x37A6,0x8A4E); (0x37A7,0x8A4D)
].
(* encoding_tables/whatwg/index-big5.txt (pointer, code point), entries 13056..13311 *)
Definition big5_index_51 : list (N * N) := [
  (0x37A8,0x8A39); (0x37A9,0x8A59); (0x37AA,0x8A40); (0x37AB,0x8A57); (0x37AC,0x8A58); (0x37AD,0x8A44); (0x37AE,0x8A45); (0x37AF,0x8A52);
  (0x37B0,0x8A48); (0x37B1,0x8A51); (0x37B2,0x8A4A); (0x37B3,0x8A4C); (0x37B4,0x8A4F); (0x37B5,0x8C5F); (0x37B6,0x8C81); (0x37B7,0x8C80);
  (0x37B8,0x8CBA); (0x37B9,0x8CBE); (0x37BA,0x8CB0); (0x37BB,0x8CB9); (0x37BC,0x8CB5); (0x37BD,0x8D84); (0x37BE,0x8D80); (0x37BF,0x8D89);
  (0x37C0,0x8DD8); (0x37C1,0x8DD3); (0x37C2,0x8DCD); (0x37C3,0x8DC7); (0x37C4,0x8DD6); (0x37C5,0x8DDC); (0x37C6,0x8DCF); (0x37C7,0x8DD5);
  (0x37C8,0x8DD9); (0x37C9,0x8DC8); (0x37CA,0x8DD7); (0x37CB,0x8DC5); (0x37CC,0x8EEF); (0x37CD,0x8EF7); (0x37CE,0x8EFA); (0x37CF,0x8EF9);
  (0x37D0,0x8EE6); (0x37D1,0x8EEE); (0x37D2,0x8EE5); (0x37D3,0x8EF5); (0x37D4,0x8EE7); (0x37D5,0x8EE8); (0x37D6,0x8EF6); (0x37D7,0x8EEB);
  (0x37D8,0x8EF1); (0x37D9,0x8EEC); (0x37DA,0x8EF4); (0x37DB,0x8EE9); (0x37DC,0x902D); (0x37DD,0x9034); (0x37DE,0x902F); (0x37DF,0x9106);
  (0x37E0,0x912C); (0x37E1,0x9104); (0x37E2,0x90FF); (0x37E3,0x90FC); (0x37E4,0x9108); (0x37E5,0x90F9); (0x37E6,0x90FB); (0x37E7,0x9101);
  (0x37E8,0x9100); (0x37E9,0x9107); (0x37EA,0x9105); (0x37EB,0x9103); (0x37EC,0x9161); (0x37ED,0x9164); (0x37EE,0x915F); (0x37EF,0x9162);
  (0x37F0,0x9160); (0x37F1,0x9201); (0x37F2,0x920A); (0x37F3,0x9225); (0x37F4,0x9203); (0x37F5,0x921A); (0x37F6,0x9226); (0x37F7,0x920F);
  (0x37F8,0x920C); (0x37F9,0x9200); (0x37FA,0x9212); (0x37FB,0x91FF); (0x37FC,0x91FD); (0x37FD,0x9206); (0x37FE,0x9204); (0x37FF,0x9227);
  (0x3800,0x9202); (0x3801,0x921C); (0x3802,0x9224); (0x3803,0x9219); (0x3804,0x9217); (0x3805,0x9205); (0x3806,0x9216); (0x3807,0x957B);
  (0x3808,0x958D); (0x3809,0x958C); (0x380A,0x9590); (0x380B,0x9687); (0x380C,0x967E); (0x380D,0x9688); (0x380E,0x9689); (0x380F,0x9683);
  (0x3810,0x9680); (0x3811,0x96C2); (0x3812,0x96C8); (0x3813,0x96C3); (0x3814,0x96F1); (0x3815,0x96F0); (0x3816,0x976C); (0x3817,0x9770);
  (0x3818,0x976E); (0x3819,0x9807); (0x381A,0x98A9); (0x381B,0x98EB); (0x381C,0x9CE6); (0x381D,0x9EF9); (0x381E,0x4E83); (0x381F,0x4E84);
  (0x3820,0x4EB6); (0x3821,0x50BD); (0x3822,0x50BF); (0x3823,0x50C6); (0x3824,0x50AE); (0x3825,0x50C4); (0x3826,0x50CA); (0x3827,0x50B4);
  (0x3828,0x50C8); (0x3829,0x50C2); (0x382A,0x50B0); (0x382B,0x50C1); (0x382C,0x50BA); (0x382D,0x50B1); (0x382E,0x50CB); (0x382F,0x50C9);
  (0x3830,0x50B6); (0x3831,0x50B8); (0x3832,0x51D7); (0x3833,0x527A); (0x3834,0x5278); (0x3835,0x527B); (0x3836,0x527C); (0x3837,0x55C3);
  (0x3838,0x55DB); (0x3839,0x55CC); (0x383A,0x55D0); (0x383B,0x55CB); (0x383C,0x55CA); (0x383D,0x55DD); (0x383E,0x55C0); (0x383F,0x55D4);
  (0x3840,0x55C4); (0x3841,0x55E9); (0x3842,0x55BF); (0x3843,0x55D2); (0x3844,0x558D); (0x3845,0x55CF); (0x3846,0x55D5); (0x3847,0x55E2);
  (0x3848,0x55D6); (0x3849,0x55C8); (0x384A,0x55F2); (0x384B,0x55CD); (0x384C,0x55D9); (0x384D,0x55C2); (0x384E,0x5714); (0x384F,0x5853);
  (0x3850,0x5868); (0x3851,0x5864); (0x3852,0x584F); (0x3853,0x584D); (0x3854,0x5849); (0x3855,0x586F); (0x3856,0x5855); (0x3857,0x584E);
  (0x3858,0x585D); (0x3859,0x5859); (0x385A,0x5865); (0x385B,0x585B); (0x385C,0x583D); (0x385D,0x5863); (0x385E,0x5871); (0x385F,0x58FC);
  (0x3860,0x5AC7); (0x3861,0x5AC4); (0x3862,0x5ACB); (0x3863,0x5ABA); (0x3864,0x5AB8); (0x3865,0x5AB1); (0x3866,0x5AB5); (0x3867,0x5AB0);
  (0x3868,0x5ABF); (0x3869,0x5AC8); (0x386A,0x5ABB); (0x386B,0x5AC6); (0x386C,0x5AB7); (0x386D,0x5AC0); (0x386E,0x5ACA); (0x386F,0x5AB4);
  (0x3870,0x5AB6); (0x3871,0x5ACD); (0x3872,0x5AB9); (0x3873,0x5A90); (0x3874,0x5BD6); (0x3875,0x5BD8); (0x3876,0x5BD9); (0x3877,0x5C1F);
  (0x3878,0x5C33); (0x3879,0x5D71); (0x387A,0x5D63); (0x387B,0x5D4A); (0x387C,0x5D65); (0x387D,0x5D72); (0x387E,0x5D6C); (0x387F,0x5D5E);
  (0x3880,0x5D68); (0x3881,0x5D67); (0x3882,0x5D62); (0x3883,0x5DF0); (0x3884,0x5E4F); (0x3885,0x5E4E); (0x3886,0x5E4A); (0x3887,0x5E4D);
  (0x3888,0x5E4B); (0x3889,0x5EC5); (0x388A,0x5ECC); (0x388B,0x5EC6); (0x388C,0x5ECB); (0x388D,0x5EC7); (0x388E,0x5F40); (0x388F,0x5FAF);
  (0x3890,0x5FAD); (0x3891,0x60F7); (0x3892,0x6149); (0x3893,0x614A); (0x3894,0x612B); (0x3895,0x6145); (0x3896,0x6136); (0x3897,0x6132);
  (0x3898,0x612E); (0x3899,0x6146); (0x389A,0x612F); (0x389B,0x614F); (0x389C,0x6129); (0x389D,0x6140); (0x389E,0x6220); (0x389F,0x9168);
  (0x38A0,0x6223); (0x38A1,0x6225); (0x38A2,0x6224); (0x38A3,0x63C5); (0x38A4,0x63F1); (0x38A5,0x63EB); (0x38A6,0x6410); (0x38A7,0x6412)
].
(* encoding_tables/whatwg/index-big5.txt (pointer, code point), entries 13312..13567 *)
Definition big5_index_52 : list (N * N) := [
  (0x38A8,0x6409); (0x38A9,0x6420); (0x38AA,0x6424); (0x38AB,0x6433); (0x38AC,0x6443); (0x38AD,0x641F); (0x38AE,0x6415); (0x38AF,0x6418);
  (0x38B0,0x6439); (0x38B1,0x6437); (0x38B2,0x6422); (0x38B3,0x6423); (0x38B4,0x640C); (0x38B5,0x6426); (0x38B6,0x6430); (0x38B7,0x6428);
  (0x38B8,0x6441); (0x38B9,0x6435); (0x38BA,0x642F); (0x38BB,0x640A); (0x38BC,0x641A); (0x38BD,0x6440); (0x38BE,0x6425); (0x38BF,0x6427);
  (0x38C0,0x640B); (0x38C1,0x63E7); (0x38C2,0x641B); (0x38C3,0x642E); (0x38C4,0x6421); (0x38C5,0x640E); (0x38C6,0x656F); (0x38C7,0x6592);
  (0x38C8,0x65D3); (0x38C9,0x6686); (0x38CA,0x668C); (0x38CB,0x6695); (0x38CC,0x6690); (0x38CD,0x668B); (0x38CE,0x668A); (0x38CF,0x6699);
  (0x38D0,0x6694); (0x38D1,0x6678); (0x38D2,0x6720); (0x38D3,0x6966); (0x38D4,0x695F); (0x38D5,0x6938); (0x38D6,0x694E); (0x38D7,0x6962);
  (0x38D8,0x6971); (0x38D9,0x693F); (0x38DA,0x6945); (0x38DB,0x696A); (0x38DC,0x6939); (0x38DD,0x6942); (0x38DE,0x6957); (0x38DF,0x6959);
  (0x38E0,0x697A); (0x38E1,0x6948); (0x38E2,0x6949); (0x38E3,0x6935); (0x38E4,0x696C); (0x38E5,0x6933); (0x38E6,0x693D); (0x38E7,0x6965);
  (0x38E8,0x68F0); (0x38E9,0x6978); (0x38EA,0x6934); (0x38EB,0x6969); (0x38EC,0x6940); (0x38ED,0x696F); (0x38EE,0x6944); (0x38EF,0x6976);
  (0x38F0,0x6958); (0x38F1,0x6941); (0x38F2,0x6974); (0x38F3,0x694C); (0x38F4,0x693B); (0x38F5,0x694B); (0x38F6,0x6937); (0x38F7,0x695C);
  (0x38F8,0x694F); (0x38F9,0x6951); (0x38FA,0x6932); (0x38FB,0x6952); (0x38FC,0x692F); (0x38FD,0x697B); (0x38FE,0x693C); (0x38FF,0x6B46);
  (0x3900,0x6B45); (0x3901,0x6B43); (0x3902,0x6B42); (0x3903,0x6B48); (0x3904,0x6B41); (0x3905,0x6B9B); (0x3906,0xFA0D); (0x3907,0x6BFB);
  (0x3908,0x6BFC); (0x3909,0x6BF9); (0x390A,0x6BF7); (0x390B,0x6BF8); (0x390C,0x6E9B); (0x390D,0x6ED6); (0x390E,0x6EC8); (0x390F,0x6E8F);
  (0x3910,0x6EC0); (0x3911,0x6E9F); (0x3912,0x6E93); (0x3913,0x6E94); (0x3914,0x6EA0); (0x3915,0x6EB1); (0x3916,0x6EB9); (0x3917,0x6EC6);
  (0x3918,0x6ED2); (0x3919,0x6EBD); (0x391A,0x6EC1); (0x391B,0x6E9E); (0x391C,0x6EC9); (0x391D,0x6EB7); (0x391E,0x6EB0); (0x391F,0x6ECD);
  (0x3920,0x6EA6); (0x3921,0x6ECF); (0x3922,0x6EB2); (0x3923,0x6EBE); (0x3924,0x6EC3); (0x3925,0x6EDC); (0x3926,0x6ED8); (0x3927,0x6E99);
  (0x3928,0x6E92); (0x3929,0x6E8E); (0x392A,0x6E8D); (0x392B,0x6EA4); (0x392C,0x6EA1); (0x392D,0x6EBF); (0x392E,0x6EB3); (0x392F,0x6ED0);
  (0x3930,0x6ECA); (0x3931,0x6E97); (0x3932,0x6EAE); (0x3933,0x6EA3); (0x3934,0x7147); (0x3935,0x7154); (0x3936,0x7152); (0x3937,0x7163);
  (0x3938,0x7160); (0x3939,0x7141); (0x393A,0x715D); (0x393B,0x7162); (0x393C,0x7172); (0x393D,0x7178); (0x393E,0x716A); (0x393F,0x7161);
  (0x3940,0x7142); (0x3941,0x7158); (0x3942,0x7143); (0x3943,0x714B); (0x3944,0x7170); (0x3945,0x715F); (0x3946,0x7150); (0x3947,0x7153);
  (0x3948,0x7144); (0x3949,0x714D); (0x394A,0x715A); (0x394B,0x724F); (0x394C,0x728D); (0x394D,0x728C); (0x394E,0x7291); (0x394F,0x7290);
  (0x3950,0x728E); (0x3951,0x733C); (0x3952,0x7342); (0x3953,0x733B); (0x3954,0x733A); (0x3955,0x7340); (0x3956,0x734A); (0x3957,0x7349);
  (0x3958,0x7444); (0x3959,0x744A); (0x395A,0x744B); (0x395B,0x7452); (0x395C,0x7451); (0x395D,0x7457); (0x395E,0x7440); (0x395F,0x744F);
  (0x3960,0x7450); (0x3961,0x744E); (0x3962,0x7442); (0x3963,0x7446); (0x3964,0x744D); (0x3965,0x7454); (0x3966,0x74E1); (0x3967,0x74FF);
  (0x3968,0x74FE); (0x3969,0x74FD); (0x396A,0x751D); (0x396B,0x7579); (0x396C,0x7577); (0x396D,0x6983); (0x396E,0x75EF); (0x396F,0x760F);
  (0x3970,0x7603); (0x3971,0x75F7); (0x3972,0x75FE); (0x3973,0x75FC); (0x3974,0x75F9); (0x3975,0x75F8); (0x3976,0x7610); (0x3977,0x75FB);
  (0x3978,0x75F6); (0x3979,0x75ED); (0x397A,0x75F5); (0x397B,0x75FD); (0x397C,0x7699); (0x397D,0x76B5); (0x397E,0x76DD); (0x397F,0x7755);
  (0x3980,0x775F); (0x3981,0x7760); (0x3982,0x7752); (0x3983,0x7756); (0x3984,0x775A); (0x3985,0x7769); (0x3986,0x7767); (0x3987,0x7754);
  (0x3988,0x7759); (0x3989,0x776D); (0x398A,0x77E0); (0x398B,0x7887); (0x398C,0x789A); (0x398D,0x7894); (0x398E,0x788F); (0x398F,0x7884);
  (0x3990,0x7895); (0x3991,0x7885); (0x3992,0x7886); (0x3993,0x78A1); (0x3994,0x7883); (0x3995,0x7879); (0x3996,0x7899); (0x3997,0x7880);
  (0x3998,0x7896); (0x3999,0x787B); (0x399A,0x797C); (0x399B,0x7982); (0x399C,0x797D); (0x399D,0x7979); (0x399E,0x7A11); (0x399F,0x7A18);
  (0x39A0,0x7A19); (0x39A1,0x7A12); (0x39A2,0x7A17); (0x39A3,0x7A15); (0x39A4,0x7A22); (0x39A5,0x7A13); (0x39A6,0x7A1B); (0x39A7,0x7A10)
].
(* encoding_tables/whatwg/index-big5.txt (pointer, code point), entries 13568..13823 *)
Definition big5_index_53 : list (N * N) := [
  (0x39A8,0x7AA3); (0x39A9,0x7AA2); (0x39AA,0x7A9E); (0x39AB,0x7AEB); (0x39AC,0x7B66); (0x39AD,0x7B64); (0x39AE,0x7B6D); (0x39AF,0x7B74);
  (0x39B0,0x7B69); (0x39B1,0x7B72); (0x39B2,0x7B65); (0x39B3,0x7B73); (0x39B4,0x7B71); (0x39B5,0x7B70); (0x39B6,0x7B61); (0x39B7,0x7B78);
  (0x39B8,0x7B76); (0x39B9,0x7B63); (0x39BA,0x7CB2); (0x39BB,0x7CB4); (0x39BC,0x7CAF); (0x39BD,0x7D88); (0x39BE,0x7D86); (0x39BF,0x7D80);
  (0x39C0,0x7D8D); (0x39C1,0x7D7F); (0x39C2,0x7D85); (0x39C3,0x7D7A); (0x39C4,0x7D8E); (0x39C5,0x7D7B); (0x39C6,0x7D83); (0x39C7,0x7D7C);
  (0x39C8,0x7D8C); (0x39C9,0x7D94); (0x39CA,0x7D84); (0x39CB,0x7D7D); (0x39CC,0x7D92); (0x39CD,0x7F6D); (0x39CE,0x7F6B); (0x39CF,0x7F67);
  (0x39D0,0x7F68); (0x39D1,0x7F6C); (0x39D2,0x7FA6); (0x39D3,0x7FA5); (0x39D4,0x7FA7); (0x39D5,0x7FDB); (0x39D6,0x7FDC); (0x39D7,0x8021);
  (0x39D8,0x8164); (0x39D9,0x8160); (0x39DA,0x8177); (0x39DB,0x815C); (0x39DC,0x8169); (0x39DD,0x815B); (0x39DE,0x8162); (0x39DF,0x8172);
  (0x39E0,0x6721); (0x39E1,0x815E); (0x39E2,0x8176); (0x39E3,0x8167); (0x39E4,0x816F); (0x39E5,0x8144); (0x39E6,0x8161); (0x39E7,0x821D);
  (0x39E8,0x8249); (0x39E9,0x8244); (0x39EA,0x8240); (0x39EB,0x8242); (0x39EC,0x8245); (0x39ED,0x84F1); (0x39EE,0x843F); (0x39EF,0x8456);
  (0x39F0,0x8476); (0x39F1,0x8479); (0x39F2,0x848F); (0x39F3,0x848D); (0x39F4,0x8465); (0x39F5,0x8451); (0x39F6,0x8440); (0x39F7,0x8486);
  (0x39F8,0x8467); (0x39F9,0x8430); (0x39FA,0x844D); (0x39FB,0x847D); (0x39FC,0x845A); (0x39FD,0x8459); (0x39FE,0x8474); (0x39FF,0x8473);
  (0x3A00,0x845D); (0x3A01,0x8507); (0x3A02,0x845E); (0x3A03,0x8437); (0x3A04,0x843A); (0x3A05,0x8434); (0x3A06,0x847A); (0x3A07,0x8443);
  (0x3A08,0x8478); (0x3A09,0x8432); (0x3A0A,0x8445); (0x3A0B,0x8429); (0x3A0C,0x83D9); (0x3A0D,0x844B); (0x3A0E,0x842F); (0x3A0F,0x8442);
  (0x3A10,0x842D); (0x3A11,0x845F); (0x3A12,0x8470); (0x3A13,0x8439); (0x3A14,0x844E); (0x3A15,0x844C); (0x3A16,0x8452); (0x3A17,0x846F);
  (0x3A18,0x84C5); (0x3A19,0x848E); (0x3A1A,0x843B); (0x3A1B,0x8447); (0x3A1C,0x8436); (0x3A1D,0x8433); (0x3A1E,0x8468); (0x3A1F,0x847E);
  (0x3A20,0x8444); (0x3A21,0x842B); (0x3A22,0x8460); (0x3A23,0x8454); (0x3A24,0x846E); (0x3A25,0x8450); (0x3A26,0x870B); (0x3A27,0x8704);
  (0x3A28,0x86F7); (0x3A29,0x870C); (0x3A2A,0x86FA); (0x3A2B,0x86D6); (0x3A2C,0x86F5); (0x3A2D,0x874D); (0x3A2E,0x86F8); (0x3A2F,0x870E);
  (0x3A30,0x8709); (0x3A31,0x8701); (0x3A32,0x86F6); (0x3A33,0x870D); (0x3A34,0x8705); (0x3A35,0x88D6); (0x3A36,0x88CB); (0x3A37,0x88CD);
  (0x3A38,0x88CE); (0x3A39,0x88DE); (0x3A3A,0x88DB); (0x3A3B,0x88DA); (0x3A3C,0x88CC); (0x3A3D,0x88D0); (0x3A3E,0x8985); (0x3A3F,0x899B);
  (0x3A40,0x89DF); (0x3A41,0x89E5); (0x3A42,0x89E4); (0x3A43,0x89E1); (0x3A44,0x89E0); (0x3A45,0x89E2); (0x3A46,0x89DC); (0x3A47,0x89E6);
  (0x3A48,0x8A76); (0x3A49,0x8A86); (0x3A4A,0x8A7F); (0x3A4B,0x8A61); (0x3A4C,0x8A3F); (0x3A4D,0x8A77); (0x3A4E,0x8A82); (0x3A4F,0x8A84);
  (0x3A50,0x8A75); (0x3A51,0x8A83); (0x3A52,0x8A81); (0x3A53,0x8A74); (0x3A54,0x8A7A); (0x3A55,0x8C3C); (0x3A56,0x8C4B); (0x3A57,0x8C4A);
  (0x3A58,0x8C65); (0x3A59,0x8C64); (0x3A5A,0x8C66); (0x3A5B,0x8C86); (0x3A5C,0x8C84); (0x3A5D,0x8C85); (0x3A5E,0x8CCC); (0x3A5F,0x8D68);
  (0x3A60,0x8D69); (0x3A61,0x8D91); (0x3A62,0x8D8C); (0x3A63,0x8D8E); (0x3A64,0x8D8F); (0x3A65,0x8D8D); (0x3A66,0x8D93); (0x3A67,0x8D94);
  (0x3A68,0x8D90); (0x3A69,0x8D92); (0x3A6A,0x8DF0); (0x3A6B,0x8DE0); (0x3A6C,0x8DEC); (0x3A6D,0x8DF1); (0x3A6E,0x8DEE); (0x3A6F,0x8DD0);
  (0x3A70,0x8DE9); (0x3A71,0x8DE3); (0x3A72,0x8DE2); (0x3A73,0x8DE7); (0x3A74,0x8DF2); (0x3A75,0x8DEB); (0x3A76,0x8DF4); (0x3A77,0x8F06);
  (0x3A78,0x8EFF); (0x3A79,0x8F01); (0x3A7A,0x8F00); (0x3A7B,0x8F05); (0x3A7C,0x8F07); (0x3A7D,0x8F08); (0x3A7E,0x8F02); (0x3A7F,0x8F0B);
  (0x3A80,0x9052); (0x3A81,0x903F); (0x3A82,0x9044); (0x3A83,0x9049); (0x3A84,0x903D); (0x3A85,0x9110); (0x3A86,0x910D); (0x3A87,0x910F);
  (0x3A88,0x9111); (0x3A89,0x9116); (0x3A8A,0x9114); (0x3A8B,0x910B); (0x3A8C,0x910E); (0x3A8D,0x916E); (0x3A8E,0x916F); (0x3A8F,0x9248);
  (0x3A90,0x9252); (0x3A91,0x9230); (0x3A92,0x923A); (0x3A93,0x9266); (0x3A94,0x9233); (0x3A95,0x9265); (0x3A96,0x925E); (0x3A97,0x9283);
  (0x3A98,0x922E); (0x3A99,0x924A); (0x3A9A,0x9246); (0x3A9B,0x926D); (0x3A9C,0x926C); (0x3A9D,0x924F); (0x3A9E,0x9260); (0x3A9F,0x9267);
  (0x3AA0,0x926F); (0x3AA1,0x9236); (0x3AA2,0x9261); (0x3AA3,0x9270); (0x3AA4,0x9231); (0x3AA5,0x9254); (0x3AA6,0x9263); (0x3AA7,0x9250)
].
(* encoding_tables/whatwg/index-big5.txt (pointer, code point), entries 13824..14079 *)
Definition big5_index_54 : list (N * N) := [
  (0x3AA8,0x9272); (0x3AA9,0x924E); (0x3AAA,0x9253); (0x3AAB,0x924C); (0x3AAC,0x9256); (0x3AAD,0x9232); (0x3AAE,0x959F); (0x3AAF,0x959C);
  (0x3AB0,0x959E); (0x3AB1,0x959B); (0x3AB2,0x9692); (0x3AB3,0x9693); (0x3AB4,0x9691); (0x3AB5,0x9697); (0x3AB6,0x96CE); (0x3AB7,0x96FA);
  (0x3AB8,0x96FD); (0x3AB9,0x96F8); (0x3ABA,0x96F5); (0x3ABB,0x9773); (0x3ABC,0x9777); (0x3ABD,0x9778); (0x3ABE,0x9772); (0x3ABF,0x980F);
  (0x3AC0,0x980D); (0x3AC1,0x980E); (0x3AC2,0x98AC); (0x3AC3,0x98F6); (0x3AC4,0x98F9); (0x3AC5,0x99AF); (0x3AC6,0x99B2); (0x3AC7,0x99B0);
  (0x3AC8,0x99B5); (0x3AC9,0x9AAD); (0x3ACA,0x9AAB); (0x3ACB,0x9B5B); (0x3ACC,0x9CEA); (0x3ACD,0x9CED); (0x3ACE,0x9CE7); (0x3ACF,0x9E80);
  (0x3AD0,0x9EFD); (0x3AD1,0x50E6); (0x3AD2,0x50D4); (0x3AD3,0x50D7); (0x3AD4,0x50E8); (0x3AD5,0x50F3); (0x3AD6,0x50DB); (0x3AD7,0x50EA);
  (0x3AD8,0x50DD); (0x3AD9,0x50E4); (0x3ADA,0x50D3); (0x3ADB,0x50EC); (0x3ADC,0x50F0); (0x3ADD,0x50EF); (0x3ADE,0x50E3); (0x3ADF,0x50E0);
  (0x3AE0,0x51D8); (0x3AE1,0x5280); (0x3AE2,0x5281); (0x3AE3,0x52E9); (0x3AE4,0x52EB); (0x3AE5,0x5330); (0x3AE6,0x53AC); (0x3AE7,0x5627);
  (0x3AE8,0x5615); (0x3AE9,0x560C); (0x3AEA,0x5612); (0x3AEB,0x55FC); (0x3AEC,0x560F); (0x3AED,0x561C); (0x3AEE,0x5601); (0x3AEF,0x5613);
  (0x3AF0,0x5602); (0x3AF1,0x55FA); (0x3AF2,0x561D); (0x3AF3,0x5604); (0x3AF4,0x55FF); (0x3AF5,0x55F9); (0x3AF6,0x5889); (0x3AF7,0x587C);
  (0x3AF8,0x5890); (0x3AF9,0x5898); (0x3AFA,0x5886); (0x3AFB,0x5881); (0x3AFC,0x587F); (0x3AFD,0x5874); (0x3AFE,0x588B); (0x3AFF,0x587A);
  (0x3B00,0x5887); (0x3B01,0x5891); (0x3B02,0x588E); (0x3B03,0x5876); (0x3B04,0x5882); (0x3B05,0x5888); (0x3B06,0x587B); (0x3B07,0x5894);
  (0x3B08,0x588F); (0x3B09,0x58FE); (0x3B0A,0x596B); (0x3B0B,0x5ADC); (0x3B0C,0x5AEE); (0x3B0D,0x5AE5); (0x3B0E,0x5AD5); (0x3B0F,0x5AEA);
  (0x3B10,0x5ADA); (0x3B11,0x5AED); (0x3B12,0x5AEB); (0x3B13,0x5AF3); (0x3B14,0x5AE2); (0x3B15,0x5AE0); (0x3B16,0x5ADB); (0x3B17,0x5AEC);
  (0x3B18,0x5ADE); (0x3B19,0x5ADD); (0x3B1A,0x5AD9); (0x3B1B,0x5AE8); (0x3B1C,0x5ADF); (0x3B1D,0x5B77); (0x3B1E,0x5BE0); (0x3B1F,0x5BE3);
  (0x3B20,0x5C63); (0x3B21,0x5D82); (0x3B22,0x5D80); (0x3B23,0x5D7D); (0x3B24,0x5D86); (0x3B25,0x5D7A); (0x3B26,0x5D81); (0x3B27,0x5D77);
  (0x3B28,0x5D8A); (0x3B29,0x5D89); (0x3B2A,0x5D88); (0x3B2B,0x5D7E); (0x3B2C,0x5D7C); (0x3B2D,0x5D8D); (0x3B2E,0x5D79); (0x3B2F,0x5D7F);
  (0x3B30,0x5E58); (0x3B31,0x5E59); (0x3B32,0x5E53); (0x3B33,0x5ED8); (0x3B34,0x5ED1); (0x3B35,0x5ED7); (0x3B36,0x5ECE); (0x3B37,0x5EDC);
  (0x3B38,0x5ED5); (0x3B39,0x5ED9); (0x3B3A,0x5ED2); (0x3B3B,0x5ED4); (0x3B3C,0x5F44); (0x3B3D,0x5F43); (0x3B3E,0x5F6F); (0x3B3F,0x5FB6);
  (0x3B40,0x612C); (0x3B41,0x6128); (0x3B42,0x6141); (0x3B43,0x615E); (0x3B44,0x6171); (0x3B45,0x6173); (0x3B46,0x6152); (0x3B47,0x6153);
  (0x3B48,0x6172); (0x3B49,0x616C); (0x3B4A,0x6180); (0x3B4B,0x6174); (0x3B4C,0x6154); (0x3B4D,0x617A); (0x3B4E,0x615B); (0x3B4F,0x6165);
  (0x3B50,0x613B); (0x3B51,0x616A); (0x3B52,0x6161); (0x3B53,0x6156); (0x3B54,0x6229); (0x3B55,0x6227); (0x3B56,0x622B); (0x3B57,0x642B);
  (0x3B58,0x644D); (0x3B59,0x645B); (0x3B5A,0x645D); (0x3B5B,0x6474); (0x3B5C,0x6476); (0x3B5D,0x6472); (0x3B5E,0x6473); (0x3B5F,0x647D);
  (0x3B60,0x6475); (0x3B61,0x6466); (0x3B62,0x64A6); (0x3B63,0x644E); (0x3B64,0x6482); (0x3B65,0x645E); (0x3B66,0x645C); (0x3B67,0x644B);
  (0x3B68,0x6453); (0x3B69,0x6460); (0x3B6A,0x6450); (0x3B6B,0x647F); (0x3B6C,0x643F); (0x3B6D,0x646C); (0x3B6E,0x646B); (0x3B6F,0x6459);
  (0x3B70,0x6465); (0x3B71,0x6477); (0x3B72,0x6573); (0x3B73,0x65A0); (0x3B74,0x66A1); (0x3B75,0x66A0); (0x3B76,0x669F); (0x3B77,0x6705);
  (0x3B78,0x6704); (0x3B79,0x6722); (0x3B7A,0x69B1); (0x3B7B,0x69B6); (0x3B7C,0x69C9); (0x3B7D,0x69A0); (0x3B7E,0x69CE); (0x3B7F,0x6996);
  (0x3B80,0x69B0); (0x3B81,0x69AC); (0x3B82,0x69BC); (0x3B83,0x6991); (0x3B84,0x6999); (0x3B85,0x698E); (0x3B86,0x69A7); (0x3B87,0x698D);
  (0x3B88,0x69A9); (0x3B89,0x69BE); (0x3B8A,0x69AF); (0x3B8B,0x69BF); (0x3B8C,0x69C4); (0x3B8D,0x69BD); (0x3B8E,0x69A4); (0x3B8F,0x69D4);
  (0x3B90,0x69B9); (0x3B91,0x69CA); (0x3B92,0x699A); (0x3B93,0x69CF); (0x3B94,0x69B3); (0x3B95,0x6993); (0x3B96,0x69AA); (0x3B97,0x69A1);
  (0x3B98,0x699E); (0x3B99,0x69D9); (0x3B9A,0x6997); (0x3B9B,0x6990); (0x3B9C,0x69C2); (0x3B9D,0x69B5); (0x3B9E,0x69A5); (0x3B9F,0x69C6);
  (0x3BA0,0x6B4A); (0x3BA1,0x6B4D); (0x3BA2,0x6B4B); (0x3BA3,0x6B9E); (0x3BA4,0x6B9F); (0x3BA5,0x6BA0); (0x3BA6,0x6BC3); (0x3BA7,0x6BC4)
].
(* encoding_tables/whatwg/index-big5.txt (pointer, code point), entries 14080..14335 *)
Definition big5_index_55 : list (N * N) := [
  (0x3BA8,0x6BFE); (0x3BA9,0x6ECE); (0x3BAA,0x6EF5); (0x3BAB,0x6EF1); (0x3BAC,0x6F03); (0x3BAD,0x6F25); (0x3BAE,0x6EF8); (0x3BAF,0x6F37);
  (0x3BB0,0x6EFB); (0x3BB1,0x6F2E); (0x3BB2,0x6F09); (0x3BB3,0x6F4E); (0x3BB4,0x6F19); (0x3BB5,0x6F1A); (0x3BB6,0x6F27); (0x3BB7,0x6F18);
  (0x3BB8,0x6F3B); (0x3BB9,0x6F12); (0x3BBA,0x6EED); (0x3BBB,0x6F0A); (0x3BBC,0x6F36); (0x3BBD,0x6F73); (0x3BBE,0x6EF9); (0x3BBF,0x6EEE);
  (0x3BC0,0x6F2D); (0x3BC1,0x6F40); (0x3BC2,0x6F30); (0x3BC3,0x6F3C); (0x3BC4,0x6F35); (0x3BC5,0x6EEB); (0x3BC6,0x6F07); (0x3BC7,0x6F0E);
  (0x3BC8,0x6F43); (0x3BC9,0x6F05); (0x3BCA,0x6EFD); (0x3BCB,0x6EF6); (0x3BCC,0x6F39); (0x3BCD,0x6F1C); (0x3BCE,0x6EFC); (0x3BCF,0x6F3A);
  (0x3BD0,0x6F1F); (0x3BD1,0x6F0D); (0x3BD2,0x6F1E); (0x3BD3,0x6F08); (0x3BD4,0x6F21); (0x3BD5,0x7187); (0x3BD6,0x7190); (0x3BD7,0x7189);
  (0x3BD8,0x7180); (0x3BD9,0x7185); (0x3BDA,0x7182); (0x3BDB,0x718F); (0x3BDC,0x717B); (0x3BDD,0x7186); (0x3BDE,0x7181); (0x3BDF,0x7197);
  (0x3BE0,0x7244); (0x3BE1,0x7253); (0x3BE2,0x7297); (0x3BE3,0x7295); (0x3BE4,0x7293); (0x3BE5,0x7343); (0x3BE6,0x734D); (0x3BE7,0x7351);
  (0x3BE8,0x734C); (0x3BE9,0x7462); (0x3BEA,0x7473); (0x3BEB,0x7471); (0x3BEC,0x7475); (0x3BED,0x7472); (0x3BEE,0x7467); (0x3BEF,0x746E);
  (0x3BF0,0x7500); (0x3BF1,0x7502); (0x3BF2,0x7503); (0x3BF3,0x757D); (0x3BF4,0x7590); (0x3BF5,0x7616); (0x3BF6,0x7608); (0x3BF7,0x760C);
  (0x3BF8,0x7615); (0x3BF9,0x7611); (0x3BFA,0x760A); (0x3BFB,0x7614); (0x3BFC,0x76B8); (0x3BFD,0x7781); (0x3BFE,0x777C); (0x3BFF,0x7785);
  (0x3C00,0x7782); (0x3C01,0x776E); (0x3C02,0x7780); (0x3C03,0x776F); (0x3C04,0x777E); (0x3C05,0x7783); (0x3C06,0x78B2); (0x3C07,0x78AA);
  (0x3C08,0x78B4); (0x3C09,0x78AD); (0x3C0A,0x78A8); (0x3C0B,0x787E); (0x3C0C,0x78AB); (0x3C0D,0x789E); (0x3C0E,0x78A5); (0x3C0F,0x78A0);
  (0x3C10,0x78AC); (0x3C11,0x78A2); (0x3C12,0x78A4); (0x3C13,0x7998); (0x3C14,0x798A); (0x3C15,0x798B); (0x3C16,0x7996); (0x3C17,0x7995);
  (0x3C18,0x7994); (0x3C19,0x7993); (0x3C1A,0x7997); (0x3C1B,0x7988); (0x3C1C,0x7992); (0x3C1D,0x7990); (0x3C1E,0x7A2B); (0x3C1F,0x7A4A);
  (0x3C20,0x7A30); (0x3C21,0x7A2F); (0x3C22,0x7A28); (0x3C23,0x7A26); (0x3C24,0x7AA8); (0x3C25,0x7AAB); (0x3C26,0x7AAC); (0x3C27,0x7AEE);
  (0x3C28,0x7B88); (0x3C29,0x7B9C); (0x3C2A,0x7B8A); (0x3C2B,0x7B91); (0x3C2C,0x7B90); (0x3C2D,0x7B96); (0x3C2E,0x7B8D); (0x3C2F,0x7B8C);
  (0x3C30,0x7B9B); (0x3C31,0x7B8E); (0x3C32,0x7B85); (0x3C33,0x7B98); (0x3C34,0x5284); (0x3C35,0x7B99); (0x3C36,0x7BA4); (0x3C37,0x7B82);
  (0x3C38,0x7CBB); (0x3C39,0x7CBF); (0x3C3A,0x7CBC); (0x3C3B,0x7CBA); (0x3C3C,0x7DA7); (0x3C3D,0x7DB7); (0x3C3E,0x7DC2); (0x3C3F,0x7DA3);
  (0x3C40,0x7DAA); (0x3C41,0x7DC1); (0x3C42,0x7DC0); (0x3C43,0x7DC5); (0x3C44,0x7D9D); (0x3C45,0x7DCE); (0x3C46,0x7DC4); (0x3C47,0x7DC6);
  (0x3C48,0x7DCB); (0x3C49,0x7DCC); (0x3C4A,0x7DAF); (0x3C4B,0x7DB9); (0x3C4C,0x7D96); (0x3C4D,0x7DBC); (0x3C4E,0x7D9F); (0x3C4F,0x7DA6);
  (0x3C50,0x7DAE); (0x3C51,0x7DA9); (0x3C52,0x7DA1); (0x3C53,0x7DC9); (0x3C54,0x7F73); (0x3C55,0x7FE2); (0x3C56,0x7FE3); (0x3C57,0x7FE5);
  (0x3C58,0x7FDE); (0x3C59,0x8024); (0x3C5A,0x805D); (0x3C5B,0x805C); (0x3C5C,0x8189); (0x3C5D,0x8186); (0x3C5E,0x8183); (0x3C5F,0x8187);
  (0x3C60,0x818D); (0x3C61,0x818C); (0x3C62,0x818B); (0x3C63,0x8215); (0x3C64,0x8497); (0x3C65,0x84A4); (0x3C66,0x84A1); (0x3C67,0x849F);
  (0x3C68,0x84BA); (0x3C69,0x84CE); (0x3C6A,0x84C2); (0x3C6B,0x84AC); (0x3C6C,0x84AE); (0x3C6D,0x84AB); (0x3C6E,0x84B9); (0x3C6F,0x84B4);
  (0x3C70,0x84C1); (0x3C71,0x84CD); (0x3C72,0x84AA); (0x3C73,0x849A); (0x3C74,0x84B1); (0x3C75,0x84D0); (0x3C76,0x849D); (0x3C77,0x84A7);
  (0x3C78,0x84BB); (0x3C79,0x84A2); (0x3C7A,0x8494); (0x3C7B,0x84C7); (0x3C7C,0x84CC); (0x3C7D,0x849B); (0x3C7E,0x84A9); (0x3C7F,0x84AF);
  (0x3C80,0x84A8); (0x3C81,0x84D6); (0x3C82,0x8498); (0x3C83,0x84B6); (0x3C84,0x84CF); (0x3C85,0x84A0); (0x3C86,0x84D7); (0x3C87,0x84D4);
  (0x3C88,0x84D2); (0x3C89,0x84DB); (0x3C8A,0x84B0); (0x3C8B,0x8491); (0x3C8C,0x8661); (0x3C8D,0x8733); (0x3C8E,0x8723); (0x3C8F,0x8728);
  (0x3C90,0x876B); (0x3C91,0x8740); (0x3C92,0x872E); (0x3C93,0x871E); (0x3C94,0x8721); (0x3C95,0x8719); (0x3C96,0x871B); (0x3C97,0x8743);
  (0x3C98,0x872C); (0x3C99,0x8741); (0x3C9A,0x873E); (0x3C9B,0x8746); (0x3C9C,0x8720); (0x3C9D,0x8732); (0x3C9E,0x872A); (0x3C9F,0x872D);
  (0x3CA0,0x873C); (0x3CA1,0x8712); (0x3CA2,0x873A); (0x3CA3,0x8731); (0x3CA4,0x8735); (0x3CA5,0x8742); (0x3CA6,0x8726); (0x3CA7,0x8727)
].
(* encoding_tables/whatwg/index-big5.txt (pointer, code point), entries 14336..14591 *)
Definition big5_index_56 : list (N * N) := [
  (0x3CA8,0x8738); (0x3CA9,0x8724); (0x3CAA,0x871A); (0x3CAB,0x8730); (0x3CAC,0x8711); (0x3CAD,0x88F7); (0x3CAE,0x88E7); (0x3CAF,0x88F1);
  (0x3CB0,0x88F2); (0x3CB1,0x88FA); (0x3CB2,0x88FE); (0x3CB3,0x88EE); (0x3CB4,0x88FC); (0x3CB5,0x88F6); (0x3CB6,0x88FB); (0x3CB7,0x88F0);
  (0x3CB8,0x88EC); (0x3CB9,0x88EB); (0x3CBA,0x899D); (0x3CBB,0x89A1); (0x3CBC,0x899F); (0x3CBD,0x899E); (0x3CBE,0x89E9); (0x3CBF,0x89EB);
  (0x3CC0,0x89E8); (0x3CC1,0x8AAB); (0x3CC2,0x8A99); (0x3CC3,0x8A8B); (0x3CC4,0x8A92); (0x3CC5,0x8A8F); (0x3CC6,0x8A96); (0x3CC7,0x8C3D);
  (0x3CC8,0x8C68); (0x3CC9,0x8C69); (0x3CCA,0x8CD5); (0x3CCB,0x8CCF); (0x3CCC,0x8CD7); (0x3CCD,0x8D96); (0x3CCE,0x8E09); (0x3CCF,0x8E02);
  (0x3CD0,0x8DFF); (0x3CD1,0x8E0D); (0x3CD2,0x8DFD); (0x3CD3,0x8E0A); (0x3CD4,0x8E03); (0x3CD5,0x8E07); (0x3CD6,0x8E06); (0x3CD7,0x8E05);
  (0x3CD8,0x8DFE); (0x3CD9,0x8E00); (0x3CDA,0x8E04); (0x3CDB,0x8F10); (0x3CDC,0x8F11); (0x3CDD,0x8F0E); (0x3CDE,0x8F0D); (0x3CDF,0x9123);
  (0x3CE0,0x911C); (0x3CE1,0x9120); (0x3CE2,0x9122); (0x3CE3,0x911F); (0x3CE4,0x911D); (0x3CE5,0x911A); (0x3CE6,0x9124); (0x3CE7,0x9121);
  (0x3CE8,0x911B); (0x3CE9,0x917A); (0x3CEA,0x9172); (0x3CEB,0x9179); (0x3CEC,0x9173); (0x3CED,0x92A5); (0x3CEE,0x92A4); (0x3CEF,0x9276);
  (0x3CF0,0x929B); (0x3CF1,0x927A); (0x3CF2,0x92A0); (0x3CF3,0x9294); (0x3CF4,0x92AA); (0x3CF5,0x928D); (0x3CF6,0x92A6); (0x3CF7,0x929A);
  (0x3CF8,0x92AB); (0x3CF9,0x9279); (0x3CFA,0x9297); (0x3CFB,0x927F); (0x3CFC,0x92A3); (0x3CFD,0x92EE); (0x3CFE,0x928E); (0x3CFF,0x9282);
  (0x3D00,0x9295); (0x3D01,0x92A2); (0x3D02,0x927D); (0x3D03,0x9288); (0x3D04,0x92A1); (0x3D05,0x928A); (0x3D06,0x9286); (0x3D07,0x928C);
  (0x3D08,0x9299); (0x3D09,0x92A7); (0x3D0A,0x927E); (0x3D0B,0x9287); (0x3D0C,0x92A9); (0x3D0D,0x929D); (0x3D0E,0x928B); (0x3D0F,0x922D);
  (0x3D10,0x969E); (0x3D11,0x96A1); (0x3D12,0x96FF); (0x3D13,0x9758); (0x3D14,0x977D); (0x3D15,0x977A); (0x3D16,0x977E); (0x3D17,0x9783);
  (0x3D18,0x9780); (0x3D19,0x9782); (0x3D1A,0x977B); (0x3D1B,0x9784); (0x3D1C,0x9781); (0x3D1D,0x977F); (0x3D1E,0x97CE); (0x3D1F,0x97CD);
  (0x3D20,0x9816); (0x3D21,0x98AD); (0x3D22,0x98AE); (0x3D23,0x9902); (0x3D24,0x9900); (0x3D25,0x9907); (0x3D26,0x999D); (0x3D27,0x999C);
  (0x3D28,0x99C3); (0x3D29,0x99B9); (0x3D2A,0x99BB); (0x3D2B,0x99BA); (0x3D2C,0x99C2); (0x3D2D,0x99BD); (0x3D2E,0x99C7); (0x3D2F,0x9AB1);
  (0x3D30,0x9AE3); (0x3D31,0x9AE7); (0x3D32,0x9B3E); (0x3D33,0x9B3F); (0x3D34,0x9B60); (0x3D35,0x9B61); (0x3D36,0x9B5F); (0x3D37,0x9CF1);
  (0x3D38,0x9CF2); (0x3D39,0x9CF5); (0x3D3A,0x9EA7); (0x3D3B,0x50FF); (0x3D3C,0x5103); (0x3D3D,0x5130); (0x3D3E,0x50F8); (0x3D3F,0x5106);
  (0x3D40,0x5107); (0x3D41,0x50F6); (0x3D42,0x50FE); (0x3D43,0x510B); (0x3D44,0x510C); (0x3D45,0x50FD); (0x3D46,0x510A); (0x3D47,0x528B);
  (0x3D48,0x528C); (0x3D49,0x52F1); (0x3D4A,0x52EF); (0x3D4B,0x5648); (0x3D4C,0x5642); (0x3D4D,0x564C); (0x3D4E,0x5635); (0x3D4F,0x5641);
  (0x3D50,0x564A); (0x3D51,0x5649); (0x3D52,0x5646); (0x3D53,0x5658); (0x3D54,0x565A); (0x3D55,0x5640); (0x3D56,0x5633); (0x3D57,0x563D);
  (0x3D58,0x562C); (0x3D59,0x563E); (0x3D5A,0x5638); (0x3D5B,0x562A); (0x3D5C,0x563A); (0x3D5D,0x571A); (0x3D5E,0x58AB); (0x3D5F,0x589D);
  (0x3D60,0x58B1); (0x3D61,0x58A0); (0x3D62,0x58A3); (0x3D63,0x58AF); (0x3D64,0x58AC); (0x3D65,0x58A5); (0x3D66,0x58A1); (0x3D67,0x58FF);
  (0x3D68,0x5AFF); (0x3D69,0x5AF4); (0x3D6A,0x5AFD); (0x3D6B,0x5AF7); (0x3D6C,0x5AF6); (0x3D6D,0x5B03); (0x3D6E,0x5AF8); (0x3D6F,0x5B02);
  (0x3D70,0x5AF9); (0x3D71,0x5B01); (0x3D72,0x5B07); (0x3D73,0x5B05); (0x3D74,0x5B0F); (0x3D75,0x5C67); (0x3D76,0x5D99); (0x3D77,0x5D97);
  (0x3D78,0x5D9F); (0x3D79,0x5D92); (0x3D7A,0x5DA2); (0x3D7B,0x5D93); (0x3D7C,0x5D95); (0x3D7D,0x5DA0); (0x3D7E,0x5D9C); (0x3D7F,0x5DA1);
  (0x3D80,0x5D9A); (0x3D81,0x5D9E); (0x3D82,0x5E69); (0x3D83,0x5E5D); (0x3D84,0x5E60); (0x3D85,0x5E5C); (0x3D86,0x7DF3); (0x3D87,0x5EDB);
  (0x3D88,0x5EDE); (0x3D89,0x5EE1); (0x3D8A,0x5F49); (0x3D8B,0x5FB2); (0x3D8C,0x618B); (0x3D8D,0x6183); (0x3D8E,0x6179); (0x3D8F,0x61B1);
  (0x3D90,0x61B0); (0x3D91,0x61A2); (0x3D92,0x6189); (0x3D93,0x619B); (0x3D94,0x6193); (0x3D95,0x61AF); (0x3D96,0x61AD); (0x3D97,0x619F);
  (0x3D98,0x6192); (0x3D99,0x61AA); (0x3D9A,0x61A1); (0x3D9B,0x618D); (0x3D9C,0x6166); (0x3D9D,0x61B3); (0x3D9E,0x622D); (0x3D9F,0x646E);
  (0x3DA0,0x6470); (0x3DA1,0x6496); (0x3DA2,0x64A0); (0x3DA3,0x6485); (0x3DA4,0x6497); (0x3DA5,0x649C); (0x3DA6,0x648F); (0x3DA7,0x648B)
].
(* encoding_tables/whatwg/index-big5.txt (pointer, code point), entries 14592..14847 *)
Definition big5_index_57 : list (N * N) := [
  (0x3DA8,0x648A); (0x3DA9,0x648C); (0x3DAA,0x64A3); (0x3DAB,0x649F); (0x3DAC,0x6468); (0x3DAD,0x64B1); (0x3DAE,0x6498); (0x3DAF,0x6576);
  (0x3DB0,0x657A); (0x3DB1,0x6579); (0x3DB2,0x657B); (0x3DB3,0x65B2); (0x3DB4,0x65B3); (0x3DB5,0x66B5); (0x3DB6,0x66B0); (0x3DB7,0x66A9);
  (0x3DB8,0x66B2); (0x3DB9,0x66B7); (0x3DBA,0x66AA); (0x3DBB,0x66AF); (0x3DBC,0x6A00); (0x3DBD,0x6A06); (0x3DBE,0x6A17); (0x3DBF,0x69E5);
  (0x3DC0,0x69F8); (0x3DC1,0x6A15); (0x3DC2,0x69F1); (0x3DC3,0x69E4); (0x3DC4,0x6A20); (0x3DC5,0x69FF); (0x3DC6,0x69EC); (0x3DC7,0x69E2);
  (0x3DC8,0x6A1B); (0x3DC9,0x6A1D); (0x3DCA,0x69FE); (0x3DCB,0x6A27); (0x3DCC,0x69F2); (0x3DCD,0x69EE); (0x3DCE,0x6A14); (0x3DCF,0x69F7);
  (0x3DD0,0x69E7); (0x3DD1,0x6A40); (0x3DD2,0x6A08); (0x3DD3,0x69E6); (0x3DD4,0x69FB); (0x3DD5,0x6A0D); (0x3DD6,0x69FC); (0x3DD7,0x69EB);
  (0x3DD8,0x6A09); (0x3DD9,0x6A04); (0x3DDA,0x6A18); (0x3DDB,0x6A25); (0x3DDC,0x6A0F); (0x3DDD,0x69F6); (0x3DDE,0x6A26); (0x3DDF,0x6A07);
  (0x3DE0,0x69F4); (0x3DE1,0x6A16); (0x3DE2,0x6B51); (0x3DE3,0x6BA5); (0x3DE4,0x6BA3); (0x3DE5,0x6BA2); (0x3DE6,0x6BA6); (0x3DE7,0x6C01);
  (0x3DE8,0x6C00); (0x3DE9,0x6BFF); (0x3DEA,0x6C02); (0x3DEB,0x6F41); (0x3DEC,0x6F26); (0x3DED,0x6F7E); (0x3DEE,0x6F87); (0x3DEF,0x6FC6);
  (0x3DF0,0x6F92); (0x3DF1,0x6F8D); (0x3DF2,0x6F89); (0x3DF3,0x6F8C); (0x3DF4,0x6F62); (0x3DF5,0x6F4F); (0x3DF6,0x6F85); (0x3DF7,0x6F5A);
  (0x3DF8,0x6F96); (0x3DF9,0x6F76); (0x3DFA,0x6F6C); (0x3DFB,0x6F82); (0x3DFC,0x6F55); (0x3DFD,0x6F72); (0x3DFE,0x6F52); (0x3DFF,0x6F50);
  (0x3E00,0x6F57); (0x3E01,0x6F94); (0x3E02,0x6F93); (0x3E03,0x6F5D); (0x3E04,0x6F00); (0x3E05,0x6F61); (0x3E06,0x6F6B); (0x3E07,0x6F7D);
  (0x3E08,0x6F67); (0x3E09,0x6F90); (0x3E0A,0x6F53); (0x3E0B,0x6F8B); (0x3E0C,0x6F69); (0x3E0D,0x6F7F); (0x3E0E,0x6F95); (0x3E0F,0x6F63);
  (0x3E10,0x6F77); (0x3E11,0x6F6A); (0x3E12,0x6F7B); (0x3E13,0x71B2); (0x3E14,0x71AF); (0x3E15,0x719B); (0x3E16,0x71B0); (0x3E17,0x71A0);
  (0x3E18,0x719A); (0x3E19,0x71A9); (0x3E1A,0x71B5); (0x3E1B,0x719D); (0x3E1C,0x71A5); (0x3E1D,0x719E); (0x3E1E,0x71A4); (0x3E1F,0x71A1);
  (0x3E20,0x71AA); (0x3E21,0x719C); (0x3E22,0x71A7); (0x3E23,0x71B3); (0x3E24,0x7298); (0x3E25,0x729A); (0x3E26,0x7358); (0x3E27,0x7352);
  (0x3E28,0x735E); (0x3E29,0x735F); (0x3E2A,0x7360); (0x3E2B,0x735D); (0x3E2C,0x735B); (0x3E2D,0x7361); (0x3E2E,0x735A); (0x3E2F,0x7359);
  (0x3E30,0x7362); (0x3E31,0x7487); (0x3E32,0x7489); (0x3E33,0x748A); (0x3E34,0x7486); (0x3E35,0x7481); (0x3E36,0x747D); (0x3E37,0x7485);
  (0x3E38,0x7488); (0x3E39,0x747C); (0x3E3A,0x7479); (0x3E3B,0x7508); (0x3E3C,0x7507); (0x3E3D,0x757E); (0x3E3E,0x7625); (0x3E3F,0x761E);
  (0x3E40,0x7619); (0x3E41,0x761D); (0x3E42,0x761C); (0x3E43,0x7623); (0x3E44,0x761A); (0x3E45,0x7628); (0x3E46,0x761B); (0x3E47,0x769C);
  (0x3E48,0x769D); (0x3E49,0x769E); (0x3E4A,0x769B); (0x3E4B,0x778D); (0x3E4C,0x778F); (0x3E4D,0x7789); (0x3E4E,0x7788); (0x3E4F,0x78CD);
  (0x3E50,0x78BB); (0x3E51,0x78CF); (0x3E52,0x78CC); (0x3E53,0x78D1); (0x3E54,0x78CE); (0x3E55,0x78D4); (0x3E56,0x78C8); (0x3E57,0x78C3);
  (0x3E58,0x78C4); (0x3E59,0x78C9); (0x3E5A,0x799A); (0x3E5B,0x79A1); (0x3E5C,0x79A0); (0x3E5D,0x799C); (0x3E5E,0x79A2); (0x3E5F,0x799B);
  (0x3E60,0x6B76); (0x3E61,0x7A39); (0x3E62,0x7AB2); (0x3E63,0x7AB4); (0x3E64,0x7AB3); (0x3E65,0x7BB7); (0x3E66,0x7BCB); (0x3E67,0x7BBE);
  (0x3E68,0x7BAC); (0x3E69,0x7BCE); (0x3E6A,0x7BAF); (0x3E6B,0x7BB9); (0x3E6C,0x7BCA); (0x3E6D,0x7BB5); (0x3E6E,0x7CC5); (0x3E6F,0x7CC8);
  (0x3E70,0x7CCC); (0x3E71,0x7CCB); (0x3E72,0x7DF7); (0x3E73,0x7DDB); (0x3E74,0x7DEA); (0x3E75,0x7DE7); (0x3E76,0x7DD7); (0x3E77,0x7DE1);
  (0x3E78,0x7E03); (0x3E79,0x7DFA); (0x3E7A,0x7DE6); (0x3E7B,0x7DF6); (0x3E7C,0x7DF1); (0x3E7D,0x7DF0); (0x3E7E,0x7DEE); (0x3E7F,0x7DDF);
  (0x3E80,0x7F76); (0x3E81,0x7FAC); (0x3E82,0x7FB0); (0x3E83,0x7FAD); (0x3E84,0x7FED); (0x3E85,0x7FEB); (0x3E86,0x7FEA); (0x3E87,0x7FEC);
  (0x3E88,0x7FE6); (0x3E89,0x7FE8); (0x3E8A,0x8064); (0x3E8B,0x8067); (0x3E8C,0x81A3); (0x3E8D,0x819F); (0x3E8E,0x819E); (0x3E8F,0x8195);
  (0x3E90,0x81A2); (0x3E91,0x8199); (0x3E92,0x8197); (0x3E93,0x8216); (0x3E94,0x824F); (0x3E95,0x8253); (0x3E96,0x8252); (0x3E97,0x8250);
  (0x3E98,0x824E); (0x3E99,0x8251); (0x3E9A,0x8524); (0x3E9B,0x853B); (0x3E9C,0x850F); (0x3E9D,0x8500); (0x3E9E,0x8529); (0x3E9F,0x850E);
  (0x3EA0,0x8509); (0x3EA1,0x850D); (0x3EA2,0x851F); (0x3EA3,0x850A); (0x3EA4,0x8527); (0x3EA5,0x851C); (0x3EA6,0x84FB); (0x3EA7,0x852B)
].
(* encoding_tables/whatwg/index-big5.txt (pointer, code point), entries 14848..15103 *)
Definition big5_index_58 : list (N * N) := [
  (0x3EA8,0x84FA); (0x3EA9,0x8508); (0x3EAA,0x850C); (0x3EAB,0x84F4); (0x3EAC,0x852A); (0x3EAD,0x84F2); (0x3EAE,0x8515); (0x3EAF,0x84F7);
  (0x3EB0,0x84EB); (0x3EB1,0x84F3); (0x3EB2,0x84FC); (0x3EB3,0x8512); (0x3EB4,0x84EA); (0x3EB5,0x84E9); (0x3EB6,0x8516); (0x3EB7,0x84FE);
  (0x3EB8,0x8528); (0x3EB9,0x851D); (0x3EBA,0x852E); (0x3EBB,0x8502); (0x3EBC,0x84FD); (0x3EBD,0x851E); (0x3EBE,0x84F6); (0x3EBF,0x8531);
  (0x3EC0,0x8526); (0x3EC1,0x84E7); (0x3EC2,0x84E8); (0x3EC3,0x84F0); (0x3EC4,0x84EF); (0x3EC5,0x84F9); (0x3EC6,0x8518); (0x3EC7,0x8520);
  (0x3EC8,0x8530); (0x3EC9,0x850B); (0x3ECA,0x8519); (0x3ECB,0x852F); (0x3ECC,0x8662); (0x3ECD,0x8756); (0x3ECE,0x8763); (0x3ECF,0x8764);
  (0x3ED0,0x8777); (0x3ED1,0x87E1); (0x3ED2,0x8773); (0x3ED3,0x8758); (0x3ED4,0x8754); (0x3ED5,0x875B); (0x3ED6,0x8752); (0x3ED7,0x8761);
  (0x3ED8,0x875A); (0x3ED9,0x8751); (0x3EDA,0x875E); (0x3EDB,0x876D); (0x3EDC,0x876A); (0x3EDD,0x8750); (0x3EDE,0x874E); (0x3EDF,0x875F);
  (0x3EE0,0x875D); (0x3EE1,0x876F); (0x3EE2,0x876C); (0x3EE3,0x877A); (0x3EE4,0x876E); (0x3EE5,0x875C); (0x3EE6,0x8765); (0x3EE7,0x874F);
  (0x3EE8,0x877B); (0x3EE9,0x8775); (0x3EEA,0x8762); (0x3EEB,0x8767); (0x3EEC,0x8769); (0x3EED,0x885A); (0x3EEE,0x8905); (0x3EEF,0x890C);
  (0x3EF0,0x8914); (0x3EF1,0x890B); (0x3EF2,0x8917); (0x3EF3,0x8918); (0x3EF4,0x8919); (0x3EF5,0x8906); (0x3EF6,0x8916); (0x3EF7,0x8911);
  (0x3EF8,0x890E); (0x3EF9,0x8909); (0x3EFA,0x89A2); (0x3EFB,0x89A4); (0x3EFC,0x89A3); (0x3EFD,0x89ED); (0x3EFE,0x89F0); (0x3EFF,0x89EC);
  (0x3F00,0x8ACF); (0x3F01,0x8AC6); (0x3F02,0x8AB8); (0x3F03,0x8AD3); (0x3F04,0x8AD1); (0x3F05,0x8AD4); (0x3F06,0x8AD5); (0x3F07,0x8ABB);
  (0x3F08,0x8AD7); (0x3F09,0x8ABE); (0x3F0A,0x8AC0); (0x3F0B,0x8AC5); (0x3F0C,0x8AD8); (0x3F0D,0x8AC3); (0x3F0E,0x8ABA); (0x3F0F,0x8ABD);
  (0x3F10,0x8AD9); (0x3F11,0x8C3E); (0x3F12,0x8C4D); (0x3F13,0x8C8F); (0x3F14,0x8CE5); (0x3F15,0x8CDF); (0x3F16,0x8CD9); (0x3F17,0x8CE8);
  (0x3F18,0x8CDA); (0x3F19,0x8CDD); (0x3F1A,0x8CE7); (0x3F1B,0x8DA0); (0x3F1C,0x8D9C); (0x3F1D,0x8DA1); (0x3F1E,0x8D9B); (0x3F1F,0x8E20);
  (0x3F20,0x8E23); (0x3F21,0x8E25); (0x3F22,0x8E24); (0x3F23,0x8E2E); (0x3F24,0x8E15); (0x3F25,0x8E1B); (0x3F26,0x8E16); (0x3F27,0x8E11);
  (0x3F28,0x8E19); (0x3F29,0x8E26); (0x3F2A,0x8E27); (0x3F2B,0x8E14); (0x3F2C,0x8E12); (0x3F2D,0x8E18); (0x3F2E,0x8E13); (0x3F2F,0x8E1C);
  (0x3F30,0x8E17); (0x3F31,0x8E1A); (0x3F32,0x8F2C); (0x3F33,0x8F24); (0x3F34,0x8F18); (0x3F35,0x8F1A); (0x3F36,0x8F20); (0x3F37,0x8F23);
  (0x3F38,0x8F16); (0x3F39,0x8F17); (0x3F3A,0x9073); (0x3F3B,0x9070); (0x3F3C,0x906F); (0x3F3D,0x9067); (0x3F3E,0x906B); (0x3F3F,0x912F);
  (0x3F40,0x912B); (0x3F41,0x9129); (0x3F42,0x912A); (0x3F43,0x9132); (0x3F44,0x9126); (0x3F45,0x912E); (0x3F46,0x9185); (0x3F47,0x9186);
  (0x3F48,0x918A); (0x3F49,0x9181); (0x3F4A,0x9182); (0x3F4B,0x9184); (0x3F4C,0x9180); (0x3F4D,0x92D0); (0x3F4E,0x92C3); (0x3F4F,0x92C4);
  (0x3F50,0x92C0); (0x3F51,0x92D9); (0x3F52,0x92B6); (0x3F53,0x92CF); (0x3F54,0x92F1); (0x3F55,0x92DF); (0x3F56,0x92D8); (0x3F57,0x92E9);
  (0x3F58,0x92D7); (0x3F59,0x92DD); (0x3F5A,0x92CC); (0x3F5B,0x92EF); (0x3F5C,0x92C2); (0x3F5D,0x92E8); (0x3F5E,0x92CA); (0x3F5F,0x92C8);
  (0x3F60,0x92CE); (0x3F61,0x92E6); (0x3F62,0x92CD); (0x3F63,0x92D5); (0x3F64,0x92C9); (0x3F65,0x92E0); (0x3F66,0x92DE); (0x3F67,0x92E7);
  (0x3F68,0x92D1); (0x3F69,0x92D3); (0x3F6A,0x92B5); (0x3F6B,0x92E1); (0x3F6C,0x92C6); (0x3F6D,0x92B4); (0x3F6E,0x957C); (0x3F6F,0x95AC);
  (0x3F70,0x95AB); (0x3F71,0x95AE); (0x3F72,0x95B0); (0x3F73,0x96A4); (0x3F74,0x96A2); (0x3F75,0x96D3); (0x3F76,0x9705); (0x3F77,0x9708);
  (0x3F78,0x9702); (0x3F79,0x975A); (0x3F7A,0x978A); (0x3F7B,0x978E); (0x3F7C,0x9788); (0x3F7D,0x97D0); (0x3F7E,0x97CF); (0x3F7F,0x981E);
  (0x3F80,0x981D); (0x3F81,0x9826); (0x3F82,0x9829); (0x3F83,0x9828); (0x3F84,0x9820); (0x3F85,0x981B); (0x3F86,0x9827); (0x3F87,0x98B2);
  (0x3F88,0x9908); (0x3F89,0x98FA); (0x3F8A,0x9911); (0x3F8B,0x9914); (0x3F8C,0x9916); (0x3F8D,0x9917); (0x3F8E,0x9915); (0x3F8F,0x99DC);
  (0x3F90,0x99CD); (0x3F91,0x99CF); (0x3F92,0x99D3); (0x3F93,0x99D4); (0x3F94,0x99CE); (0x3F95,0x99C9); (0x3F96,0x99D6); (0x3F97,0x99D8);
  (0x3F98,0x99CB); (0x3F99,0x99D7); (0x3F9A,0x99CC); (0x3F9B,0x9AB3); (0x3F9C,0x9AEC); (0x3F9D,0x9AEB); (0x3F9E,0x9AF3); (0x3F9F,0x9AF2);
  (0x3FA0,0x9AF1); (0x3FA1,0x9B46); (0x3FA2,0x9B43); (0x3FA3,0x9B67); (0x3FA4,0x9B74); (0x3FA5,0x9B71); (0x3FA6,0x9B66); (0x3FA7,0x9B76)
].
(* encoding_tables/whatwg/index-big5.txt (pointer, code point), entries 15104..15359 *)
Definition big5_index_59 : list (N * N) := [
  (0x3FA8,0x9B75); (0x3FA9,0x9B70); (0x3FAA,0x9B68); (0x3FAB,0x9B64); (0x3FAC,0x9B6C); (0x3FAD,0x9CFC); (0x3FAE,0x9CFA); (0x3FAF,0x9CFD);
  (0x3FB0,0x9CFF); (0x3FB1,0x9CF7); (0x3FB2,0x9D07); (0x3FB3,0x9D00); (0x3FB4,0x9CF9); (0x3FB5,0x9CFB); (0x3FB6,0x9D08); (0x3FB7,0x9D05);
  (0x3FB8,0x9D04); (0x3FB9,0x9E83); (0x3FBA,0x9ED3); (0x3FBB,0x9F0F); (0x3FBC,0x9F10); (0x3FBD,0x511C); (0x3FBE,0x5113); (0x3FBF,0x5117);
  (0x3FC0,0x511A); (0x3FC1,0x5111); (0x3FC2,0x51DE); (0x3FC3,0x5334); (0x3FC4,0x53E1); (0x3FC5,0x5670); (0x3FC6,0x5660); (0x3FC7,0x566E);
  (0x3FC8,0x5673); (0x3FC9,0x5666); (0x3FCA,0x5663); (0x3FCB,0x566D); (0x3FCC,0x5672); (0x3FCD,0x565E); (0x3FCE,0x5677); (0x3FCF,0x571C);
  (0x3FD0,0x571B); (0x3FD1,0x58C8); (0x3FD2,0x58BD); (0x3FD3,0x58C9); (0x3FD4,0x58BF); (0x3FD5,0x58BA); (0x3FD6,0x58C2); (0x3FD7,0x58BC);
  (0x3FD8,0x58C6); (0x3FD9,0x5B17); (0x3FDA,0x5B19); (0x3FDB,0x5B1B); (0x3FDC,0x5B21); (0x3FDD,0x5B14); (0x3FDE,0x5B13); (0x3FDF,0x5B10);
  (0x3FE0,0x5B16); (0x3FE1,0x5B28); (0x3FE2,0x5B1A); (0x3FE3,0x5B20); (0x3FE4,0x5B1E); (0x3FE5,0x5BEF); (0x3FE6,0x5DAC); (0x3FE7,0x5DB1);
  (0x3FE8,0x5DA9); (0x3FE9,0x5DA7); (0x3FEA,0x5DB5); (0x3FEB,0x5DB0); (0x3FEC,0x5DAE); (0x3FED,0x5DAA); (0x3FEE,0x5DA8); (0x3FEF,0x5DB2);
  (0x3FF0,0x5DAD); (0x3FF1,0x5DAF); (0x3FF2,0x5DB4); (0x3FF3,0x5E67); (0x3FF4,0x5E68); (0x3FF5,0x5E66); (0x3FF6,0x5E6F); (0x3FF7,0x5EE9);
  (0x3FF8,0x5EE7); (0x3FF9,0x5EE6); (0x3FFA,0x5EE8); (0x3FFB,0x5EE5); (0x3FFC,0x5F4B); (0x3FFD,0x5FBC); (0x3FFE,0x619D); (0x3FFF,0x61A8);
  (0x4000,0x6196); (0x4001,0x61C5); (0x4002,0x61B4); (0x4003,0x61C6); (0x4004,0x61C1); (0x4005,0x61CC); (0x4006,0x61BA); (0x4007,0x61BF);
  (0x4008,0x61B8); (0x4009,0x618C); (0x400A,0x64D7); (0x400B,0x64D6); (0x400C,0x64D0); (0x400D,0x64CF); (0x400E,0x64C9); (0x400F,0x64BD);
  (0x4010,0x6489); (0x4011,0x64C3); (0x4012,0x64DB); (0x4013,0x64F3); (0x4014,0x64D9); (0x4015,0x6533); (0x4016,0x657F); (0x4017,0x657C);
  (0x4018,0x65A2); (0x4019,0x66C8); (0x401A,0x66BE); (0x401B,0x66C0); (0x401C,0x66CA); (0x401D,0x66CB); (0x401E,0x66CF); (0x401F,0x66BD);
  (0x4020,0x66BB); (0x4021,0x66BA); (0x4022,0x66CC); (0x4023,0x6723); (0x4024,0x6A34); (0x4025,0x6A66); (0x4026,0x6A49); (0x4027,0x6A67);
  (0x4028,0x6A32); (0x4029,0x6A68); (0x402A,0x6A3E); (0x402B,0x6A5D); (0x402C,0x6A6D); (0x402D,0x6A76); (0x402E,0x6A5B); (0x402F,0x6A51);
  (0x4030,0x6A28); (0x4031,0x6A5A); (0x4032,0x6A3B); (0x4033,0x6A3F); (0x4034,0x6A41); (0x4035,0x6A6A); (0x4036,0x6A64); (0x4037,0x6A50);
  (0x4038,0x6A4F); (0x4039,0x6A54); (0x403A,0x6A6F); (0x403B,0x6A69); (0x403C,0x6A60); (0x403D,0x6A3C); (0x403E,0x6A5E); (0x403F,0x6A56);
  (0x4040,0x6A55); (0x4041,0x6A4D); (0x4042,0x6A4E); (0x4043,0x6A46); (0x4044,0x6B55); (0x4045,0x6B54); (0x4046,0x6B56); (0x4047,0x6BA7);
  (0x4048,0x6BAA); (0x4049,0x6BAB); (0x404A,0x6BC8); (0x404B,0x6BC7); (0x404C,0x6C04); (0x404D,0x6C03); (0x404E,0x6C06); (0x404F,0x6FAD);
  (0x4050,0x6FCB); (0x4051,0x6FA3); (0x4052,0x6FC7); (0x4053,0x6FBC); (0x4054,0x6FCE); (0x4055,0x6FC8); (0x4056,0x6F5E); (0x4057,0x6FC4);
  (0x4058,0x6FBD); (0x4059,0x6F9E); (0x405A,0x6FCA); (0x405B,0x6FA8); (0x405C,0x7004); (0x405D,0x6FA5); (0x405E,0x6FAE); (0x405F,0x6FBA);
  (0x4060,0x6FAC); (0x4061,0x6FAA); (0x4062,0x6FCF); (0x4063,0x6FBF); (0x4064,0x6FB8); (0x4065,0x6FA2); (0x4066,0x6FC9); (0x4067,0x6FAB);
  (0x4068,0x6FCD); (0x4069,0x6FAF); (0x406A,0x6FB2); (0x406B,0x6FB0); (0x406C,0x71C5); (0x406D,0x71C2); (0x406E,0x71BF); (0x406F,0x71B8);
  (0x4070,0x71D6); (0x4071,0x71C0); (0x4072,0x71C1); (0x4073,0x71CB); (0x4074,0x71D4); (0x4075,0x71CA); (0x4076,0x71C7); (0x4077,0x71CF);
  (0x4078,0x71BD); (0x4079,0x71D8); (0x407A,0x71BC); (0x407B,0x71C6); (0x407C,0x71DA); (0x407D,0x71DB); (0x407E,0x729D); (0x407F,0x729E);
  (0x4080,0x7369); (0x4081,0x7366); (0x4082,0x7367); (0x4083,0x736C); (0x4084,0x7365); (0x4085,0x736B); (0x4086,0x736A); (0x4087,0x747F);
  (0x4088,0x749A); (0x4089,0x74A0); (0x408A,0x7494); (0x408B,0x7492); (0x408C,0x7495); (0x408D,0x74A1); (0x408E,0x750B); (0x408F,0x7580);
  (0x4090,0x762F); (0x4091,0x762D); (0x4092,0x7631); (0x4093,0x763D); (0x4094,0x7633); (0x4095,0x763C); (0x4096,0x7635); (0x4097,0x7632);
  (0x4098,0x7630); (0x4099,0x76BB); (0x409A,0x76E6); (0x409B,0x779A); (0x409C,0x779D); (0x409D,0x77A1); (0x409E,0x779C); (0x409F,0x779B);
  (0x40A0,0x77A2); (0x40A1,0x77A3); (0x40A2,0x7795); (0x40A3,0x7799); (0x40A4,0x7797); (0x40A5,0x78DD); (0x40A6,0x78E9); (0x40A7,0x78E5)
].
(* encoding_tables/whatwg/index-big5.txt (pointer, code point), entries 15360..15615 *)
Definition big5_index_60 : list (N * N) := [
  (0x40A8,0x78EA); (0x40A9,0x78DE); (0x40AA,0x78E3); (0x40AB,0x78DB); (0x40AC,0x78E1); (0x40AD,0x78E2); (0x40AE,0x78ED); (0x40AF,0x78DF);
  (0x40B0,0x78E0); (0x40B1,0x79A4); (0x40B2,0x7A44); (0x40B3,0x7A48); (0x40B4,0x7A47); (0x40B5,0x7AB6); (0x40B6,0x7AB8); (0x40B7,0x7AB5);
  (0x40B8,0x7AB1); (0x40B9,0x7AB7); (0x40BA,0x7BDE); (0x40BB,0x7BE3); (0x40BC,0x7BE7); (0x40BD,0x7BDD); (0x40BE,0x7BD5); (0x40BF,0x7BE5);
  (0x40C0,0x7BDA); (0x40C1,0x7BE8); (0x40C2,0x7BF9); (0x40C3,0x7BD4); (0x40C4,0x7BEA); (0x40C5,0x7BE2); (0x40C6,0x7BDC); (0x40C7,0x7BEB);
  (0x40C8,0x7BD8); (0x40C9,0x7BDF); (0x40CA,0x7CD2); (0x40CB,0x7CD4); (0x40CC,0x7CD7); (0x40CD,0x7CD0); (0x40CE,0x7CD1); (0x40CF,0x7E12);
  (0x40D0,0x7E21); (0x40D1,0x7E17); (0x40D2,0x7E0C); (0x40D3,0x7E1F); (0x40D4,0x7E20); (0x40D5,0x7E13); (0x40D6,0x7E0E); (0x40D7,0x7E1C);
  (0x40D8,0x7E15); (0x40D9,0x7E1A); (0x40DA,0x7E22); (0x40DB,0x7E0B); (0x40DC,0x7E0F); (0x40DD,0x7E16); (0x40DE,0x7E0D); (0x40DF,0x7E14);
  (0x40E0,0x7E25); (0x40E1,0x7E24); (0x40E2,0x7F43); (0x40E3,0x7F7B); (0x40E4,0x7F7C); (0x40E5,0x7F7A); (0x40E6,0x7FB1); (0x40E7,0x7FEF);
  (0x40E8,0x802A); (0x40E9,0x8029); (0x40EA,0x806C); (0x40EB,0x81B1); (0x40EC,0x81A6); (0x40ED,0x81AE); (0x40EE,0x81B9); (0x40EF,0x81B5);
  (0x40F0,0x81AB); (0x40F1,0x81B0); (0x40F2,0x81AC); (0x40F3,0x81B4); (0x40F4,0x81B2); (0x40F5,0x81B7); (0x40F6,0x81A7); (0x40F7,0x81F2);
  (0x40F8,0x8255); (0x40F9,0x8256); (0x40FA,0x8257); (0x40FB,0x8556); (0x40FC,0x8545); (0x40FD,0x856B); (0x40FE,0x854D); (0x40FF,0x8553);
  (0x4100,0x8561); (0x4101,0x8558); (0x4102,0x8540); (0x4103,0x8546); (0x4104,0x8564); (0x4105,0x8541); (0x4106,0x8562); (0x4107,0x8544);
  (0x4108,0x8551); (0x4109,0x8547); (0x410A,0x8563); (0x410B,0x853E); (0x410C,0x855B); (0x410D,0x8571); (0x410E,0x854E); (0x410F,0x856E);
  (0x4110,0x8575); (0x4111,0x8555); (0x4112,0x8567); (0x4113,0x8560); (0x4114,0x858C); (0x4115,0x8566); (0x4116,0x855D); (0x4117,0x8554);
  (0x4118,0x8565); (0x4119,0x856C); (0x411A,0x8663); (0x411B,0x8665); (0x411C,0x8664); (0x411D,0x879B); (0x411E,0x878F); (0x411F,0x8797);
  (0x4120,0x8793); (0x4121,0x8792); (0x4122,0x8788); (0x4123,0x8781); (0x4124,0x8796); (0x4125,0x8798); (0x4126,0x8779); (0x4127,0x8787);
  (0x4128,0x87A3); (0x4129,0x8785); (0x412A,0x8790); (0x412B,0x8791); (0x412C,0x879D); (0x412D,0x8784); (0x412E,0x8794); (0x412F,0x879C);
  (0x4130,0x879A); (0x4131,0x8789); (0x4132,0x891E); (0x4133,0x8926); (0x4134,0x8930); (0x4135,0x892D); (0x4136,0x892E); (0x4137,0x8927);
  (0x4138,0x8931); (0x4139,0x8922); (0x413A,0x8929); (0x413B,0x8923); (0x413C,0x892F); (0x413D,0x892C); (0x413E,0x891F); (0x413F,0x89F1);
  (0x4140,0x8AE0); (0x4141,0x8AE2); (0x4142,0x8AF2); (0x4143,0x8AF4); (0x4144,0x8AF5); (0x4145,0x8ADD); (0x4146,0x8B14); (0x4147,0x8AE4);
  (0x4148,0x8ADF); (0x4149,0x8AF0); (0x414A,0x8AC8); (0x414B,0x8ADE); (0x414C,0x8AE1); (0x414D,0x8AE8); (0x414E,0x8AFF); (0x414F,0x8AEF);
  (0x4150,0x8AFB); (0x4151,0x8C91); (0x4152,0x8C92); (0x4153,0x8C90); (0x4154,0x8CF5); (0x4155,0x8CEE); (0x4156,0x8CF1); (0x4157,0x8CF0);
  (0x4158,0x8CF3); (0x4159,0x8D6C); (0x415A,0x8D6E); (0x415B,0x8DA5); (0x415C,0x8DA7); (0x415D,0x8E33); (0x415E,0x8E3E); (0x415F,0x8E38);
  (0x4160,0x8E40); (0x4161,0x8E45); (0x4162,0x8E36); (0x4163,0x8E3C); (0x4164,0x8E3D); (0x4165,0x8E41); (0x4166,0x8E30); (0x4167,0x8E3F);
  (0x4168,0x8EBD); (0x4169,0x8F36); (0x416A,0x8F2E); (0x416B,0x8F35); (0x416C,0x8F32); (0x416D,0x8F39); (0x416E,0x8F37); (0x416F,0x8F34);
  (0x4170,0x9076); (0x4171,0x9079); (0x4172,0x907B); (0x4173,0x9086); (0x4174,0x90FA); (0x4175,0x9133); (0x4176,0x9135); (0x4177,0x9136);
  (0x4178,0x9193); (0x4179,0x9190); (0x417A,0x9191); (0x417B,0x918D); (0x417C,0x918F); (0x417D,0x9327); (0x417E,0x931E); (0x417F,0x9308);
  (0x4180,0x931F); (0x4181,0x9306); (0x4182,0x930F); (0x4183,0x937A); (0x4184,0x9338); (0x4185,0x933C); (0x4186,0x931B); (0x4187,0x9323);
  (0x4188,0x9312); (0x4189,0x9301); (0x418A,0x9346); (0x418B,0x932D); (0x418C,0x930E); (0x418D,0x930D); (0x418E,0x92CB); (0x418F,0x931D);
  (0x4190,0x92FA); (0x4191,0x9325); (0x4192,0x9313); (0x4193,0x92F9); (0x4194,0x92F7); (0x4195,0x9334); (0x4196,0x9302); (0x4197,0x9324);
  (0x4198,0x92FF); (0x4199,0x9329); (0x419A,0x9339); (0x419B,0x9335); (0x419C,0x932A); (0x419D,0x9314); (0x419E,0x930C); (0x419F,0x930B);
  (0x41A0,0x92FE); (0x41A1,0x9309); (0x41A2,0x9300); (0x41A3,0x92FB); (0x41A4,0x9316); (0x41A5,0x95BC); (0x41A6,0x95CD); (0x41A7,0x95BE)
].
(* encoding_tables/whatwg/index-big5.txt (pointer, code point), entries 15616..15871 *)
Definition big5_index_61 : list (N * N) := [
  (0x41A8,0x95B9); (0x41A9,0x95BA); (0x41AA,0x95B6); (0x41AB,0x95BF); (0x41AC,0x95B5); (0x41AD,0x95BD); (0x41AE,0x96A9); (0x41AF,0x96D4);
  (0x41B0,0x970B); (0x41B1,0x9712); (0x41B2,0x9710); (0x41B3,0x9799); (0x41B4,0x9797); (0x41B5,0x9794); (0x41B6,0x97F0); (0x41B7,0x97F8);
  (0x41B8,0x9835); (0x41B9,0x982F); (0x41BA,0x9832); (0x41BB,0x9924); (0x41BC,0x991F); (0x41BD,0x9927); (0x41BE,0x9929); (0x41BF,0x999E);
  (0x41C0,0x99EE); (0x41C1,0x99EC); (0x41C2,0x99E5); (0x41C3,0x99E4); (0x41C4,0x99F0); (0x41C5,0x99E3); (0x41C6,0x99EA); (0x41C7,0x99E9);
  (0x41C8,0x99E7); (0x41C9,0x9AB9); (0x41CA,0x9ABF); (0x41CB,0x9AB4); (0x41CC,0x9ABB); (0x41CD,0x9AF6); (0x41CE,0x9AFA); (0x41CF,0x9AF9);
  (0x41D0,0x9AF7); (0x41D1,0x9B33); (0x41D2,0x9B80); (0x41D3,0x9B85); (0x41D4,0x9B87); (0x41D5,0x9B7C); (0x41D6,0x9B7E); (0x41D7,0x9B7B);
  (0x41D8,0x9B82); (0x41D9,0x9B93); (0x41DA,0x9B92); (0x41DB,0x9B90); (0x41DC,0x9B7A); (0x41DD,0x9B95); (0x41DE,0x9B7D); (0x41DF,0x9B88);
  (0x41E0,0x9D25); (0x41E1,0x9D17); (0x41E2,0x9D20); (0x41E3,0x9D1E); (0x41E4,0x9D14); (0x41E5,0x9D29); (0x41E6,0x9D1D); (0x41E7,0x9D18);
  (0x41E8,0x9D22); (0x41E9,0x9D10); (0x41EA,0x9D19); (0x41EB,0x9D1F); (0x41EC,0x9E88); (0x41ED,0x9E86); (0x41EE,0x9E87); (0x41EF,0x9EAE);
  (0x41F0,0x9EAD); (0x41F1,0x9ED5); (0x41F2,0x9ED6); (0x41F3,0x9EFA); (0x41F4,0x9F12); (0x41F5,0x9F3D); (0x41F6,0x5126); (0x41F7,0x5125);
  (0x41F8,0x5122); (0x41F9,0x5124); (0x41FA,0x5120); (0x41FB,0x5129); (0x41FC,0x52F4); (0x41FD,0x5693); (0x41FE,0x568C); (0x41FF,0x568D);
  (0x4200,0x5686); (0x4201,0x5684); (0x4202,0x5683); (0x4203,0x567E); (0x4204,0x5682); (0x4205,0x567F); (0x4206,0x5681); (0x4207,0x58D6);
  (0x4208,0x58D4); (0x4209,0x58CF); (0x420A,0x58D2); (0x420B,0x5B2D); (0x420C,0x5B25); (0x420D,0x5B32); (0x420E,0x5B23); (0x420F,0x5B2C);
  (0x4210,0x5B27); (0x4211,0x5B26); (0x4212,0x5B2F); (0x4213,0x5B2E); (0x4214,0x5B7B); (0x4215,0x5BF1); (0x4216,0x5BF2); (0x4217,0x5DB7);
  (0x4218,0x5E6C); (0x4219,0x5E6A); (0x421A,0x5FBE); (0x421B,0x5FBB); (0x421C,0x61C3); (0x421D,0x61B5); (0x421E,0x61BC); (0x421F,0x61E7);
  (0x4220,0x61E0); (0x4221,0x61E5); (0x4222,0x61E4); (0x4223,0x61E8); (0x4224,0x61DE); (0x4225,0x64EF); (0x4226,0x64E9); (0x4227,0x64E3);
  (0x4228,0x64EB); (0x4229,0x64E4); (0x422A,0x64E8); (0x422B,0x6581); (0x422C,0x6580); (0x422D,0x65B6); (0x422E,0x65DA); (0x422F,0x66D2);
  (0x4230,0x6A8D); (0x4231,0x6A96); (0x4232,0x6A81); (0x4233,0x6AA5); (0x4234,0x6A89); (0x4235,0x6A9F); (0x4236,0x6A9B); (0x4237,0x6AA1);
  (0x4238,0x6A9E); (0x4239,0x6A87); (0x423A,0x6A93); (0x423B,0x6A8E); (0x423C,0x6A95); (0x423D,0x6A83); (0x423E,0x6AA8); (0x423F,0x6AA4);
  (0x4240,0x6A91); (0x4241,0x6A7F); (0x4242,0x6AA6); (0x4243,0x6A9A); (0x4244,0x6A85); (0x4245,0x6A8C); (0x4246,0x6A92); (0x4247,0x6B5B);
  (0x4248,0x6BAD); (0x4249,0x6C09); (0x424A,0x6FCC); (0x424B,0x6FA9); (0x424C,0x6FF4); (0x424D,0x6FD4); (0x424E,0x6FE3); (0x424F,0x6FDC);
  (0x4250,0x6FED); (0x4251,0x6FE7); (0x4252,0x6FE6); (0x4253,0x6FDE); (0x4254,0x6FF2); (0x4255,0x6FDD); (0x4256,0x6FE2); (0x4257,0x6FE8);
  (0x4258,0x71E1); (0x4259,0x71F1); (0x425A,0x71E8); (0x425B,0x71F2); (0x425C,0x71E4); (0x425D,0x71F0); (0x425E,0x71E2); (0x425F,0x7373);
  (0x4260,0x736E); (0x4261,0x736F); (0x4262,0x7497); (0x4263,0x74B2); (0x4264,0x74AB); (0x4265,0x7490); (0x4266,0x74AA); (0x4267,0x74AD);
  (0x4268,0x74B1); (0x4269,0x74A5); (0x426A,0x74AF); (0x426B,0x7510); (0x426C,0x7511); (0x426D,0x7512); (0x426E,0x750F); (0x426F,0x7584);
  (0x4270,0x7643); (0x4271,0x7648); (0x4272,0x7649); (0x4273,0x7647); (0x4274,0x76A4); (0x4275,0x76E9); (0x4276,0x77B5); (0x4277,0x77AB);
  (0x4278,0x77B2); (0x4279,0x77B7); (0x427A,0x77B6); (0x427B,0x77B4); (0x427C,0x77B1); (0x427D,0x77A8); (0x427E,0x77F0); (0x427F,0x78F3);
  (0x4280,0x78FD); (0x4281,0x7902); (0x4282,0x78FB); (0x4283,0x78FC); (0x4284,0x78F2); (0x4285,0x7905); (0x4286,0x78F9); (0x4287,0x78FE);
  (0x4288,0x7904); (0x4289,0x79AB); (0x428A,0x79A8); (0x428B,0x7A5C); (0x428C,0x7A5B); (0x428D,0x7A56); (0x428E,0x7A58); (0x428F,0x7A54);
  (0x4290,0x7A5A); (0x4291,0x7ABE); (0x4292,0x7AC0); (0x4293,0x7AC1); (0x4294,0x7C05); (0x4295,0x7C0F); (0x4296,0x7BF2); (0x4297,0x7C00);
  (0x4298,0x7BFF); (0x4299,0x7BFB); (0x429A,0x7C0E); (0x429B,0x7BF4); (0x429C,0x7C0B); (0x429D,0x7BF3); (0x429E,0x7C02); (0x429F,0x7C09);
  (0x42A0,0x7C03); (0x42A1,0x7C01); (0x42A2,0x7BF8); (0x42A3,0x7BFD); (0x42A4,0x7C06); (0x42A5,0x7BF0); (0x42A6,0x7BF1); (0x42A7,0x7C10)
].
(* encoding_tables/whatwg/index-big5.txt (pointer, code point), entries 15872..16127 *)
Definition big5_index_62 : list (N * N) := [
  (0x42A8,0x7C0A); (0x42A9,0x7CE8); (0x42AA,0x7E2D); (0x42AB,0x7E3C); (0x42AC,0x7E42); (0x42AD,0x7E33); (0x42AE,0x9848); (0x42AF,0x7E38);
  (0x42B0,0x7E2A); (0x42B1,0x7E49); (0x42B2,0x7E40); (0x42B3,0x7E47); (0x42B4,0x7E29); (0x42B5,0x7E4C); (0x42B6,0x7E30); (0x42B7,0x7E3B);
  (0x42B8,0x7E36); (0x42B9,0x7E44); (0x42BA,0x7E3A); (0x42BB,0x7F45); (0x42BC,0x7F7F); (0x42BD,0x7F7E); (0x42BE,0x7F7D); (0x42BF,0x7FF4);
  (0x42C0,0x7FF2); (0x42C1,0x802C); (0x42C2,0x81BB); (0x42C3,0x81C4); (0x42C4,0x81CC); (0x42C5,0x81CA); (0x42C6,0x81C5); (0x42C7,0x81C7);
  (0x42C8,0x81BC); (0x42C9,0x81E9); (0x42CA,0x825B); (0x42CB,0x825A); (0x42CC,0x825C); (0x42CD,0x8583); (0x42CE,0x8580); (0x42CF,0x858F);
  (0x42D0,0x85A7); (0x42D1,0x8595); (0x42D2,0x85A0); (0x42D3,0x858B); (0x42D4,0x85A3); (0x42D5,0x857B); (0x42D6,0x85A4); (0x42D7,0x859A);
  (0x42D8,0x859E); (0x42D9,0x8577); (0x42DA,0x857C); (0x42DB,0x8589); (0x42DC,0x85A1); (0x42DD,0x857A); (0x42DE,0x8578); (0x42DF,0x8557);
  (0x42E0,0x858E); (0x42E1,0x8596); (0x42E2,0x8586); (0x42E3,0x858D); (0x42E4,0x8599); (0x42E5,0x859D); (0x42E6,0x8581); (0x42E7,0x85A2);
  (0x42E8,0x8582); (0x42E9,0x8588); (0x42EA,0x8585); (0x42EB,0x8579); (0x42EC,0x8576); (0x42ED,0x8598); (0x42EE,0x8590); (0x42EF,0x859F);
  (0x42F0,0x8668); (0x42F1,0x87BE); (0x42F2,0x87AA); (0x42F3,0x87AD); (0x42F4,0x87C5); (0x42F5,0x87B0); (0x42F6,0x87AC); (0x42F7,0x87B9);
  (0x42F8,0x87B5); (0x42F9,0x87BC); (0x42FA,0x87AE); (0x42FB,0x87C9); (0x42FC,0x87C3); (0x42FD,0x87C2); (0x42FE,0x87CC); (0x42FF,0x87B7);
  (0x4300,0x87AF); (0x4301,0x87C4); (0x4302,0x87CA); (0x4303,0x87B4); (0x4304,0x87B6); (0x4305,0x87BF); (0x4306,0x87B8); (0x4307,0x87BD);
  (0x4308,0x87DE); (0x4309,0x87B2); (0x430A,0x8935); (0x430B,0x8933); (0x430C,0x893C); (0x430D,0x893E); (0x430E,0x8941); (0x430F,0x8952);
  (0x4310,0x8937); (0x4311,0x8942); (0x4312,0x89AD); (0x4313,0x89AF); (0x4314,0x89AE); (0x4315,0x89F2); (0x4316,0x89F3); (0x4317,0x8B1E);
  (0x4318,0x8B18); (0x4319,0x8B16); (0x431A,0x8B11); (0x431B,0x8B05); (0x431C,0x8B0B); (0x431D,0x8B22); (0x431E,0x8B0F); (0x431F,0x8B12);
  (0x4320,0x8B15); (0x4321,0x8B07); (0x4322,0x8B0D); (0x4323,0x8B08); (0x4324,0x8B06); (0x4325,0x8B1C); (0x4326,0x8B13); (0x4327,0x8B1A);
  (0x4328,0x8C4F); (0x4329,0x8C70); (0x432A,0x8C72); (0x432B,0x8C71); (0x432C,0x8C6F); (0x432D,0x8C95); (0x432E,0x8C94); (0x432F,0x8CF9);
  (0x4330,0x8D6F); (0x4331,0x8E4E); (0x4332,0x8E4D); (0x4333,0x8E53); (0x4334,0x8E50); (0x4335,0x8E4C); (0x4336,0x8E47); (0x4337,0x8F43);
  (0x4338,0x8F40); (0x4339,0x9085); (0x433A,0x907E); (0x433B,0x9138); (0x433C,0x919A); (0x433D,0x91A2); (0x433E,0x919B); (0x433F,0x9199);
  (0x4340,0x919F); (0x4341,0x91A1); (0x4342,0x919D); (0x4343,0x91A0); (0x4344,0x93A1); (0x4345,0x9383); (0x4346,0x93AF); (0x4347,0x9364);
  (0x4348,0x9356); (0x4349,0x9347); (0x434A,0x937C); (0x434B,0x9358); (0x434C,0x935C); (0x434D,0x9376); (0x434E,0x9349); (0x434F,0x9350);
  (0x4350,0x9351); (0x4351,0x9360); (0x4352,0x936D); (0x4353,0x938F); (0x4354,0x934C); (0x4355,0x936A); (0x4356,0x9379); (0x4357,0x9357);
  (0x4358,0x9355); (0x4359,0x9352); (0x435A,0x934F); (0x435B,0x9371); (0x435C,0x9377); (0x435D,0x937B); (0x435E,0x9361); (0x435F,0x935E);
  (0x4360,0x9363); (0x4361,0x9367); (0x4362,0x9380); (0x4363,0x934E); (0x4364,0x9359); (0x4365,0x95C7); (0x4366,0x95C0); (0x4367,0x95C9);
  (0x4368,0x95C3); (0x4369,0x95C5); (0x436A,0x95B7); (0x436B,0x96AE); (0x436C,0x96B0); (0x436D,0x96AC); (0x436E,0x9720); (0x436F,0x971F);
  (0x4370,0x9718); (0x4371,0x971D); (0x4372,0x9719); (0x4373,0x979A); (0x4374,0x97A1); (0x4375,0x979C); (0x4376,0x979E); (0x4377,0x979D);
  (0x4378,0x97D5); (0x4379,0x97D4); (0x437A,0x97F1); (0x437B,0x9841); (0x437C,0x9844); (0x437D,0x984A); (0x437E,0x9849); (0x437F,0x9845);
  (0x4380,0x9843); (0x4381,0x9925); (0x4382,0x992B); (0x4383,0x992C); (0x4384,0x992A); (0x4385,0x9933); (0x4386,0x9932); (0x4387,0x992F);
  (0x4388,0x992D); (0x4389,0x9931); (0x438A,0x9930); (0x438B,0x9998); (0x438C,0x99A3); (0x438D,0x99A1); (0x438E,0x9A02); (0x438F,0x99FA);
  (0x4390,0x99F4); (0x4391,0x99F7); (0x4392,0x99F9); (0x4393,0x99F8); (0x4394,0x99F6); (0x4395,0x99FB); (0x4396,0x99FD); (0x4397,0x99FE);
  (0x4398,0x99FC); (0x4399,0x9A03); (0x439A,0x9ABE); (0x439B,0x9AFE); (0x439C,0x9AFD); (0x439D,0x9B01); (0x439E,0x9AFC); (0x439F,0x9B48);
  (0x43A0,0x9B9A); (0x43A1,0x9BA8); (0x43A2,0x9B9E); (0x43A3,0x9B9B); (0x43A4,0x9BA6); (0x43A5,0x9BA1); (0x43A6,0x9BA5); (0x43A7,0x9BA4)
].
(* encoding_tables/whatwg/index-big5.txt (pointer, code point), entries 16128..16383 *)
Definition big5_index_63 : list (N * N) := [
  (0x43A8,0x9B86); (0x43A9,0x9BA2); (0x43AA,0x9BA0); (0x43AB,0x9BAF); (0x43AC,0x9D33); (0x43AD,0x9D41); (0x43AE,0x9D67); (0x43AF,0x9D36);
  (0x43B0,0x9D2E); (0x43B1,0x9D2F); (0x43B2,0x9D31); (0x43B3,0x9D38); (0x43B4,0x9D30); (0x43B5,0x9D45); (0x43B6,0x9D42); (0x43B7,0x9D43);
  (0x43B8,0x9D3E); (0x43B9,0x9D37); (0x43BA,0x9D40); (0x43BB,0x9D3D); (0x43BC,0x7FF5); (0x43BD,0x9D2D); (0x43BE,0x9E8A); (0x43BF,0x9E89);
  (0x43C0,0x9E8D); (0x43C1,0x9EB0); (0x43C2,0x9EC8); (0x43C3,0x9EDA); (0x43C4,0x9EFB); (0x43C5,0x9EFF); (0x43C6,0x9F24); (0x43C7,0x9F23);
  (0x43C8,0x9F22); (0x43C9,0x9F54); (0x43CA,0x9FA0); (0x43CB,0x5131); (0x43CC,0x512D); (0x43CD,0x512E); (0x43CE,0x5698); (0x43CF,0x569C);
  (0x43D0,0x5697); (0x43D1,0x569A); (0x43D2,0x569D); (0x43D3,0x5699); (0x43D4,0x5970); (0x43D5,0x5B3C); (0x43D6,0x5C69); (0x43D7,0x5C6A);
  (0x43D8,0x5DC0); (0x43D9,0x5E6D); (0x43DA,0x5E6E); (0x43DB,0x61D8); (0x43DC,0x61DF); (0x43DD,0x61ED); (0x43DE,0x61EE); (0x43DF,0x61F1);
  (0x43E0,0x61EA); (0x43E1,0x61F0); (0x43E2,0x61EB); (0x43E3,0x61D6); (0x43E4,0x61E9); (0x43E5,0x64FF); (0x43E6,0x6504); (0x43E7,0x64FD);
  (0x43E8,0x64F8); (0x43E9,0x6501); (0x43EA,0x6503); (0x43EB,0x64FC); (0x43EC,0x6594); (0x43ED,0x65DB); (0x43EE,0x66DA); (0x43EF,0x66DB);
  (0x43F0,0x66D8); (0x43F1,0x6AC5); (0x43F2,0x6AB9); (0x43F3,0x6ABD); (0x43F4,0x6AE1); (0x43F5,0x6AC6); (0x43F6,0x6ABA); (0x43F7,0x6AB6);
  (0x43F8,0x6AB7); (0x43F9,0x6AC7); (0x43FA,0x6AB4); (0x43FB,0x6AAD); (0x43FC,0x6B5E); (0x43FD,0x6BC9); (0x43FE,0x6C0B); (0x43FF,0x7007);
  (0x4400,0x700C); (0x4401,0x700D); (0x4402,0x7001); (0x4403,0x7005); (0x4404,0x7014); (0x4405,0x700E); (0x4406,0x6FFF); (0x4407,0x7000);
  (0x4408,0x6FFB); (0x4409,0x7026); (0x440A,0x6FFC); (0x440B,0x6FF7); (0x440C,0x700A); (0x440D,0x7201); (0x440E,0x71FF); (0x440F,0x71F9);
  (0x4410,0x7203); (0x4411,0x71FD); (0x4412,0x7376); (0x4413,0x74B8); (0x4414,0x74C0); (0x4415,0x74B5); (0x4416,0x74C1); (0x4417,0x74BE);
  (0x4418,0x74B6); (0x4419,0x74BB); (0x441A,0x74C2); (0x441B,0x7514); (0x441C,0x7513); (0x441D,0x765C); (0x441E,0x7664); (0x441F,0x7659);
  (0x4420,0x7650); (0x4421,0x7653); (0x4422,0x7657); (0x4423,0x765A); (0x4424,0x76A6); (0x4425,0x76BD); (0x4426,0x76EC); (0x4427,0x77C2);
  (0x4428,0x77BA); (0x4429,0x78FF); (0x442A,0x790C); (0x442B,0x7913); (0x442C,0x7914); (0x442D,0x7909); (0x442E,0x7910); (0x442F,0x7912);
  (0x4430,0x7911); (0x4431,0x79AD); (0x4432,0x79AC); (0x4433,0x7A5F); (0x4434,0x7C1C); (0x4435,0x7C29); (0x4436,0x7C19); (0x4437,0x7C20);
  (0x4438,0x7C1F); (0x4439,0x7C2D); (0x443A,0x7C1D); (0x443B,0x7C26); (0x443C,0x7C28); (0x443D,0x7C22); (0x443E,0x7C25); (0x443F,0x7C30);
  (0x4440,0x7E5C); (0x4441,0x7E50); (0x4442,0x7E56); (0x4443,0x7E63); (0x4444,0x7E58); (0x4445,0x7E62); (0x4446,0x7E5F); (0x4447,0x7E51);
  (0x4448,0x7E60); (0x4449,0x7E57); (0x444A,0x7E53); (0x444B,0x7FB5); (0x444C,0x7FB3); (0x444D,0x7FF7); (0x444E,0x7FF8); (0x444F,0x8075);
  (0x4450,0x81D1); (0x4451,0x81D2); (0x4452,0x81D0); (0x4453,0x825F); (0x4454,0x825E); (0x4455,0x85B4); (0x4456,0x85C6); (0x4457,0x85C0);
  (0x4458,0x85C3); (0x4459,0x85C2); (0x445A,0x85B3); (0x445B,0x85B5); (0x445C,0x85BD); (0x445D,0x85C7); (0x445E,0x85C4); (0x445F,0x85BF);
  (0x4460,0x85CB); (0x4461,0x85CE); (0x4462,0x85C8); (0x4463,0x85C5); (0x4464,0x85B1); (0x4465,0x85B6); (0x4466,0x85D2); (0x4467,0x8624);
  (0x4468,0x85B8); (0x4469,0x85B7); (0x446A,0x85BE); (0x446B,0x8669); (0x446C,0x87E7); (0x446D,0x87E6); (0x446E,0x87E2); (0x446F,0x87DB);
  (0x4470,0x87EB); (0x4471,0x87EA); (0x4472,0x87E5); (0x4473,0x87DF); (0x4474,0x87F3); (0x4475,0x87E4); (0x4476,0x87D4); (0x4477,0x87DC);
  (0x4478,0x87D3); (0x4479,0x87ED); (0x447A,0x87D8); (0x447B,0x87E3); (0x447C,0x87A4); (0x447D,0x87D7); (0x447E,0x87D9); (0x447F,0x8801);
  (0x4480,0x87F4); (0x4481,0x87E8); (0x4482,0x87DD); (0x4483,0x8953); (0x4484,0x894B); (0x4485,0x894F); (0x4486,0x894C); (0x4487,0x8946);
  (0x4488,0x8950); (0x4489,0x8951); (0x448A,0x8949); (0x448B,0x8B2A); (0x448C,0x8B27); (0x448D,0x8B23); (0x448E,0x8B33); (0x448F,0x8B30);
  (0x4490,0x8B35); (0x4491,0x8B47); (0x4492,0x8B2F); (0x4493,0x8B3C); (0x4494,0x8B3E); (0x4495,0x8B31); (0x4496,0x8B25); (0x4497,0x8B37);
  (0x4498,0x8B26); (0x4499,0x8B36); (0x449A,0x8B2E); (0x449B,0x8B24); (0x449C,0x8B3B); (0x449D,0x8B3D); (0x449E,0x8B3A); (0x449F,0x8C42);
  (0x44A0,0x8C75); (0x44A1,0x8C99); (0x44A2,0x8C98); (0x44A3,0x8C97); (0x44A4,0x8CFE); (0x44A5,0x8D04); (0x44A6,0x8D02); (0x44A7,0x8D00)
].
(* encoding_tables/whatwg/index-big5.txt (pointer, code point), entries 16384..16639 *)
Definition big5_index_64 : list (N * N) := [
  (0x44A8,0x8E5C); (0x44A9,0x8E62); (0x44AA,0x8E60); (0x44AB,0x8E57); (0x44AC,0x8E56); (0x44AD,0x8E5E); (0x44AE,0x8E65); (0x44AF,0x8E67);
  (0x44B0,0x8E5B); (0x44B1,0x8E5A); (0x44B2,0x8E61); (0x44B3,0x8E5D); (0x44B4,0x8E69); (0x44B5,0x8E54); (0x44B6,0x8F46); (0x44B7,0x8F47);
  (0x44B8,0x8F48); (0x44B9,0x8F4B); (0x44BA,0x9128); (0x44BB,0x913A); (0x44BC,0x913B); (0x44BD,0x913E); (0x44BE,0x91A8); (0x44BF,0x91A5);
  (0x44C0,0x91A7); (0x44C1,0x91AF); (0x44C2,0x91AA); (0x44C3,0x93B5); (0x44C4,0x938C); (0x44C5,0x9392); (0x44C6,0x93B7); (0x44C7,0x939B);
  (0x44C8,0x939D); (0x44C9,0x9389); (0x44CA,0x93A7); (0x44CB,0x938E); (0x44CC,0x93AA); (0x44CD,0x939E); (0x44CE,0x93A6); (0x44CF,0x9395);
  (0x44D0,0x9388); (0x44D1,0x9399); (0x44D2,0x939F); (0x44D3,0x938D); (0x44D4,0x93B1); (0x44D5,0x9391); (0x44D6,0x93B2); (0x44D7,0x93A4);
  (0x44D8,0x93A8); (0x44D9,0x93B4); (0x44DA,0x93A3); (0x44DB,0x93A5); (0x44DC,0x95D2); (0x44DD,0x95D3); (0x44DE,0x95D1); (0x44DF,0x96B3);
  (0x44E0,0x96D7); (0x44E1,0x96DA); (0x44E2,0x5DC2); (0x44E3,0x96DF); (0x44E4,0x96D8); (0x44E5,0x96DD); (0x44E6,0x9723); (0x44E7,0x9722);
  (0x44E8,0x9725); (0x44E9,0x97AC); (0x44EA,0x97AE); (0x44EB,0x97A8); (0x44EC,0x97AB); (0x44ED,0x97A4); (0x44EE,0x97AA); (0x44EF,0x97A2);
  (0x44F0,0x97A5); (0x44F1,0x97D7); (0x44F2,0x97D9); (0x44F3,0x97D6); (0x44F4,0x97D8); (0x44F5,0x97FA); (0x44F6,0x9850); (0x44F7,0x9851);
  (0x44F8,0x9852); (0x44F9,0x98B8); (0x44FA,0x9941); (0x44FB,0x993C); (0x44FC,0x993A); (0x44FD,0x9A0F); (0x44FE,0x9A0B); (0x44FF,0x9A09);
  (0x4500,0x9A0D); (0x4501,0x9A04); (0x4502,0x9A11); (0x4503,0x9A0A); (0x4504,0x9A05); (0x4505,0x9A07); (0x4506,0x9A06); (0x4507,0x9AC0);
  (0x4508,0x9ADC); (0x4509,0x9B08); (0x450A,0x9B04); (0x450B,0x9B05); (0x450C,0x9B29); (0x450D,0x9B35); (0x450E,0x9B4A); (0x450F,0x9B4C);
  (0x4510,0x9B4B); (0x4511,0x9BC7); (0x4512,0x9BC6); (0x4513,0x9BC3); (0x4514,0x9BBF); (0x4515,0x9BC1); (0x4516,0x9BB5); (0x4517,0x9BB8);
  (0x4518,0x9BD3); (0x4519,0x9BB6); (0x451A,0x9BC4); (0x451B,0x9BB9); (0x451C,0x9BBD); (0x451D,0x9D5C); (0x451E,0x9D53); (0x451F,0x9D4F);
  (0x4520,0x9D4A); (0x4521,0x9D5B); (0x4522,0x9D4B); (0x4523,0x9D59); (0x4524,0x9D56); (0x4525,0x9D4C); (0x4526,0x9D57); (0x4527,0x9D52);
  (0x4528,0x9D54); (0x4529,0x9D5F); (0x452A,0x9D58); (0x452B,0x9D5A); (0x452C,0x9E8E); (0x452D,0x9E8C); (0x452E,0x9EDF); (0x452F,0x9F01);
  (0x4530,0x9F00); (0x4531,0x9F16); (0x4532,0x9F25); (0x4533,0x9F2B); (0x4534,0x9F2A); (0x4535,0x9F29); (0x4536,0x9F28); (0x4537,0x9F4C);
  (0x4538,0x9F55); (0x4539,0x5134); (0x453A,0x5135); (0x453B,0x5296); (0x453C,0x52F7); (0x453D,0x53B4); (0x453E,0x56AB); (0x453F,0x56AD);
  (0x4540,0x56A6); (0x4541,0x56A7); (0x4542,0x56AA); (0x4543,0x56AC); (0x4544,0x58DA); (0x4545,0x58DD); (0x4546,0x58DB); (0x4547,0x5912);
  (0x4548,0x5B3D); (0x4549,0x5B3E); (0x454A,0x5B3F); (0x454B,0x5DC3); (0x454C,0x5E70); (0x454D,0x5FBF); (0x454E,0x61FB); (0x454F,0x6507);
  (0x4550,0x6510); (0x4551,0x650D); (0x4552,0x6509); (0x4553,0x650C); (0x4554,0x650E); (0x4555,0x6584); (0x4556,0x65DE); (0x4557,0x65DD);
  (0x4558,0x66DE); (0x4559,0x6AE7); (0x455A,0x6AE0); (0x455B,0x6ACC); (0x455C,0x6AD1); (0x455D,0x6AD9); (0x455E,0x6ACB); (0x455F,0x6ADF);
  (0x4560,0x6ADC); (0x4561,0x6AD0); (0x4562,0x6AEB); (0x4563,0x6ACF); (0x4564,0x6ACD); (0x4565,0x6ADE); (0x4566,0x6B60); (0x4567,0x6BB0);
  (0x4568,0x6C0C); (0x4569,0x7019); (0x456A,0x7027); (0x456B,0x7020); (0x456C,0x7016); (0x456D,0x702B); (0x456E,0x7021); (0x456F,0x7022);
  (0x4570,0x7023); (0x4571,0x7029); (0x4572,0x7017); (0x4573,0x7024); (0x4574,0x701C); (0x4575,0x702A); (0x4576,0x720C); (0x4577,0x720A);
  (0x4578,0x7207); (0x4579,0x7202); (0x457A,0x7205); (0x457B,0x72A5); (0x457C,0x72A6); (0x457D,0x72A4); (0x457E,0x72A3); (0x457F,0x72A1);
  (0x4580,0x74CB); (0x4581,0x74C5); (0x4582,0x74B7); (0x4583,0x74C3); (0x4584,0x7516); (0x4585,0x7660); (0x4586,0x77C9); (0x4587,0x77CA);
  (0x4588,0x77C4); (0x4589,0x77F1); (0x458A,0x791D); (0x458B,0x791B); (0x458C,0x7921); (0x458D,0x791C); (0x458E,0x7917); (0x458F,0x791E);
  (0x4590,0x79B0); (0x4591,0x7A67); (0x4592,0x7A68); (0x4593,0x7C33); (0x4594,0x7C3C); (0x4595,0x7C39); (0x4596,0x7C2C); (0x4597,0x7C3B);
  (0x4598,0x7CEC); (0x4599,0x7CEA); (0x459A,0x7E76); (0x459B,0x7E75); (0x459C,0x7E78); (0x459D,0x7E70); (0x459E,0x7E77); (0x459F,0x7E6F);
  (0x45A0,0x7E7A); (0x45A1,0x7E72); (0x45A2,0x7E74); (0x45A3,0x7E68); (0x45A4,0x7F4B); (0x45A5,0x7F4A); (0x45A6,0x7F83); (0x45A7,0x7F86)
].
(* encoding_tables/whatwg/index-big5.txt (pointer, code point), entries 16640..16895 *)
Definition big5_index_65 : list (N * N) := [
  (0x45A8,0x7FB7); (0x45A9,0x7FFD); (0x45AA,0x7FFE); (0x45AB,0x8078); (0x45AC,0x81D7); (0x45AD,0x81D5); (0x45AE,0x8264); (0x45AF,0x8261);
  (0x45B0,0x8263); (0x45B1,0x85EB); (0x45B2,0x85F1); (0x45B3,0x85ED); (0x45B4,0x85D9); (0x45B5,0x85E1); (0x45B6,0x85E8); (0x45B7,0x85DA);
  (0x45B8,0x85D7); (0x45B9,0x85EC); (0x45BA,0x85F2); (0x45BB,0x85F8); (0x45BC,0x85D8); (0x45BD,0x85DF); (0x45BE,0x85E3); (0x45BF,0x85DC);
  (0x45C0,0x85D1); (0x45C1,0x85F0); (0x45C2,0x85E6); (0x45C3,0x85EF); (0x45C4,0x85DE); (0x45C5,0x85E2); (0x45C6,0x8800); (0x45C7,0x87FA);
  (0x45C8,0x8803); (0x45C9,0x87F6); (0x45CA,0x87F7); (0x45CB,0x8809); (0x45CC,0x880C); (0x45CD,0x880B); (0x45CE,0x8806); (0x45CF,0x87FC);
  (0x45D0,0x8808); (0x45D1,0x87FF); (0x45D2,0x880A); (0x45D3,0x8802); (0x45D4,0x8962); (0x45D5,0x895A); (0x45D6,0x895B); (0x45D7,0x8957);
  (0x45D8,0x8961); (0x45D9,0x895C); (0x45DA,0x8958); (0x45DB,0x895D); (0x45DC,0x8959); (0x45DD,0x8988); (0x45DE,0x89B7); (0x45DF,0x89B6);
  (0x45E0,0x89F6); (0x45E1,0x8B50); (0x45E2,0x8B48); (0x45E3,0x8B4A); (0x45E4,0x8B40); (0x45E5,0x8B53); (0x45E6,0x8B56); (0x45E7,0x8B54);
  (0x45E8,0x8B4B); (0x45E9,0x8B55); (0x45EA,0x8B51); (0x45EB,0x8B42); (0x45EC,0x8B52); (0x45ED,0x8B57); (0x45EE,0x8C43); (0x45EF,0x8C77);
  (0x45F0,0x8C76); (0x45F1,0x8C9A); (0x45F2,0x8D06); (0x45F3,0x8D07); (0x45F4,0x8D09); (0x45F5,0x8DAC); (0x45F6,0x8DAA); (0x45F7,0x8DAD);
  (0x45F8,0x8DAB); (0x45F9,0x8E6D); (0x45FA,0x8E78); (0x45FB,0x8E73); (0x45FC,0x8E6A); (0x45FD,0x8E6F); (0x45FE,0x8E7B); (0x45FF,0x8EC2);
  (0x4600,0x8F52); (0x4601,0x8F51); (0x4602,0x8F4F); (0x4603,0x8F50); (0x4604,0x8F53); (0x4605,0x8FB4); (0x4606,0x9140); (0x4607,0x913F);
  (0x4608,0x91B0); (0x4609,0x91AD); (0x460A,0x93DE); (0x460B,0x93C7); (0x460C,0x93CF); (0x460D,0x93C2); (0x460E,0x93DA); (0x460F,0x93D0);
  (0x4610,0x93F9); (0x4611,0x93EC); (0x4612,0x93CC); (0x4613,0x93D9); (0x4614,0x93A9); (0x4615,0x93E6); (0x4616,0x93CA); (0x4617,0x93D4);
  (0x4618,0x93EE); (0x4619,0x93E3); (0x461A,0x93D5); (0x461B,0x93C4); (0x461C,0x93CE); (0x461D,0x93C0); (0x461E,0x93D2); (0x461F,0x93E7);
  (0x4620,0x957D); (0x4621,0x95DA); (0x4622,0x95DB); (0x4623,0x96E1); (0x4624,0x9729); (0x4625,0x972B); (0x4626,0x972C); (0x4627,0x9728);
  (0x4628,0x9726); (0x4629,0x97B3); (0x462A,0x97B7); (0x462B,0x97B6); (0x462C,0x97DD); (0x462D,0x97DE); (0x462E,0x97DF); (0x462F,0x985C);
  (0x4630,0x9859); (0x4631,0x985D); (0x4632,0x9857); (0x4633,0x98BF); (0x4634,0x98BD); (0x4635,0x98BB); (0x4636,0x98BE); (0x4637,0x9948);
  (0x4638,0x9947); (0x4639,0x9943); (0x463A,0x99A6); (0x463B,0x99A7); (0x463C,0x9A1A); (0x463D,0x9A15); (0x463E,0x9A25); (0x463F,0x9A1D);
  (0x4640,0x9A24); (0x4641,0x9A1B); (0x4642,0x9A22); (0x4643,0x9A20); (0x4644,0x9A27); (0x4645,0x9A23); (0x4646,0x9A1E); (0x4647,0x9A1C);
  (0x4648,0x9A14); (0x4649,0x9AC2); (0x464A,0x9B0B); (0x464B,0x9B0A); (0x464C,0x9B0E); (0x464D,0x9B0C); (0x464E,0x9B37); (0x464F,0x9BEA);
  (0x4650,0x9BEB); (0x4651,0x9BE0); (0x4652,0x9BDE); (0x4653,0x9BE4); (0x4654,0x9BE6); (0x4655,0x9BE2); (0x4656,0x9BF0); (0x4657,0x9BD4);
  (0x4658,0x9BD7); (0x4659,0x9BEC); (0x465A,0x9BDC); (0x465B,0x9BD9); (0x465C,0x9BE5); (0x465D,0x9BD5); (0x465E,0x9BE1); (0x465F,0x9BDA);
  (0x4660,0x9D77); (0x4661,0x9D81); (0x4662,0x9D8A); (0x4663,0x9D84); (0x4664,0x9D88); (0x4665,0x9D71); (0x4666,0x9D80); (0x4667,0x9D78);
  (0x4668,0x9D86); (0x4669,0x9D8B); (0x466A,0x9D8C); (0x466B,0x9D7D); (0x466C,0x9D6B); (0x466D,0x9D74); (0x466E,0x9D75); (0x466F,0x9D70);
  (0x4670,0x9D69); (0x4671,0x9D85); (0x4672,0x9D73); (0x4673,0x9D7B); (0x4674,0x9D82); (0x4675,0x9D6F); (0x4676,0x9D79); (0x4677,0x9D7F);
  (0x4678,0x9D87); (0x4679,0x9D68); (0x467A,0x9E94); (0x467B,0x9E91); (0x467C,0x9EC0); (0x467D,0x9EFC); (0x467E,0x9F2D); (0x467F,0x9F40);
  (0x4680,0x9F41); (0x4681,0x9F4D); (0x4682,0x9F56); (0x4683,0x9F57); (0x4684,0x9F58); (0x4685,0x5337); (0x4686,0x56B2); (0x4687,0x56B5);
  (0x4688,0x56B3); (0x4689,0x58E3); (0x468A,0x5B45); (0x468B,0x5DC6); (0x468C,0x5DC7); (0x468D,0x5EEE); (0x468E,0x5EEF); (0x468F,0x5FC0);
  (0x4690,0x5FC1); (0x4691,0x61F9); (0x4692,0x6517); (0x4693,0x6516); (0x4694,0x6515); (0x4695,0x6513); (0x4696,0x65DF); (0x4697,0x66E8);
  (0x4698,0x66E3); (0x4699,0x66E4); (0x469A,0x6AF3); (0x469B,0x6AF0); (0x469C,0x6AEA); (0x469D,0x6AE8); (0x469E,0x6AF9); (0x469F,0x6AF1);
  (0x46A0,0x6AEE); (0x46A1,0x6AEF); (0x46A2,0x703C); (0x46A3,0x7035); (0x46A4,0x702F); (0x46A5,0x7037); (0x46A6,0x7034); (0x46A7,0x7031)
].
(* encoding_tables/whatwg/index-big5.txt (pointer, code point), entries 16896..17151 *)
Definition big5_index_66 : list (N * N) := [
  (0x46A8,0x7042); (0x46A9,0x7038); (0x46AA,0x703F); (0x46AB,0x703A); (0x46AC,0x7039); (0x46AD,0x7040); (0x46AE,0x703B); (0x46AF,0x7033);
  (0x46B0,0x7041); (0x46B1,0x7213); (0x46B2,0x7214); (0x46B3,0x72A8); (0x46B4,0x737D); (0x46B5,0x737C); (0x46B6,0x74BA); (0x46B7,0x76AB);
  (0x46B8,0x76AA); (0x46B9,0x76BE); (0x46BA,0x76ED); (0x46BB,0x77CC); (0x46BC,0x77CE); (0x46BD,0x77CF); (0x46BE,0x77CD); (0x46BF,0x77F2);
  (0x46C0,0x7925); (0x46C1,0x7923); (0x46C2,0x7927); (0x46C3,0x7928); (0x46C4,0x7924); (0x46C5,0x7929); (0x46C6,0x79B2); (0x46C7,0x7A6E);
  (0x46C8,0x7A6C); (0x46C9,0x7A6D); (0x46CA,0x7AF7); (0x46CB,0x7C49); (0x46CC,0x7C48); (0x46CD,0x7C4A); (0x46CE,0x7C47); (0x46CF,0x7C45);
  (0x46D0,0x7CEE); (0x46D1,0x7E7B); (0x46D2,0x7E7E); (0x46D3,0x7E81); (0x46D4,0x7E80); (0x46D5,0x7FBA); (0x46D6,0x7FFF); (0x46D7,0x8079);
  (0x46D8,0x81DB); (0x46D9,0x81D9); (0x46DA,0x820B); (0x46DB,0x8268); (0x46DC,0x8269); (0x46DD,0x8622); (0x46DE,0x85FF); (0x46DF,0x8601);
  (0x46E0,0x85FE); (0x46E1,0x861B); (0x46E2,0x8600); (0x46E3,0x85F6); (0x46E4,0x8604); (0x46E5,0x8609); (0x46E6,0x8605); (0x46E7,0x860C);
  (0x46E8,0x85FD); (0x46E9,0x8819); (0x46EA,0x8810); (0x46EB,0x8811); (0x46EC,0x8817); (0x46ED,0x8813); (0x46EE,0x8816); (0x46EF,0x8963);
  (0x46F0,0x8966); (0x46F1,0x89B9); (0x46F2,0x89F7); (0x46F3,0x8B60); (0x46F4,0x8B6A); (0x46F5,0x8B5D); (0x46F6,0x8B68); (0x46F7,0x8B63);
  (0x46F8,0x8B65); (0x46F9,0x8B67); (0x46FA,0x8B6D); (0x46FB,0x8DAE); (0x46FC,0x8E86); (0x46FD,0x8E88); (0x46FE,0x8E84); (0x46FF,0x8F59);
  (0x4700,0x8F56); (0x4701,0x8F57); (0x4702,0x8F55); (0x4703,0x8F58); (0x4704,0x8F5A); (0x4705,0x908D); (0x4706,0x9143); (0x4707,0x9141);
  (0x4708,0x91B7); (0x4709,0x91B5); (0x470A,0x91B2); (0x470B,0x91B3); (0x470C,0x940B); (0x470D,0x9413); (0x470E,0x93FB); (0x470F,0x9420);
  (0x4710,0x940F); (0x4711,0x9414); (0x4712,0x93FE); (0x4713,0x9415); (0x4714,0x9410); (0x4715,0x9428); (0x4716,0x9419); (0x4717,0x940D);
  (0x4718,0x93F5); (0x4719,0x9400); (0x471A,0x93F7); (0x471B,0x9407); (0x471C,0x940E); (0x471D,0x9416); (0x471E,0x9412); (0x471F,0x93FA);
  (0x4720,0x9409); (0x4721,0x93F8); (0x4722,0x940A); (0x4723,0x93FF); (0x4724,0x93FC); (0x4725,0x940C); (0x4726,0x93F6); (0x4727,0x9411);
  (0x4728,0x9406); (0x4729,0x95DE); (0x472A,0x95E0); (0x472B,0x95DF); (0x472C,0x972E); (0x472D,0x972F); (0x472E,0x97B9); (0x472F,0x97BB);
  (0x4730,0x97FD); (0x4731,0x97FE); (0x4732,0x9860); (0x4733,0x9862); (0x4734,0x9863); (0x4735,0x985F); (0x4736,0x98C1); (0x4737,0x98C2);
  (0x4738,0x9950); (0x4739,0x994E); (0x473A,0x9959); (0x473B,0x994C); (0x473C,0x994B); (0x473D,0x9953); (0x473E,0x9A32); (0x473F,0x9A34);
  (0x4740,0x9A31); (0x4741,0x9A2C); (0x4742,0x9A2A); (0x4743,0x9A36); (0x4744,0x9A29); (0x4745,0x9A2E); (0x4746,0x9A38); (0x4747,0x9A2D);
  (0x4748,0x9AC7); (0x4749,0x9ACA); (0x474A,0x9AC6); (0x474B,0x9B10); (0x474C,0x9B12); (0x474D,0x9B11); (0x474E,0x9C0B); (0x474F,0x9C08);
  (0x4750,0x9BF7); (0x4751,0x9C05); (0x4752,0x9C12); (0x4753,0x9BF8); (0x4754,0x9C40); (0x4755,0x9C07); (0x4756,0x9C0E); (0x4757,0x9C06);
  (0x4758,0x9C17); (0x4759,0x9C14); (0x475A,0x9C09); (0x475B,0x9D9F); (0x475C,0x9D99); (0x475D,0x9DA4); (0x475E,0x9D9D); (0x475F,0x9D92);
  (0x4760,0x9D98); (0x4761,0x9D90); (0x4762,0x9D9B); (0x4763,0x9DA0); (0x4764,0x9D94); (0x4765,0x9D9C); (0x4766,0x9DAA); (0x4767,0x9D97);
  (0x4768,0x9DA1); (0x4769,0x9D9A); (0x476A,0x9DA2); (0x476B,0x9DA8); (0x476C,0x9D9E); (0x476D,0x9DA3); (0x476E,0x9DBF); (0x476F,0x9DA9);
  (0x4770,0x9D96); (0x4771,0x9DA6); (0x4772,0x9DA7); (0x4773,0x9E99); (0x4774,0x9E9B); (0x4775,0x9E9A); (0x4776,0x9EE5); (0x4777,0x9EE4);
  (0x4778,0x9EE7); (0x4779,0x9EE6); (0x477A,0x9F30); (0x477B,0x9F2E); (0x477C,0x9F5B); (0x477D,0x9F60); (0x477E,0x9F5E); (0x477F,0x9F5D);
  (0x4780,0x9F59); (0x4781,0x9F91); (0x4782,0x513A); (0x4783,0x5139); (0x4784,0x5298); (0x4785,0x5297); (0x4786,0x56C3); (0x4787,0x56BD);
  (0x4788,0x56BE); (0x4789,0x5B48); (0x478A,0x5B47); (0x478B,0x5DCB); (0x478C,0x5DCF); (0x478D,0x5EF1); (0x478E,0x61FD); (0x478F,0x651B);
  (0x4790,0x6B02); (0x4791,0x6AFC); (0x4792,0x6B03); (0x4793,0x6AF8); (0x4794,0x6B00); (0x4795,0x7043); (0x4796,0x7044); (0x4797,0x704A);
  (0x4798,0x7048); (0x4799,0x7049); (0x479A,0x7045); (0x479B,0x7046); (0x479C,0x721D); (0x479D,0x721A); (0x479E,0x7219); (0x479F,0x737E);
  (0x47A0,0x7517); (0x47A1,0x766A); (0x47A2,0x77D0); (0x47A3,0x792D); (0x47A4,0x7931); (0x47A5,0x792F); (0x47A6,0x7C54); (0x47A7,0x7C53)
].
(* encoding_tables/whatwg/index-big5.txt (pointer, code point), entries 17152..17407 *)
Definition big5_index_67 : list (N * N) := [
  (0x47A8,0x7CF2); (0x47A9,0x7E8A); (0x47AA,0x7E87); (0x47AB,0x7E88); (0x47AC,0x7E8B); (0x47AD,0x7E86); (0x47AE,0x7E8D); (0x47AF,0x7F4D);
  (0x47B0,0x7FBB); (0x47B1,0x8030); (0x47B2,0x81DD); (0x47B3,0x8618); (0x47B4,0x862A); (0x47B5,0x8626); (0x47B6,0x861F); (0x47B7,0x8623);
  (0x47B8,0x861C); (0x47B9,0x8619); (0x47BA,0x8627); (0x47BB,0x862E); (0x47BC,0x8621); (0x47BD,0x8620); (0x47BE,0x8629); (0x47BF,0x861E);
  (0x47C0,0x8625); (0x47C1,0x8829); (0x47C2,0x881D); (0x47C3,0x881B); (0x47C4,0x8820); (0x47C5,0x8824); (0x47C6,0x881C); (0x47C7,0x882B);
  (0x47C8,0x884A); (0x47C9,0x896D); (0x47CA,0x8969); (0x47CB,0x896E); (0x47CC,0x896B); (0x47CD,0x89FA); (0x47CE,0x8B79); (0x47CF,0x8B78);
  (0x47D0,0x8B45); (0x47D1,0x8B7A); (0x47D2,0x8B7B); (0x47D3,0x8D10); (0x47D4,0x8D14); (0x47D5,0x8DAF); (0x47D6,0x8E8E); (0x47D7,0x8E8C);
  (0x47D8,0x8F5E); (0x47D9,0x8F5B); (0x47DA,0x8F5D); (0x47DB,0x9146); (0x47DC,0x9144); (0x47DD,0x9145); (0x47DE,0x91B9); (0x47DF,0x943F);
  (0x47E0,0x943B); (0x47E1,0x9436); (0x47E2,0x9429); (0x47E3,0x943D); (0x47E4,0x943C); (0x47E5,0x9430); (0x47E6,0x9439); (0x47E7,0x942A);
  (0x47E8,0x9437); (0x47E9,0x942C); (0x47EA,0x9440); (0x47EB,0x9431); (0x47EC,0x95E5); (0x47ED,0x95E4); (0x47EE,0x95E3); (0x47EF,0x9735);
  (0x47F0,0x973A); (0x47F1,0x97BF); (0x47F2,0x97E1); (0x47F3,0x9864); (0x47F4,0x98C9); (0x47F5,0x98C6); (0x47F6,0x98C0); (0x47F7,0x9958);
  (0x47F8,0x9956); (0x47F9,0x9A39); (0x47FA,0x9A3D); (0x47FB,0x9A46); (0x47FC,0x9A44); (0x47FD,0x9A42); (0x47FE,0x9A41); (0x47FF,0x9A3A);
  (0x4800,0x9A3F); (0x4801,0x9ACD); (0x4802,0x9B15); (0x4803,0x9B17); (0x4804,0x9B18); (0x4805,0x9B16); (0x4806,0x9B3A); (0x4807,0x9B52);
  (0x4808,0x9C2B); (0x4809,0x9C1D); (0x480A,0x9C1C); (0x480B,0x9C2C); (0x480C,0x9C23); (0x480D,0x9C28); (0x480E,0x9C29); (0x480F,0x9C24);
  (0x4810,0x9C21); (0x4811,0x9DB7); (0x4812,0x9DB6); (0x4813,0x9DBC); (0x4814,0x9DC1); (0x4815,0x9DC7); (0x4816,0x9DCA); (0x4817,0x9DCF);
  (0x4818,0x9DBE); (0x4819,0x9DC5); (0x481A,0x9DC3); (0x481B,0x9DBB); (0x481C,0x9DB5); (0x481D,0x9DCE); (0x481E,0x9DB9); (0x481F,0x9DBA);
  (0x4820,0x9DAC); (0x4821,0x9DC8); (0x4822,0x9DB1); (0x4823,0x9DAD); (0x4824,0x9DCC); (0x4825,0x9DB3); (0x4826,0x9DCD); (0x4827,0x9DB2);
  (0x4828,0x9E7A); (0x4829,0x9E9C); (0x482A,0x9EEB); (0x482B,0x9EEE); (0x482C,0x9EED); (0x482D,0x9F1B); (0x482E,0x9F18); (0x482F,0x9F1A);
  (0x4830,0x9F31); (0x4831,0x9F4E); (0x4832,0x9F65); (0x4833,0x9F64); (0x4834,0x9F92); (0x4835,0x4EB9); (0x4836,0x56C6); (0x4837,0x56C5);
  (0x4838,0x56CB); (0x4839,0x5971); (0x483A,0x5B4B); (0x483B,0x5B4C); (0x483C,0x5DD5); (0x483D,0x5DD1); (0x483E,0x5EF2); (0x483F,0x6521);
  (0x4840,0x6520); (0x4841,0x6526); (0x4842,0x6522); (0x4843,0x6B0B); (0x4844,0x6B08); (0x4845,0x6B09); (0x4846,0x6C0D); (0x4847,0x7055);
  (0x4848,0x7056); (0x4849,0x7057); (0x484A,0x7052); (0x484B,0x721E); (0x484C,0x721F); (0x484D,0x72A9); (0x484E,0x737F); (0x484F,0x74D8);
  (0x4850,0x74D5); (0x4851,0x74D9); (0x4852,0x74D7); (0x4853,0x766D); (0x4854,0x76AD); (0x4855,0x7935); (0x4856,0x79B4); (0x4857,0x7A70);
  (0x4858,0x7A71); (0x4859,0x7C57); (0x485A,0x7C5C); (0x485B,0x7C59); (0x485C,0x7C5B); (0x485D,0x7C5A); (0x485E,0x7CF4); (0x485F,0x7CF1);
  (0x4860,0x7E91); (0x4861,0x7F4F); (0x4862,0x7F87); (0x4863,0x81DE); (0x4864,0x826B); (0x4865,0x8634); (0x4866,0x8635); (0x4867,0x8633);
  (0x4868,0x862C); (0x4869,0x8632); (0x486A,0x8636); (0x486B,0x882C); (0x486C,0x8828); (0x486D,0x8826); (0x486E,0x882A); (0x486F,0x8825);
  (0x4870,0x8971); (0x4871,0x89BF); (0x4872,0x89BE); (0x4873,0x89FB); (0x4874,0x8B7E); (0x4875,0x8B84); (0x4876,0x8B82); (0x4877,0x8B86);
  (0x4878,0x8B85); (0x4879,0x8B7F); (0x487A,0x8D15); (0x487B,0x8E95); (0x487C,0x8E94); (0x487D,0x8E9A); (0x487E,0x8E92); (0x487F,0x8E90);
  (0x4880,0x8E96); (0x4881,0x8E97); (0x4882,0x8F60); (0x4883,0x8F62); (0x4884,0x9147); (0x4885,0x944C); (0x4886,0x9450); (0x4887,0x944A);
  (0x4888,0x944B); (0x4889,0x944F); (0x488A,0x9447); (0x488B,0x9445); (0x488C,0x9448); (0x488D,0x9449); (0x488E,0x9446); (0x488F,0x973F);
  (0x4890,0x97E3); (0x4891,0x986A); (0x4892,0x9869); (0x4893,0x98CB); (0x4894,0x9954); (0x4895,0x995B); (0x4896,0x9A4E); (0x4897,0x9A53);
  (0x4898,0x9A54); (0x4899,0x9A4C); (0x489A,0x9A4F); (0x489B,0x9A48); (0x489C,0x9A4A); (0x489D,0x9A49); (0x489E,0x9A52); (0x489F,0x9A50);
  (0x48A0,0x9AD0); (0x48A1,0x9B19); (0x48A2,0x9B2B); (0x48A3,0x9B3B); (0x48A4,0x9B56); (0x48A5,0x9B55); (0x48A6,0x9C46); (0x48A7,0x9C48)
].
(* encoding_tables/whatwg/index-big5.txt (pointer, code point), entries 17408..17663 *)
Definition big5_index_68 : list (N * N) := [
  (0x48A8,0x9C3F); (0x48A9,0x9C44); (0x48AA,0x9C39); (0x48AB,0x9C33); (0x48AC,0x9C41); (0x48AD,0x9C3C); (0x48AE,0x9C37); (0x48AF,0x9C34);
  (0x48B0,0x9C32); (0x48B1,0x9C3D); (0x48B2,0x9C36); (0x48B3,0x9DDB); (0x48B4,0x9DD2); (0x48B5,0x9DDE); (0x48B6,0x9DDA); (0x48B7,0x9DCB);
  (0x48B8,0x9DD0); (0x48B9,0x9DDC); (0x48BA,0x9DD1); (0x48BB,0x9DDF); (0x48BC,0x9DE9); (0x48BD,0x9DD9); (0x48BE,0x9DD8); (0x48BF,0x9DD6);
  (0x48C0,0x9DF5); (0x48C1,0x9DD5); (0x48C2,0x9DDD); (0x48C3,0x9EB6); (0x48C4,0x9EF0); (0x48C5,0x9F35); (0x48C6,0x9F33); (0x48C7,0x9F32);
  (0x48C8,0x9F42); (0x48C9,0x9F6B); (0x48CA,0x9F95); (0x48CB,0x9FA2); (0x48CC,0x513D); (0x48CD,0x5299); (0x48CE,0x58E8); (0x48CF,0x58E7);
  (0x48D0,0x5972); (0x48D1,0x5B4D); (0x48D2,0x5DD8); (0x48D3,0x882F); (0x48D4,0x5F4F); (0x48D5,0x6201); (0x48D6,0x6203); (0x48D7,0x6204);
  (0x48D8,0x6529); (0x48D9,0x6525); (0x48DA,0x6596); (0x48DB,0x66EB); (0x48DC,0x6B11); (0x48DD,0x6B12); (0x48DE,0x6B0F); (0x48DF,0x6BCA);
  (0x48E0,0x705B); (0x48E1,0x705A); (0x48E2,0x7222); (0x48E3,0x7382); (0x48E4,0x7381); (0x48E5,0x7383); (0x48E6,0x7670); (0x48E7,0x77D4);
  (0x48E8,0x7C67); (0x48E9,0x7C66); (0x48EA,0x7E95); (0x48EB,0x826C); (0x48EC,0x863A); (0x48ED,0x8640); (0x48EE,0x8639); (0x48EF,0x863C);
  (0x48F0,0x8631); (0x48F1,0x863B); (0x48F2,0x863E); (0x48F3,0x8830); (0x48F4,0x8832); (0x48F5,0x882E); (0x48F6,0x8833); (0x48F7,0x8976);
  (0x48F8,0x8974); (0x48F9,0x8973); (0x48FA,0x89FE); (0x48FB,0x8B8C); (0x48FC,0x8B8E); (0x48FD,0x8B8B); (0x48FE,0x8B88); (0x48FF,0x8C45);
  (0x4900,0x8D19); (0x4901,0x8E98); (0x4902,0x8F64); (0x4903,0x8F63); (0x4904,0x91BC); (0x4905,0x9462); (0x4906,0x9455); (0x4907,0x945D);
  (0x4908,0x9457); (0x4909,0x945E); (0x490A,0x97C4); (0x490B,0x97C5); (0x490C,0x9800); (0x490D,0x9A56); (0x490E,0x9A59); (0x490F,0x9B1E);
  (0x4910,0x9B1F); (0x4911,0x9B20); (0x4912,0x9C52); (0x4913,0x9C58); (0x4914,0x9C50); (0x4915,0x9C4A); (0x4916,0x9C4D); (0x4917,0x9C4B);
  (0x4918,0x9C55); (0x4919,0x9C59); (0x491A,0x9C4C); (0x491B,0x9C4E); (0x491C,0x9DFB); (0x491D,0x9DF7); (0x491E,0x9DEF); (0x491F,0x9DE3);
  (0x4920,0x9DEB); (0x4921,0x9DF8); (0x4922,0x9DE4); (0x4923,0x9DF6); (0x4924,0x9DE1); (0x4925,0x9DEE); (0x4926,0x9DE6); (0x4927,0x9DF2);
  (0x4928,0x9DF0); (0x4929,0x9DE2); (0x492A,0x9DEC); (0x492B,0x9DF4); (0x492C,0x9DF3); (0x492D,0x9DE8); (0x492E,0x9DED); (0x492F,0x9EC2);
  (0x4930,0x9ED0); (0x4931,0x9EF2); (0x4932,0x9EF3); (0x4933,0x9F06); (0x4934,0x9F1C); (0x4935,0x9F38); (0x4936,0x9F37); (0x4937,0x9F36);
  (0x4938,0x9F43); (0x4939,0x9F4F); (0x493A,0x9F71); (0x493B,0x9F70); (0x493C,0x9F6E); (0x493D,0x9F6F); (0x493E,0x56D3); (0x493F,0x56CD);
  (0x4940,0x5B4E); (0x4941,0x5C6D); (0x4942,0x652D); (0x4943,0x66ED); (0x4944,0x66EE); (0x4945,0x6B13); (0x4946,0x705F); (0x4947,0x7061);
  (0x4948,0x705D); (0x4949,0x7060); (0x494A,0x7223); (0x494B,0x74DB); (0x494C,0x74E5); (0x494D,0x77D5); (0x494E,0x7938); (0x494F,0x79B7);
  (0x4950,0x79B6); (0x4951,0x7C6A); (0x4952,0x7E97); (0x4953,0x7F89); (0x4954,0x826D); (0x4955,0x8643); (0x4956,0x8838); (0x4957,0x8837);
  (0x4958,0x8835); (0x4959,0x884B); (0x495A,0x8B94); (0x495B,0x8B95); (0x495C,0x8E9E); (0x495D,0x8E9F); (0x495E,0x8EA0); (0x495F,0x8E9D);
  (0x4960,0x91BE); (0x4961,0x91BD); (0x4962,0x91C2); (0x4963,0x946B); (0x4964,0x9468); (0x4965,0x9469); (0x4966,0x96E5); (0x4967,0x9746);
  (0x4968,0x9743); (0x4969,0x9747); (0x496A,0x97C7); (0x496B,0x97E5); (0x496C,0x9A5E); (0x496D,0x9AD5); (0x496E,0x9B59); (0x496F,0x9C63);
  (0x4970,0x9C67); (0x4971,0x9C66); (0x4972,0x9C62); (0x4973,0x9C5E); (0x4974,0x9C60); (0x4975,0x9E02); (0x4976,0x9DFE); (0x4977,0x9E07);
  (0x4978,0x9E03); (0x4979,0x9E06); (0x497A,0x9E05); (0x497B,0x9E00); (0x497C,0x9E01); (0x497D,0x9E09); (0x497E,0x9DFF); (0x497F,0x9DFD);
  (0x4980,0x9E04); (0x4981,0x9EA0); (0x4982,0x9F1E); (0x4983,0x9F46); (0x4984,0x9F74); (0x4985,0x9F75); (0x4986,0x9F76); (0x4987,0x56D4);
  (0x4988,0x652E); (0x4989,0x65B8); (0x498A,0x6B18); (0x498B,0x6B19); (0x498C,0x6B17); (0x498D,0x6B1A); (0x498E,0x7062); (0x498F,0x7226);
  (0x4990,0x72AA); (0x4991,0x77D8); (0x4992,0x77D9); (0x4993,0x7939); (0x4994,0x7C69); (0x4995,0x7C6B); (0x4996,0x7CF6); (0x4997,0x7E9A);
  (0x4998,0x7E98); (0x4999,0x7E9B); (0x499A,0x7E99); (0x499B,0x81E0); (0x499C,0x81E1); (0x499D,0x8646); (0x499E,0x8647); (0x499F,0x8648);
  (0x49A0,0x8979); (0x49A1,0x897A); (0x49A2,0x897C); (0x49A3,0x897B); (0x49A4,0x89FF); (0x49A5,0x8B98); (0x49A6,0x8B99); (0x49A7,0x8EA5)
].
(* encoding_tables/whatwg/index-big5.txt (pointer, code point), entries 17664..17919 *)
Definition big5_index_69 : list (N * N) := [
  (0x49A8,0x8EA4); (0x49A9,0x8EA3); (0x49AA,0x946E); (0x49AB,0x946D); (0x49AC,0x946F); (0x49AD,0x9471); (0x49AE,0x9473); (0x49AF,0x9749);
  (0x49B0,0x9872); (0x49B1,0x995F); (0x49B2,0x9C68); (0x49B3,0x9C6E); (0x49B4,0x9C6D); (0x49B5,0x9E0B); (0x49B6,0x9E0D); (0x49B7,0x9E10);
  (0x49B8,0x9E0F); (0x49B9,0x9E12); (0x49BA,0x9E11); (0x49BB,0x9EA1); (0x49BC,0x9EF5); (0x49BD,0x9F09); (0x49BE,0x9F47); (0x49BF,0x9F78);
  (0x49C0,0x9F7B); (0x49C1,0x9F7A); (0x49C2,0x9F79); (0x49C3,0x571E); (0x49C4,0x7066); (0x49C5,0x7C6F); (0x49C6,0x883C); (0x49C7,0x8DB2);
  (0x49C8,0x8EA6); (0x49C9,0x91C3); (0x49CA,0x9474); (0x49CB,0x9478); (0x49CC,0x9476); (0x49CD,0x9475); (0x49CE,0x9A60); (0x49CF,0x9C74);
  (0x49D0,0x9C73); (0x49D1,0x9C71); (0x49D2,0x9C75); (0x49D3,0x9E14); (0x49D4,0x9E13); (0x49D5,0x9EF6); (0x49D6,0x9F0A); (0x49D7,0x9FA4);
  (0x49D8,0x7068); (0x49D9,0x7065); (0x49DA,0x7CF7); (0x49DB,0x866A); (0x49DC,0x883E); (0x49DD,0x883D); (0x49DE,0x883F); (0x49DF,0x8B9E);
  (0x49E0,0x8C9C); (0x49E1,0x8EA9); (0x49E2,0x8EC9); (0x49E3,0x974B); (0x49E4,0x9873); (0x49E5,0x9874); (0x49E6,0x98CC); (0x49E7,0x9961);
  (0x49E8,0x99AB); (0x49E9,0x9A64); (0x49EA,0x9A66); (0x49EB,0x9A67); (0x49EC,0x9B24); (0x49ED,0x9E15); (0x49EE,0x9E17); (0x49EF,0x9F48);
  (0x49F0,0x6207); (0x49F1,0x6B1E); (0x49F2,0x7227); (0x49F3,0x864C); (0x49F4,0x8EA8); (0x49F5,0x9482); (0x49F6,0x9480); (0x49F7,0x9481);
  (0x49F8,0x9A69); (0x49F9,0x9A68); (0x49FA,0x9B2E); (0x49FB,0x9E19); (0x49FC,0x7229); (0x49FD,0x864B); (0x49FE,0x8B9F); (0x49FF,0x9483);
  (0x4A00,0x9C79); (0x4A01,0x9EB7); (0x4A02,0x7675); (0x4A03,0x9A6B); (0x4A04,0x9C7A); (0x4A05,0x9E1D); (0x4A06,0x7069); (0x4A07,0x706A);
  (0x4A08,0x9EA4); (0x4A09,0x9F7E); (0x4A0A,0x9F49); (0x4A0B,0x9F98); (0x4A0C,0x7881); (0x4A0D,0x92B9); (0x4A0E,0x88CF); (0x4A0F,0x58BB);
  (0x4A10,0x6052); (0x4A11,0x7CA7); (0x4A12,0x5AFA); (0x4A13,0x2554); (0x4A14,0x2566); (0x4A15,0x2557); (0x4A16,0x2560); (0x4A17,0x256C);
  (0x4A18,0x2563); (0x4A19,0x255A); (0x4A1A,0x2569); (0x4A1B,0x255D); (0x4A1C,0x2552); (0x4A1D,0x2564); (0x4A1E,0x2555); (0x4A1F,0x255E);
  (0x4A20,0x256A); (0x4A21,0x2561); (0x4A22,0x2558); (0x4A23,0x2567); (0x4A24,0x255B); (0x4A25,0x2553); (0x4A26,0x2565); (0x4A27,0x2556);
  (0x4A28,0x255F); (0x4A29,0x256B); (0x4A2A,0x2562); (0x4A2B,0x2559); (0x4A2C,0x2568); (0x4A2D,0x255C); (0x4A2E,0x2551); (0x4A2F,0x2550);
  (0x4A30,0x256D); (0x4A31,0x256E); (0x4A32,0x2570); (0x4A33,0x256F); (0x4A34,0xFFED); (0x4A35,0x20547); (0x4A36,0x92DB); (0x4A37,0x205DF);
  (0x4A38,0x23FC5); (0x4A39,0x854C); (0x4A3A,0x42B5); (0x4A3B,0x73EF); (0x4A3C,0x51B5); (0x4A3D,0x3649); (0x4A3E,0x24942); (0x4A3F,0x289E4);
  (0x4A40,0x9344); (0x4A41,0x219DB); (0x4A42,0x82EE); (0x4A43,0x23CC8); (0x4A44,0x783C); (0x4A45,0x6744); (0x4A46,0x62DF); (0x4A47,0x24933);
  (0x4A48,0x289AA); (0x4A49,0x202A0); (0x4A4A,0x26BB3); (0x4A4B,0x21305); (0x4A4C,0x4FAB); (0x4A4D,0x224ED); (0x4A4E,0x5008); (0x4A4F,0x26D29);
  (0x4A50,0x27A84); (0x4A51,0x23600); (0x4A52,0x24AB1); (0x4A53,0x22513); (0x4A54,0x5029); (0x4A55,0x2037E); (0x4A56,0x5FA4); (0x4A57,0x20380);
  (0x4A58,0x20347); (0x4A59,0x6EDB); (0x4A5A,0x2041F); (0x4A5B,0x507D); (0x4A5C,0x5101); (0x4A5D,0x347A); (0x4A5E,0x510E); (0x4A5F,0x986C);
  (0x4A60,0x3743); (0x4A61,0x8416); (0x4A62,0x249A4); (0x4A63,0x20487); (0x4A64,0x5160); (0x4A65,0x233B4); (0x4A66,0x516A); (0x4A67,0x20BFF);
  (0x4A68,0x220FC); (0x4A69,0x202E5); (0x4A6A,0x22530); (0x4A6B,0x2058E); (0x4A6C,0x23233); (0x4A6D,0x21983); (0x4A6E,0x5B82); (0x4A6F,0x877D);
  (0x4A70,0x205B3); (0x4A71,0x23C99); (0x4A72,0x51B2); (0x4A73,0x51B8); (0x4A74,0x9D34); (0x4A75,0x51C9); (0x4A76,0x51CF); (0x4A77,0x51D1);
  (0x4A78,0x3CDC); (0x4A79,0x51D3); (0x4A7A,0x24AA6); (0x4A7B,0x51B3); (0x4A7C,0x51E2); (0x4A7D,0x5342); (0x4A7E,0x51ED); (0x4A7F,0x83CD);
  (0x4A80,0x693E); (0x4A81,0x2372D); (0x4A82,0x5F7B); (0x4A83,0x520B); (0x4A84,0x5226); (0x4A85,0x523C); (0x4A86,0x52B5); (0x4A87,0x5257);
  (0x4A88,0x5294); (0x4A89,0x52B9); (0x4A8A,0x52C5); (0x4A8B,0x7C15); (0x4A8C,0x8542); (0x4A8D,0x52E0); (0x4A8E,0x860D); (0x4A8F,0x26B13);
  (0x4A90,0x5305); (0x4A91,0x28ADE); (0x4A92,0x5549); (0x4A93,0x6ED9); (0x4A94,0x23F80); (0x4A95,0x20954); (0x4A96,0x23FEC); (0x4A97,0x5333);
  (0x4A98,0x5344); (0x4A99,0x20BE2); (0x4A9A,0x6CCB); (0x4A9B,0x21726); (0x4A9C,0x681B); (0x4A9D,0x73D5); (0x4A9E,0x604A); (0x4A9F,0x3EAA);
  (0x4AA0,0x38CC); (0x4AA1,0x216E8); (0x4AA2,0x71DD); (0x4AA3,0x44A2); (0x4AA4,0x536D); (0x4AA5,0x5374); (0x4AA6,0x286AB); (0x4AA7,0x537E)
].
(* encoding_tables/whatwg/index-big5.txt (pointer, code point), entries 17920..18175 *)
Definition big5_index_70 : list (N * N) := [
  (0x4AA8,0x537F); (0x4AA9,0x21596); (0x4AAA,0x21613); (0x4AAB,0x77E6); (0x4AAC,0x5393); (0x4AAD,0x28A9B); (0x4AAE,0x53A0); (0x4AAF,0x53AB);
  (0x4AB0,0x53AE); (0x4AB1,0x73A7); (0x4AB2,0x25772); (0x4AB3,0x3F59); (0x4AB4,0x739C); (0x4AB5,0x53C1); (0x4AB6,0x53C5); (0x4AB7,0x6C49);
  (0x4AB8,0x4E49); (0x4AB9,0x57FE); (0x4ABA,0x53D9); (0x4ABB,0x3AAB); (0x4ABC,0x20B8F); (0x4ABD,0x53E0); (0x4ABE,0x23FEB); (0x4ABF,0x22DA3);
  (0x4AC0,0x53F6); (0x4AC1,0x20C77); (0x4AC2,0x5413); (0x4AC3,0x7079); (0x4AC4,0x552B); (0x4AC5,0x6657); (0x4AC6,0x6D5B); (0x4AC7,0x546D);
  (0x4AC8,0x26B53); (0x4AC9,0x20D74); (0x4ACA,0x555D); (0x4ACB,0x548F); (0x4ACC,0x54A4); (0x4ACD,0x47A6); (0x4ACE,0x2170D); (0x4ACF,0x20EDD);
  (0x4AD0,0x3DB4); (0x4AD1,0x20D4D); (0x4AD2,0x289BC); (0x4AD3,0x22698); (0x4AD4,0x5547); (0x4AD5,0x4CED); (0x4AD6,0x542F); (0x4AD7,0x7417);
  (0x4AD8,0x5586); (0x4AD9,0x55A9); (0x4ADA,0x5605); (0x4ADB,0x218D7); (0x4ADC,0x2403A); (0x4ADD,0x4552); (0x4ADE,0x24435); (0x4ADF,0x66B3);
  (0x4AE0,0x210B4); (0x4AE1,0x5637); (0x4AE2,0x66CD); (0x4AE3,0x2328A); (0x4AE4,0x66A4); (0x4AE5,0x66AD); (0x4AE6,0x564D); (0x4AE7,0x564F);
  (0x4AE8,0x78F1); (0x4AE9,0x56F1); (0x4AEA,0x9787); (0x4AEB,0x53FE); (0x4AEC,0x5700); (0x4AED,0x56EF); (0x4AEE,0x56ED); (0x4AEF,0x28B66);
  (0x4AF0,0x3623); (0x4AF1,0x2124F); (0x4AF2,0x5746); (0x4AF3,0x241A5); (0x4AF4,0x6C6E); (0x4AF5,0x708B); (0x4AF6,0x5742); (0x4AF7,0x36B1);
  (0x4AF8,0x26C7E); (0x4AF9,0x57E6); (0x4AFA,0x21416); (0x4AFB,0x5803); (0x4AFC,0x21454); (0x4AFD,0x24363); (0x4AFE,0x5826); (0x4AFF,0x24BF5);
  (0x4B00,0x585C); (0x4B01,0x58AA); (0x4B02,0x3561); (0x4B03,0x58E0); (0x4B04,0x58DC); (0x4B05,0x2123C); (0x4B06,0x58FB); (0x4B07,0x5BFF);
  (0x4B08,0x5743); (0x4B09,0x2A150); (0x4B0A,0x24278); (0x4B0B,0x93D3); (0x4B0C,0x35A1); (0x4B0D,0x591F); (0x4B0E,0x68A6); (0x4B0F,0x36C3);
  (0x4B10,0x6E59); (0x4B11,0x2163E); (0x4B12,0x5A24); (0x4B13,0x5553); (0x4B14,0x21692); (0x4B15,0x8505); (0x4B16,0x59C9); (0x4B17,0x20D4E);
  (0x4B18,0x26C81); (0x4B19,0x26D2A); (0x4B1A,0x217DC); (0x4B1B,0x59D9); (0x4B1C,0x217FB); (0x4B1D,0x217B2); (0x4B1E,0x26DA6); (0x4B1F,0x6D71);
  (0x4B20,0x21828); (0x4B21,0x216D5); (0x4B22,0x59F9); (0x4B23,0x26E45); (0x4B24,0x5AAB); (0x4B25,0x5A63); (0x4B26,0x36E6); (0x4B27,0x249A9);
  (0x4B28,0x5A77); (0x4B29,0x3708); (0x4B2A,0x5A96); (0x4B2B,0x7465); (0x4B2C,0x5AD3); (0x4B2D,0x26FA1); (0x4B2E,0x22554); (0x4B2F,0x3D85);
  (0x4B30,0x21911); (0x4B31,0x3732); (0x4B32,0x216B8); (0x4B33,0x5E83); (0x4B34,0x52D0); (0x4B35,0x5B76); (0x4B36,0x6588); (0x4B37,0x5B7C);
  (0x4B38,0x27A0E); (0x4B39,0x4004); (0x4B3A,0x485D); (0x4B3B,0x20204); (0x4B3C,0x5BD5); (0x4B3D,0x6160); (0x4B3E,0x21A34); (0x4B3F,0x259CC);
  (0x4B40,0x205A5); (0x4B41,0x5BF3); (0x4B42,0x5B9D); (0x4B43,0x4D10); (0x4B44,0x5C05); (0x4B45,0x21B44); (0x4B46,0x5C13); (0x4B47,0x73CE);
  (0x4B48,0x5C14); (0x4B49,0x21CA5); (0x4B4A,0x26B28); (0x4B4B,0x5C49); (0x4B4C,0x48DD); (0x4B4D,0x5C85); (0x4B4E,0x5CE9); (0x4B4F,0x5CEF);
  (0x4B50,0x5D8B); (0x4B51,0x21DF9); (0x4B52,0x21E37); (0x4B53,0x5D10); (0x4B54,0x5D18); (0x4B55,0x5D46); (0x4B56,0x21EA4); (0x4B57,0x5CBA);
  (0x4B58,0x5DD7); (0x4B59,0x82FC); (0x4B5A,0x382D); (0x4B5B,0x24901); (0x4B5C,0x22049); (0x4B5D,0x22173); (0x4B5E,0x8287); (0x4B5F,0x3836);
  (0x4B60,0x3BC2); (0x4B61,0x5E2E); (0x4B62,0x6A8A); (0x4B63,0x5E75); (0x4B64,0x5E7A); (0x4B65,0x244BC); (0x4B66,0x20CD3); (0x4B67,0x53A6);
  (0x4B68,0x4EB7); (0x4B69,0x5ED0); (0x4B6A,0x53A8); (0x4B6B,0x21771); (0x4B6C,0x5E09); (0x4B6D,0x5EF4); (0x4B6E,0x28482); (0x4B6F,0x5EF9);
  (0x4B70,0x5EFB); (0x4B71,0x38A0); (0x4B72,0x5EFC); (0x4B73,0x683E); (0x4B74,0x941B); (0x4B75,0x5F0D); (0x4B76,0x201C1); (0x4B77,0x2F894);
  (0x4B78,0x3ADE); (0x4B79,0x48AE); (0x4B7A,0x2133A); (0x4B7B,0x5F3A); (0x4B7C,0x26888); (0x4B7D,0x223D0); (0x4B7E,0x5F58); (0x4B7F,0x22471);
  (0x4B80,0x5F63); (0x4B81,0x97BD); (0x4B82,0x26E6E); (0x4B83,0x5F72); (0x4B84,0x9340); (0x4B85,0x28A36); (0x4B86,0x5FA7); (0x4B87,0x5DB6);
  (0x4B88,0x3D5F); (0x4B89,0x25250); (0x4B8A,0x21F6A); (0x4B8B,0x270F8); (0x4B8C,0x22668); (0x4B8D,0x91D6); (0x4B8E,0x2029E); (0x4B8F,0x28A29);
  (0x4B90,0x6031); (0x4B91,0x6685); (0x4B92,0x21877); (0x4B93,0x3963); (0x4B94,0x3DC7); (0x4B95,0x3639); (0x4B96,0x5790); (0x4B97,0x227B4);
  (0x4B98,0x7971); (0x4B99,0x3E40); (0x4B9A,0x609E); (0x4B9B,0x60A4); (0x4B9C,0x60B3); (0x4B9D,0x24982); (0x4B9E,0x2498F); (0x4B9F,0x27A53);
  (0x4BA0,0x74A4); (0x4BA1,0x50E1); (0x4BA2,0x5AA0); (0x4BA3,0x6164); (0x4BA4,0x8424); (0x4BA5,0x6142); (0x4BA6,0x2F8A6); (0x4BA7,0x26ED2)
].
(* encoding_tables/whatwg/index-big5.txt (pointer, code point), entries 18176..18431 *)
Definition big5_index_71 : list (N * N) := [
  (0x4BA8,0x6181); (0x4BA9,0x51F4); (0x4BAA,0x20656); (0x4BAB,0x6187); (0x4BAC,0x5BAA); (0x4BAD,0x23FB7); (0x4BAE,0x2285F); (0x4BAF,0x61D3);
  (0x4BB0,0x28B9D); (0x4BB1,0x2995D); (0x4BB2,0x61D0); (0x4BB3,0x3932); (0x4BB4,0x22980); (0x4BB5,0x228C1); (0x4BB6,0x6023); (0x4BB7,0x615C);
  (0x4BB8,0x651E); (0x4BB9,0x638B); (0x4BBA,0x20118); (0x4BBB,0x62C5); (0x4BBC,0x21770); (0x4BBD,0x62D5); (0x4BBE,0x22E0D); (0x4BBF,0x636C);
  (0x4BC0,0x249DF); (0x4BC1,0x3A17); (0x4BC2,0x6438); (0x4BC3,0x63F8); (0x4BC4,0x2138E); (0x4BC5,0x217FC); (0x4BC6,0x6490); (0x4BC7,0x6F8A);
  (0x4BC8,0x22E36); (0x4BC9,0x9814); (0x4BCA,0x2408C); (0x4BCB,0x2571D); (0x4BCC,0x64E1); (0x4BCD,0x64E5); (0x4BCE,0x947B); (0x4BCF,0x3A66);
  (0x4BD0,0x643A); (0x4BD1,0x3A57); (0x4BD2,0x654D); (0x4BD3,0x6F16); (0x4BD4,0x24A28); (0x4BD5,0x24A23); (0x4BD6,0x6585); (0x4BD7,0x656D);
  (0x4BD8,0x655F); (0x4BD9,0x2307E); (0x4BDA,0x65B5); (0x4BDB,0x24940); (0x4BDC,0x4B37); (0x4BDD,0x65D1); (0x4BDE,0x40D8); (0x4BDF,0x21829);
  (0x4BE0,0x65E0); (0x4BE1,0x65E3); (0x4BE2,0x5FDF); (0x4BE3,0x23400); (0x4BE4,0x6618); (0x4BE5,0x231F7); (0x4BE6,0x231F8); (0x4BE7,0x6644);
  (0x4BE8,0x231A4); (0x4BE9,0x231A5); (0x4BEA,0x664B); (0x4BEB,0x20E75); (0x4BEC,0x6667); (0x4BED,0x251E6); (0x4BEE,0x6673); (0x4BEF,0x6674);
  (0x4BF0,0x21E3D); (0x4BF1,0x23231); (0x4BF2,0x285F4); (0x4BF3,0x231C8); (0x4BF4,0x25313); (0x4BF5,0x77C5); (0x4BF6,0x228F7); (0x4BF7,0x99A4);
  (0x4BF8,0x6702); (0x4BF9,0x2439C); (0x4BFA,0x24A21); (0x4BFB,0x3B2B); (0x4BFC,0x69FA); (0x4BFD,0x237C2); (0x4BFE,0x675E); (0x4BFF,0x6767);
  (0x4C00,0x6762); (0x4C01,0x241CD); (0x4C02,0x290ED); (0x4C03,0x67D7); (0x4C04,0x44E9); (0x4C05,0x6822); (0x4C06,0x6E50); (0x4C07,0x923C);
  (0x4C08,0x6801); (0x4C09,0x233E6); (0x4C0A,0x26DA0); (0x4C0B,0x685D); (0x4C0C,0x2346F); (0x4C0D,0x69E1); (0x4C0E,0x6A0B); (0x4C0F,0x28ADF);
  (0x4C10,0x6973); (0x4C11,0x68C3); (0x4C12,0x235CD); (0x4C13,0x6901); (0x4C14,0x6900); (0x4C15,0x3D32); (0x4C16,0x3A01); (0x4C17,0x2363C);
  (0x4C18,0x3B80); (0x4C19,0x67AC); (0x4C1A,0x6961); (0x4C1B,0x28A4A); (0x4C1C,0x42FC); (0x4C1D,0x6936); (0x4C1E,0x6998); (0x4C1F,0x3BA1);
  (0x4C20,0x203C9); (0x4C21,0x8363); (0x4C22,0x5090); (0x4C23,0x69F9); (0x4C24,0x23659); (0x4C25,0x2212A); (0x4C26,0x6A45); (0x4C27,0x23703);
  (0x4C28,0x6A9D); (0x4C29,0x3BF3); (0x4C2A,0x67B1); (0x4C2B,0x6AC8); (0x4C2C,0x2919C); (0x4C2D,0x3C0D); (0x4C2E,0x6B1D); (0x4C2F,0x20923);
  (0x4C30,0x60DE); (0x4C31,0x6B35); (0x4C32,0x6B74); (0x4C33,0x227CD); (0x4C34,0x6EB5); (0x4C35,0x23ADB); (0x4C36,0x203B5); (0x4C37,0x21958);
  (0x4C38,0x3740); (0x4C39,0x5421); (0x4C3A,0x23B5A); (0x4C3B,0x6BE1); (0x4C3C,0x23EFC); (0x4C3D,0x6BDC); (0x4C3E,0x6C37); (0x4C3F,0x2248B);
  (0x4C40,0x248F1); (0x4C41,0x26B51); (0x4C42,0x6C5A); (0x4C43,0x8226); (0x4C44,0x6C79); (0x4C45,0x23DBC); (0x4C46,0x44C5); (0x4C47,0x23DBD);
  (0x4C48,0x241A4); (0x4C49,0x2490C); (0x4C4A,0x24900); (0x4C4B,0x23CC9); (0x4C4C,0x36E5); (0x4C4D,0x3CEB); (0x4C4E,0x20D32); (0x4C4F,0x9B83);
  (0x4C50,0x231F9); (0x4C51,0x22491); (0x4C52,0x7F8F); (0x4C53,0x6837); (0x4C54,0x26D25); (0x4C55,0x26DA1); (0x4C56,0x26DEB); (0x4C57,0x6D96);
  (0x4C58,0x6D5C); (0x4C59,0x6E7C); (0x4C5A,0x6F04); (0x4C5B,0x2497F); (0x4C5C,0x24085); (0x4C5D,0x26E72); (0x4C5E,0x8533); (0x4C5F,0x26F74);
  (0x4C60,0x51C7); (0x4C61,0x6C9C); (0x4C62,0x6E1D); (0x4C63,0x842E); (0x4C64,0x28B21); (0x4C65,0x6E2F); (0x4C66,0x23E2F); (0x4C67,0x7453);
  (0x4C68,0x23F82); (0x4C69,0x79CC); (0x4C6A,0x6E4F); (0x4C6B,0x5A91); (0x4C6C,0x2304B); (0x4C6D,0x6FF8); (0x4C6E,0x370D); (0x4C6F,0x6F9D);
  (0x4C70,0x23E30); (0x4C71,0x6EFA); (0x4C72,0x21497); (0x4C73,0x2403D); (0x4C74,0x4555); (0x4C75,0x93F0); (0x4C76,0x6F44); (0x4C77,0x6F5C);
  (0x4C78,0x3D4E); (0x4C79,0x6F74); (0x4C7A,0x29170); (0x4C7B,0x3D3B); (0x4C7C,0x6F9F); (0x4C7D,0x24144); (0x4C7E,0x6FD3); (0x4C7F,0x24091);
  (0x4C80,0x24155); (0x4C81,0x24039); (0x4C82,0x23FF0); (0x4C83,0x23FB4); (0x4C84,0x2413F); (0x4C85,0x51DF); (0x4C86,0x24156); (0x4C87,0x24157);
  (0x4C88,0x24140); (0x4C89,0x261DD); (0x4C8A,0x704B); (0x4C8B,0x707E); (0x4C8C,0x70A7); (0x4C8D,0x7081); (0x4C8E,0x70CC); (0x4C8F,0x70D5);
  (0x4C90,0x70D6); (0x4C91,0x70DF); (0x4C92,0x4104); (0x4C93,0x3DE8); (0x4C94,0x71B4); (0x4C95,0x7196); (0x4C96,0x24277); (0x4C97,0x712B);
  (0x4C98,0x7145); (0x4C99,0x5A88); (0x4C9A,0x714A); (0x4C9B,0x716E); (0x4C9C,0x5C9C); (0x4C9D,0x24365); (0x4C9E,0x714F); (0x4C9F,0x9362);
  (0x4CA0,0x242C1); (0x4CA1,0x712C); (0x4CA2,0x2445A); (0x4CA3,0x24A27); (0x4CA4,0x24A22); (0x4CA5,0x71BA); (0x4CA6,0x28BE8); (0x4CA7,0x70BD)
].
(* encoding_tables/whatwg/index-big5.txt (pointer, code point), entries 18432..18589 *)
Definition big5_index_72 : list (N * N) := [
  (0x4CA8,0x720E); (0x4CA9,0x9442); (0x4CAA,0x7215); (0x4CAB,0x5911); (0x4CAC,0x9443); (0x4CAD,0x7224); (0x4CAE,0x9341); (0x4CAF,0x25605);
  (0x4CB0,0x722E); (0x4CB1,0x7240); (0x4CB2,0x24974); (0x4CB3,0x68BD); (0x4CB4,0x7255); (0x4CB5,0x7257); (0x4CB6,0x3E55); (0x4CB7,0x23044);
  (0x4CB8,0x680D); (0x4CB9,0x6F3D); (0x4CBA,0x7282); (0x4CBB,0x732A); (0x4CBC,0x732B); (0x4CBD,0x24823); (0x4CBE,0x2882B); (0x4CBF,0x48ED);
  (0x4CC0,0x28804); (0x4CC1,0x7328); (0x4CC2,0x732E); (0x4CC3,0x73CF); (0x4CC4,0x73AA); (0x4CC5,0x20C3A); (0x4CC6,0x26A2E); (0x4CC7,0x73C9);
  (0x4CC8,0x7449); (0x4CC9,0x241E2); (0x4CCA,0x216E7); (0x4CCB,0x24A24); (0x4CCC,0x6623); (0x4CCD,0x36C5); (0x4CCE,0x249B7); (0x4CCF,0x2498D);
  (0x4CD0,0x249FB); (0x4CD1,0x73F7); (0x4CD2,0x7415); (0x4CD3,0x6903); (0x4CD4,0x24A26); (0x4CD5,0x7439); (0x4CD6,0x205C3); (0x4CD7,0x3ED7);
  (0x4CD8,0x745C); (0x4CD9,0x228AD); (0x4CDA,0x7460); (0x4CDB,0x28EB2); (0x4CDC,0x7447); (0x4CDD,0x73E4); (0x4CDE,0x7476); (0x4CDF,0x83B9);
  (0x4CE0,0x746C); (0x4CE1,0x3730); (0x4CE2,0x7474); (0x4CE3,0x93F1); (0x4CE4,0x6A2C); (0x4CE5,0x7482); (0x4CE6,0x4953); (0x4CE7,0x24A8C);
  (0x4CE8,0x2415F); (0x4CE9,0x24A79); (0x4CEA,0x28B8F); (0x4CEB,0x5B46); (0x4CEC,0x28C03); (0x4CED,0x2189E); (0x4CEE,0x74C8); (0x4CEF,0x21988);
  (0x4CF0,0x750E); (0x4CF1,0x74E9); (0x4CF2,0x751E); (0x4CF3,0x28ED9); (0x4CF4,0x21A4B); (0x4CF5,0x5BD7); (0x4CF6,0x28EAC); (0x4CF7,0x9385);
  (0x4CF8,0x754D); (0x4CF9,0x754A); (0x4CFA,0x7567); (0x4CFB,0x756E); (0x4CFC,0x24F82); (0x4CFD,0x3F04); (0x4CFE,0x24D13); (0x4CFF,0x758E);
  (0x4D00,0x745D); (0x4D01,0x759E); (0x4D02,0x75B4); (0x4D03,0x7602); (0x4D04,0x762C); (0x4D05,0x7651); (0x4D06,0x764F); (0x4D07,0x766F);
  (0x4D08,0x7676); (0x4D09,0x263F5); (0x4D0A,0x7690); (0x4D0B,0x81EF); (0x4D0C,0x37F8); (0x4D0D,0x26911); (0x4D0E,0x2690E); (0x4D0F,0x76A1);
  (0x4D10,0x76A5); (0x4D11,0x76B7); (0x4D12,0x76CC); (0x4D13,0x26F9F); (0x4D14,0x8462); (0x4D15,0x2509D); (0x4D16,0x2517D); (0x4D17,0x21E1C);
  (0x4D18,0x771E); (0x4D19,0x7726); (0x4D1A,0x7740); (0x4D1B,0x64AF); (0x4D1C,0x25220); (0x4D1D,0x7758); (0x4D1E,0x232AC); (0x4D1F,0x77AF);
  (0x4D20,0x28964); (0x4D21,0x28968); (0x4D22,0x216C1); (0x4D23,0x77F4); (0x4D24,0x7809); (0x4D25,0x21376); (0x4D26,0x24A12); (0x4D27,0x68CA);
  (0x4D28,0x78AF); (0x4D29,0x78C7); (0x4D2A,0x78D3); (0x4D2B,0x96A5); (0x4D2C,0x792E); (0x4D2D,0x255E0); (0x4D2E,0x78D7); (0x4D2F,0x7934);
  (0x4D30,0x78B1); (0x4D31,0x2760C); (0x4D32,0x8FB8); (0x4D33,0x8884); (0x4D34,0x28B2B); (0x4D35,0x26083); (0x4D36,0x2261C); (0x4D37,0x7986);
  (0x4D38,0x8900); (0x4D39,0x6902); (0x4D3A,0x7980); (0x4D3B,0x25857); (0x4D3C,0x799D); (0x4D3D,0x27B39); (0x4D3E,0x793C); (0x4D3F,0x79A9);
  (0x4D40,0x6E2A); (0x4D41,0x27126); (0x4D42,0x3EA8); (0x4D43,0x79C6); (0x4D44,0x2910D); (0x4D45,0x79D4)
].
(* encoding_tables/whatwg/index-big5.txt (pointer, code point): the whole table *)
Definition big5_index : list (N * N) :=
  big5_index_0 ++
  big5_index_1 ++
  big5_index_2 ++
  big5_index_3 ++
  big5_index_4 ++
  big5_index_5 ++
  big5_index_6 ++
  big5_index_7 ++
  big5_index_8 ++
  big5_index_9 ++
  big5_index_10 ++
  big5_index_11 ++
  big5_index_12 ++
  big5_index_13 ++
  big5_index_14 ++
  big5_index_15 ++
  big5_index_16 ++
  big5_index_17 ++
  big5_index_18 ++
  big5_index_19 ++
  big5_index_20 ++
  big5_index_21 ++
  big5_index_22 ++
  big5_index_23 ++
  big5_index_24 ++
  big5_index_25 ++
  big5_index_26 ++
  big5_index_27 ++
  big5_index_28 ++
  big5_index_29 ++
  big5_index_30 ++
  big5_index_31 ++
  big5_index_32 ++
  big5_index_33 ++
  big5_index_34 ++
  big5_index_35 ++
  big5_index_36 ++
  big5_index_37 ++
  big5_index_38 ++
  big5_index_39 ++
  big5_index_40 ++
  big5_index_41 ++
  big5_index_42 ++
  big5_index_43 ++
  big5_index_44 ++
  big5_index_45 ++
  big5_index_46 ++
  big5_index_47 ++
  big5_index_48 ++
  big5_index_49 ++
  big5_index_50 ++
  big5_index_51 ++
  big5_index_52 ++
  big5_index_53 ++
  big5_index_54 ++
  big5_index_55 ++
  big5_index_56 ++
  big5_index_57 ++
  big5_index_58 ++
  big5_index_59 ++
  big5_index_60 ++
  big5_index_61 ++
  big5_index_62 ++
  big5_index_63 ++
  big5_index_64 ++
  big5_index_65 ++
  big5_index_66 ++
  big5_index_67 ++
  big5_index_68 ++
  big5_index_69 ++
  big5_index_70 ++
  big5_index_71 ++
  big5_index_72.

