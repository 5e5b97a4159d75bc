(* Generated by tools/gen_tables.py; do not edit. *)
From Coq Require Import NArith List.
Import ListNotations.
Local Open Scope N_scope.

(* encoding_tables/whatwg/index-jis0208.txt (pointer, code point), entries 0..255 *)
Definition jis0208_index_0 : list (N * N) := [
  (0x0,0x3000); (0x1,0x3001); (0x2,0x3002); (0x3,0xFF0C); (0x4,0xFF0E); (0x5,0x30FB); (0x6,0xFF1A); (0x7,0xFF1B);
  (0x8,0xFF1F); (0x9,0xFF01); (0xA,0x309B); (0xB,0x309C); (0xC,0xB4); (0xD,0xFF40); (0xE,0xA8); (0xF,0xFF3E);
  (0x10,0xFFE3); (0x11,0xFF3F); (0x12,0x30FD); (0x13,0x30FE); (0x14,0x309D); (0x15,0x309E); (0x16,0x3003); (0x17,0x4EDD);
  (0x18,0x3005); (0x19,0x3006); (0x1A,0x3007); (0x1B,0x30FC); (0x1C,0x2015); (0x1D,0x2010); (0x1E,0xFF0F); (0x1F,0xFF3C);
  (0x20,0xFF5E); (0x21,0x2225); (0x22,0xFF5C); (0x23,0x2026); (0x24,0x2025); (0x25,0x2018); (0x26,0x2019); (0x27,0x201C);
  (0x28,0x201D); (0x29,0xFF08); (0x2A,0xFF09); (0x2B,0x3014); (0x2C,0x3015); (0x2D,0xFF3B); (0x2E,0xFF3D); (0x2F,0xFF5B);
  (0x30,0xFF5D); (0x31,0x3008); (0x32,0x3009); (0x33,0x300A); (0x34,0x300B); (0x35,0x300C); (0x36,0x300D); (0x37,0x300E);
  (0x38,0x300F); (0x39,0x3010); (0x3A,0x3011); (0x3B,0xFF0B); (0x3C,0xFF0D); (0x3D,0xB1); (0x3E,0xD7); (0x3F,0xF7);
  (0x40,0xFF1D); (0x41,0x2260); (0x42,0xFF1C); (0x43,0xFF1E); (0x44,0x2266); (0x45,0x2267); (0x46,0x221E); (0x47,0x2234);
  (0x48,0x2642); (0x49,0x2640); (0x4A,0xB0); (0x4B,0x2032); (0x4C,0x2033); (0x4D,0x2103); (0x4E,0xFFE5); (0x4F,0xFF04);
  (0x50,0xFFE0); (0x51,0xFFE1); (0x52,0xFF05); (0x53,0xFF03); (0x54,0xFF06); (0x55,0xFF0A); (0x56,0xFF20); (0x57,0xA7);
  (0x58,0x2606); (0x59,0x2605); (0x5A,0x25CB); (0x5B,0x25CF); (0x5C,0x25CE); (0x5D,0x25C7); (0x5E,0x25C6); (0x5F,0x25A1);
  (0x60,0x25A0); (0x61,0x25B3); (0x62,0x25B2); (0x63,0x25BD); (0x64,0x25BC); (0x65,0x203B); (0x66,0x3012); (0x67,0x2192);
  (0x68,0x2190); (0x69,0x2191); (0x6A,0x2193); (0x6B,0x3013); (0x77,0x2208); (0x78,0x220B); (0x79,0x2286); (0x7A,0x2287);
  (0x7B,0x2282); (0x7C,0x2283); (0x7D,0x222A); (0x7E,0x2229); (0x87,0x2227); (0x88,0x2228); (0x89,0xFFE2); (0x8A,0x21D2);
  (0x8B,0x21D4); (0x8C,0x2200); (0x8D,0x2203); (0x99,0x2220); (0x9A,0x22A5); (0x9B,0x2312); (0x9C,0x2202); (0x9D,0x2207);
  (0x9E,0x2261); (0x9F,0x2252); (0xA0,0x226A); (0xA1,0x226B); (0xA2,0x221A); (0xA3,0x223D); (0xA4,0x221D); (0xA5,0x2235);
  (0xA6,0x222B); (0xA7,0x222C); (0xAF,0x212B); (0xB0,0x2030); (0xB1,0x266F); (0xB2,0x266D); (0xB3,0x266A); (0xB4,0x2020);
  (0xB5,0x2021); (0xB6,0xB6); (0xBB,0x25EF); (0xCB,0xFF10); (0xCC,0xFF11); (0xCD,0xFF12); (0xCE,0xFF13); (0xCF,0xFF14);
  (0xD0,0xFF15); (0xD1,0xFF16); (0xD2,0xFF17); (0xD3,0xFF18); (0xD4,0xFF19); (0xDC,0xFF21); (0xDD,0xFF22); (0xDE,0xFF23);
  (0xDF,0xFF24); (0xE0,0xFF25); (0xE1,0xFF26); (0xE2,0xFF27); (0xE3,0xFF28); (0xE4,0xFF29); (0xE5,0xFF2A); (0xE6,0xFF2B);
  (0xE7,0xFF2C); (0xE8,0xFF2D); (0xE9,0xFF2E); (0xEA,0xFF2F); (0xEB,0xFF30); (0xEC,0xFF31); (0xED,0xFF32); (0xEE,0xFF33);
  (0xEF,0xFF34); (0xF0,0xFF35); (0xF1,0xFF36); (0xF2,0xFF37); (0xF3,0xFF38); (0xF4,0xFF39); (0xF5,0xFF3A); (0xFC,0xFF41);
  (0xFD,0xFF42); (0xFE,0xFF43); (0xFF,0xFF44); (0x100,0xFF45); (0x101,0xFF46); (0x102,0xFF47); (0x103,0xFF48); (0x104,0xFF49);
  (0x105,0xFF4A); (0x106,0xFF4B); (0x107,0xFF4C); (0x108,0xFF4D); (0x109,0xFF4E); (0x10A,0xFF4F); (0x10B,0xFF50); (0x10C,0xFF51);
  (0x10D,0xFF52); (0x10E,0xFF53); (0x10F,0xFF54); (0x110,0xFF55); (0x111,0xFF56); (0x112,0xFF57); (0x113,0xFF58); (0x114,0xFF59);
  (0x115,0xFF5A); (0x11A,0x3041); (0x11B,0x3042); (0x11C,0x3043); (0x11D,0x3044); (0x11E,0x3045); (0x11F,0x3046); (0x120,0x3047);
  (0x121,0x3048); (0x122,0x3049); (0x123,0x304A); (0x124,0x304B); (0x125,0x304C); (0x126,0x304D); (0x127,0x304E); (0x128,0x304F);
  (0x129,0x3050); (0x12A,0x3051); (0x12B,0x3052); (0x12C,0x3053); (0x12D,0x3054); (0x12E,0x3055); (0x12F,0x3056); (0x130,0x3057);
  (0x131,0x3058); (0x132,0x3059); (0x133,0x305A); (0x134,0x305B); (0x135,0x305C); (0x136,0x305D); (0x137,0x305E); (0x138,0x305F);
  (0x139,0x3060); (0x13A,0x3061); (0x13B,0x3062); (0x13C,0x3063); (0x13D,0x3064); (0x13E,0x3065); (0x13F,0x3066); (0x140,0x3067);
  (0x141,0x3068); (0x142,0x3069); (0x143,0x306A); (0x144,0x306B); (0x145,0x306C); (0x146,0x306D); (0x147,0x306E); (0x148,0x306F)
].
(* encoding_tables/whatwg/index-jis0208.txt (pointer, code point), entries 256..511 *)
Definition jis0208_index_1 : list (N * N) := [
  (0x149,0x3070); (0x14A,0x3071); (0x14B,0x3072); (0x14C,0x3073); (0x14D,0x3074); (0x14E,0x3075); (0x14F,0x3076); (0x150,0x3077);
  (0x151,0x3078); (0x152,0x3079); (0x153,0x307A); (0x154,0x307B); (0x155,0x307C); (0x156,0x307D); (0x157,0x307E); (0x158,0x307F);
  (0x159,0x3080); (0x15A,0x3081); (0x15B,0x3082); (0x15C,0x3083); (0x15D,0x3084); (0x15E,0x3085); (0x15F,0x3086); (0x160,0x3087);
  (0x161,0x3088); (0x162,0x3089); (0x163,0x308A); (0x164,0x308B); (0x165,0x308C); (0x166,0x308D); (0x167,0x308E); (0x168,0x308F);
  (0x169,0x3090); (0x16A,0x3091); (0x16B,0x3092); (0x16C,0x3093); (0x178,0x30A1); (0x179,0x30A2); (0x17A,0x30A3); (0x17B,0x30A4);
  (0x17C,0x30A5); (0x17D,0x30A6); (0x17E,0x30A7); (0x17F,0x30A8); (0x180,0x30A9); (0x181,0x30AA); (0x182,0x30AB); (0x183,0x30AC);
  (0x184,0x30AD); (0x185,0x30AE); (0x186,0x30AF); (0x187,0x30B0); (0x188,0x30B1); (0x189,0x30B2); (0x18A,0x30B3); (0x18B,0x30B4);
  (0x18C,0x30B5); (0x18D,0x30B6); (0x18E,0x30B7); (0x18F,0x30B8); (0x190,0x30B9); (0x191,0x30BA); (0x192,0x30BB); (0x193,0x30BC);
  (0x194,0x30BD); (0x195,0x30BE); (0x196,0x30BF); (0x197,0x30C0); (0x198,0x30C1); (0x199,0x30C2); (0x19A,0x30C3); (0x19B,0x30C4);
  (0x19C,0x30C5); (0x19D,0x30C6); (0x19E,0x30C7); (0x19F,0x30C8); (0x1A0,0x30C9); (0x1A1,0x30CA); (0x1A2,0x30CB); (0x1A3,0x30CC);
  (0x1A4,0x30CD); (0x1A5,0x30CE); (0x1A6,0x30CF); (0x1A7,0x30D0); (0x1A8,0x30D1); (0x1A9,0x30D2); (0x1AA,0x30D3); (0x1AB,0x30D4);
  (0x1AC,0x30D5); (0x1AD,0x30D6); (0x1AE,0x30D7); (0x1AF,0x30D8); (0x1B0,0x30D9); (0x1B1,0x30DA); (0x1B2,0x30DB); (0x1B3,0x30DC);
  (0x1B4,0x30DD); (0x1B5,0x30DE); (0x1B6,0x30DF); (0x1B7,0x30E0); (0x1B8,0x30E1); (0x1B9,0x30E2); (0x1BA,0x30E3); (0x1BB,0x30E4);
  (0x1BC,0x30E5); (0x1BD,0x30E6); (0x1BE,0x30E7); (0x1BF,0x30E8); (0x1C0,0x30E9); (0x1C1,0x30EA); (0x1C2,0x30EB); (0x1C3,0x30EC);
  (0x1C4,0x30ED); (0x1C5,0x30EE); (0x1C6,0x30EF); (0x1C7,0x30F0); (0x1C8,0x30F1); (0x1C9,0x30F2); (0x1CA,0x30F3); (0x1CB,0x30F4);
  (0x1CC,0x30F5); (0x1CD,0x30F6); (0x1D6,0x391); (0x1D7,0x392); (0x1D8,0x393); (0x1D9,0x394); (0x1DA,0x395); (0x1DB,0x396);
  (0x1DC,0x397); (0x1DD,0x398); (0x1DE,0x399); (0x1DF,0x39A); (0x1E0,0x39B); (0x1E1,0x39C); (0x1E2,0x39D); (0x1E3,0x39E);
  (0x1E4,0x39F); (0x1E5,0x3A0); (0x1E6,0x3A1); (0x1E7,0x3A3); (0x1E8,0x3A4); (0x1E9,0x3A5); (0x1EA,0x3A6); (0x1EB,0x3A7);
  (0x1EC,0x3A8); (0x1ED,0x3A9); (0x1F6,0x3B1); (0x1F7,0x3B2); (0x1F8,0x3B3); (0x1F9,0x3B4); (0x1FA,0x3B5); (0x1FB,0x3B6);
  (0x1FC,0x3B7); (0x1FD,0x3B8); (0x1FE,0x3B9); (0x1FF,0x3BA); (0x200,0x3BB); (0x201,0x3BC); (0x202,0x3BD); (0x203,0x3BE);
  (0x204,0x3BF); (0x205,0x3C0); (0x206,0x3C1); (0x207,0x3C3); (0x208,0x3C4); (0x209,0x3C5); (0x20A,0x3C6); (0x20B,0x3C7);
  (0x20C,0x3C8); (0x20D,0x3C9); (0x234,0x410); (0x235,0x411); (0x236,0x412); (0x237,0x413); (0x238,0x414); (0x239,0x415);
  (0x23A,0x401); (0x23B,0x416); (0x23C,0x417); (0x23D,0x418); (0x23E,0x419); (0x23F,0x41A); (0x240,0x41B); (0x241,0x41C);
  (0x242,0x41D); (0x243,0x41E); (0x244,0x41F); (0x245,0x420); (0x246,0x421); (0x247,0x422); (0x248,0x423); (0x249,0x424);
  (0x24A,0x425); (0x24B,0x426); (0x24C,0x427); (0x24D,0x428); (0x24E,0x429); (0x24F,0x42A); (0x250,0x42B); (0x251,0x42C);
  (0x252,0x42D); (0x253,0x42E); (0x254,0x42F); (0x264,0x430); (0x265,0x431); (0x266,0x432); (0x267,0x433); (0x268,0x434);
  (0x269,0x435); (0x26A,0x451); (0x26B,0x436); (0x26C,0x437); (0x26D,0x438); (0x26E,0x439); (0x26F,0x43A); (0x270,0x43B);
  (0x271,0x43C); (0x272,0x43D); (0x273,0x43E); (0x274,0x43F); (0x275,0x440); (0x276,0x441); (0x277,0x442); (0x278,0x443);
  (0x279,0x444); (0x27A,0x445); (0x27B,0x446); (0x27C,0x447); (0x27D,0x448); (0x27E,0x449); (0x27F,0x44A); (0x280,0x44B);
  (0x281,0x44C); (0x282,0x44D); (0x283,0x44E); (0x284,0x44F); (0x292,0x2500); (0x293,0x2502); (0x294,0x250C); (0x295,0x2510);
  (0x296,0x2518); (0x297,0x2514); (0x298,0x251C); (0x299,0x252C); (0x29A,0x2524); (0x29B,0x2534); (0x29C,0x253C); (0x29D,0x2501);
  (0x29E,0x2503); (0x29F,0x250F); (0x2A0,0x2513); (0x2A1,0x251B); (0x2A2,0x2517); (0x2A3,0x2523); (0x2A4,0x2533); (0x2A5,0x252B)
].
(* encoding_tables/whatwg/index-jis0208.txt (pointer, code point), entries 512..767 *)
Definition jis0208_index_2 : list (N * N) := [
  (0x2A6,0x253B); (0x2A7,0x254B); (0x2A8,0x2520); (0x2A9,0x252F); (0x2AA,0x2528); (0x2AB,0x2537); (0x2AC,0x253F); (0x2AD,0x251D);
  (0x2AE,0x2530); (0x2AF,0x2525); (0x2B0,0x2538); (0x2B1,0x2542); (0x468,0x2460); (0x469,0x2461); (0x46A,0x2462); (0x46B,0x2463);
  (0x46C,0x2464); (0x46D,0x2465); (0x46E,0x2466); (0x46F,0x2467); (0x470,0x2468); (0x471,0x2469); (0x472,0x246A); (0x473,0x246B);
  (0x474,0x246C); (0x475,0x246D); (0x476,0x246E); (0x477,0x246F); (0x478,0x2470); (0x479,0x2471); (0x47A,0x2472); (0x47B,0x2473);
  (0x47C,0x2160); (0x47D,0x2161); (0x47E,0x2162); (0x47F,0x2163); (0x480,0x2164); (0x481,0x2165); (0x482,0x2166); (0x483,0x2167);
  (0x484,0x2168); (0x485,0x2169); (0x487,0x3349); (0x488,0x3314); (0x489,0x3322); (0x48A,0x334D); (0x48B,0x3318); (0x48C,0x3327);
  (0x48D,0x3303); (0x48E,0x3336); (0x48F,0x3351); (0x490,0x3357); (0x491,0x330D); (0x492,0x3326); (0x493,0x3323); (0x494,0x332B);
  (0x495,0x334A); (0x496,0x333B); (0x497,0x339C); (0x498,0x339D); (0x499,0x339E); (0x49A,0x338E); (0x49B,0x338F); (0x49C,0x33C4);
  (0x49D,0x33A1); (0x4A6,0x337B); (0x4A7,0x301D); (0x4A8,0x301F); (0x4A9,0x2116); (0x4AA,0x33CD); (0x4AB,0x2121); (0x4AC,0x32A4);
  (0x4AD,0x32A5); (0x4AE,0x32A6); (0x4AF,0x32A7); (0x4B0,0x32A8); (0x4B1,0x3231); (0x4B2,0x3232); (0x4B3,0x3239); (0x4B4,0x337E);
  (0x4B5,0x337D); (0x4B6,0x337C); (0x4B7,0x2252); (0x4B8,0x2261); (0x4B9,0x222B); (0x4BA,0x222E); (0x4BB,0x2211); (0x4BC,0x221A);
  (0x4BD,0x22A5); (0x4BE,0x2220); (0x4BF,0x221F); (0x4C0,0x22BF); (0x4C1,0x2235); (0x4C2,0x2229); (0x4C3,0x222A); (0x582,0x4E9C);
  (0x583,0x5516); (0x584,0x5A03); (0x585,0x963F); (0x586,0x54C0); (0x587,0x611B); (0x588,0x6328); (0x589,0x59F6); (0x58A,0x9022);
  (0x58B,0x8475); (0x58C,0x831C); (0x58D,0x7A50); (0x58E,0x60AA); (0x58F,0x63E1); (0x590,0x6E25); (0x591,0x65ED); (0x592,0x8466);
  (0x593,0x82A6); (0x594,0x9BF5); (0x595,0x6893); (0x596,0x5727); (0x597,0x65A1); (0x598,0x6271); (0x599,0x5B9B); (0x59A,0x59D0);
  (0x59B,0x867B); (0x59C,0x98F4); (0x59D,0x7D62); (0x59E,0x7DBE); (0x59F,0x9B8E); (0x5A0,0x6216); (0x5A1,0x7C9F); (0x5A2,0x88B7);
  (0x5A3,0x5B89); (0x5A4,0x5EB5); (0x5A5,0x6309); (0x5A6,0x6697); (0x5A7,0x6848); (0x5A8,0x95C7); (0x5A9,0x978D); (0x5AA,0x674F);
  (0x5AB,0x4EE5); (0x5AC,0x4F0A); (0x5AD,0x4F4D); (0x5AE,0x4F9D); (0x5AF,0x5049); (0x5B0,0x56F2); (0x5B1,0x5937); (0x5B2,0x59D4);
  (0x5B3,0x5A01); (0x5B4,0x5C09); (0x5B5,0x60DF); (0x5B6,0x610F); (0x5B7,0x6170); (0x5B8,0x6613); (0x5B9,0x6905); (0x5BA,0x70BA);
  (0x5BB,0x754F); (0x5BC,0x7570); (0x5BD,0x79FB); (0x5BE,0x7DAD); (0x5BF,0x7DEF); (0x5C0,0x80C3); (0x5C1,0x840E); (0x5C2,0x8863);
  (0x5C3,0x8B02); (0x5C4,0x9055); (0x5C5,0x907A); (0x5C6,0x533B); (0x5C7,0x4E95); (0x5C8,0x4EA5); (0x5C9,0x57DF); (0x5CA,0x80B2);
  (0x5CB,0x90C1); (0x5CC,0x78EF); (0x5CD,0x4E00); (0x5CE,0x58F1); (0x5CF,0x6EA2); (0x5D0,0x9038); (0x5D1,0x7A32); (0x5D2,0x8328);
  (0x5D3,0x828B); (0x5D4,0x9C2F); (0x5D5,0x5141); (0x5D6,0x5370); (0x5D7,0x54BD); (0x5D8,0x54E1); (0x5D9,0x56E0); (0x5DA,0x59FB);
  (0x5DB,0x5F15); (0x5DC,0x98F2); (0x5DD,0x6DEB); (0x5DE,0x80E4); (0x5DF,0x852D); (0x5E0,0x9662); (0x5E1,0x9670); (0x5E2,0x96A0);
  (0x5E3,0x97FB); (0x5E4,0x540B); (0x5E5,0x53F3); (0x5E6,0x5B87); (0x5E7,0x70CF); (0x5E8,0x7FBD); (0x5E9,0x8FC2); (0x5EA,0x96E8);
  (0x5EB,0x536F); (0x5EC,0x9D5C); (0x5ED,0x7ABA); (0x5EE,0x4E11); (0x5EF,0x7893); (0x5F0,0x81FC); (0x5F1,0x6E26); (0x5F2,0x5618);
  (0x5F3,0x5504); (0x5F4,0x6B1D); (0x5F5,0x851A); (0x5F6,0x9C3B); (0x5F7,0x59E5); (0x5F8,0x53A9); (0x5F9,0x6D66); (0x5FA,0x74DC);
  (0x5FB,0x958F); (0x5FC,0x5642); (0x5FD,0x4E91); (0x5FE,0x904B); (0x5FF,0x96F2); (0x600,0x834F); (0x601,0x990C); (0x602,0x53E1);
  (0x603,0x55B6); (0x604,0x5B30); (0x605,0x5F71); (0x606,0x6620); (0x607,0x66F3); (0x608,0x6804); (0x609,0x6C38); (0x60A,0x6CF3);
  (0x60B,0x6D29); (0x60C,0x745B); (0x60D,0x76C8); (0x60E,0x7A4E); (0x60F,0x9834); (0x610,0x82F1); (0x611,0x885B); (0x612,0x8A60);
  (0x613,0x92ED); (0x614,0x6DB2); (0x615,0x75AB); (0x616,0x76CA); (0x617,0x99C5); (0x618,0x60A6); (0x619,0x8B01); (0x61A,0x8D8A);
  (0x61B,0x95B2); (0x61C,0x698E); (0x61D,0x53AD); (0x61E,0x5186); (0x61F,0x5712); (0x620,0x5830); (0x621,0x5944); (0x622,0x5BB4)
].
(* encoding_tables/whatwg/index-jis0208.txt (pointer, code point), entries 768..1023 *)
Definition jis0208_index_3 : list (N * N) := [
  (0x623,0x5EF6); (0x624,0x6028); (0x625,0x63A9); (0x626,0x63F4); (0x627,0x6CBF); (0x628,0x6F14); (0x629,0x708E); (0x62A,0x7114);
  (0x62B,0x7159); (0x62C,0x71D5); (0x62D,0x733F); (0x62E,0x7E01); (0x62F,0x8276); (0x630,0x82D1); (0x631,0x8597); (0x632,0x9060);
  (0x633,0x925B); (0x634,0x9D1B); (0x635,0x5869); (0x636,0x65BC); (0x637,0x6C5A); (0x638,0x7525); (0x639,0x51F9); (0x63A,0x592E);
  (0x63B,0x5965); (0x63C,0x5F80); (0x63D,0x5FDC); (0x63E,0x62BC); (0x63F,0x65FA); (0x640,0x6A2A); (0x641,0x6B27); (0x642,0x6BB4);
  (0x643,0x738B); (0x644,0x7FC1); (0x645,0x8956); (0x646,0x9D2C); (0x647,0x9D0E); (0x648,0x9EC4); (0x649,0x5CA1); (0x64A,0x6C96);
  (0x64B,0x837B); (0x64C,0x5104); (0x64D,0x5C4B); (0x64E,0x61B6); (0x64F,0x81C6); (0x650,0x6876); (0x651,0x7261); (0x652,0x4E59);
  (0x653,0x4FFA); (0x654,0x5378); (0x655,0x6069); (0x656,0x6E29); (0x657,0x7A4F); (0x658,0x97F3); (0x659,0x4E0B); (0x65A,0x5316);
  (0x65B,0x4EEE); (0x65C,0x4F55); (0x65D,0x4F3D); (0x65E,0x4FA1); (0x65F,0x4F73); (0x660,0x52A0); (0x661,0x53EF); (0x662,0x5609);
  (0x663,0x590F); (0x664,0x5AC1); (0x665,0x5BB6); (0x666,0x5BE1); (0x667,0x79D1); (0x668,0x6687); (0x669,0x679C); (0x66A,0x67B6);
  (0x66B,0x6B4C); (0x66C,0x6CB3); (0x66D,0x706B); (0x66E,0x73C2); (0x66F,0x798D); (0x670,0x79BE); (0x671,0x7A3C); (0x672,0x7B87);
  (0x673,0x82B1); (0x674,0x82DB); (0x675,0x8304); (0x676,0x8377); (0x677,0x83EF); (0x678,0x83D3); (0x679,0x8766); (0x67A,0x8AB2);
  (0x67B,0x5629); (0x67C,0x8CA8); (0x67D,0x8FE6); (0x67E,0x904E); (0x67F,0x971E); (0x680,0x868A); (0x681,0x4FC4); (0x682,0x5CE8);
  (0x683,0x6211); (0x684,0x7259); (0x685,0x753B); (0x686,0x81E5); (0x687,0x82BD); (0x688,0x86FE); (0x689,0x8CC0); (0x68A,0x96C5);
  (0x68B,0x9913); (0x68C,0x99D5); (0x68D,0x4ECB); (0x68E,0x4F1A); (0x68F,0x89E3); (0x690,0x56DE); (0x691,0x584A); (0x692,0x58CA);
  (0x693,0x5EFB); (0x694,0x5FEB); (0x695,0x602A); (0x696,0x6094); (0x697,0x6062); (0x698,0x61D0); (0x699,0x6212); (0x69A,0x62D0);
  (0x69B,0x6539); (0x69C,0x9B41); (0x69D,0x6666); (0x69E,0x68B0); (0x69F,0x6D77); (0x6A0,0x7070); (0x6A1,0x754C); (0x6A2,0x7686);
  (0x6A3,0x7D75); (0x6A4,0x82A5); (0x6A5,0x87F9); (0x6A6,0x958B); (0x6A7,0x968E); (0x6A8,0x8C9D); (0x6A9,0x51F1); (0x6AA,0x52BE);
  (0x6AB,0x5916); (0x6AC,0x54B3); (0x6AD,0x5BB3); (0x6AE,0x5D16); (0x6AF,0x6168); (0x6B0,0x6982); (0x6B1,0x6DAF); (0x6B2,0x788D);
  (0x6B3,0x84CB); (0x6B4,0x8857); (0x6B5,0x8A72); (0x6B6,0x93A7); (0x6B7,0x9AB8); (0x6B8,0x6D6C); (0x6B9,0x99A8); (0x6BA,0x86D9);
  (0x6BB,0x57A3); (0x6BC,0x67FF); (0x6BD,0x86CE); (0x6BE,0x920E); (0x6BF,0x5283); (0x6C0,0x5687); (0x6C1,0x5404); (0x6C2,0x5ED3);
  (0x6C3,0x62E1); (0x6C4,0x64B9); (0x6C5,0x683C); (0x6C6,0x6838); (0x6C7,0x6BBB); (0x6C8,0x7372); (0x6C9,0x78BA); (0x6CA,0x7A6B);
  (0x6CB,0x899A); (0x6CC,0x89D2); (0x6CD,0x8D6B); (0x6CE,0x8F03); (0x6CF,0x90ED); (0x6D0,0x95A3); (0x6D1,0x9694); (0x6D2,0x9769);
  (0x6D3,0x5B66); (0x6D4,0x5CB3); (0x6D5,0x697D); (0x6D6,0x984D); (0x6D7,0x984E); (0x6D8,0x639B); (0x6D9,0x7B20); (0x6DA,0x6A2B);
  (0x6DB,0x6A7F); (0x6DC,0x68B6); (0x6DD,0x9C0D); (0x6DE,0x6F5F); (0x6DF,0x5272); (0x6E0,0x559D); (0x6E1,0x6070); (0x6E2,0x62EC);
  (0x6E3,0x6D3B); (0x6E4,0x6E07); (0x6E5,0x6ED1); (0x6E6,0x845B); (0x6E7,0x8910); (0x6E8,0x8F44); (0x6E9,0x4E14); (0x6EA,0x9C39);
  (0x6EB,0x53F6); (0x6EC,0x691B); (0x6ED,0x6A3A); (0x6EE,0x9784); (0x6EF,0x682A); (0x6F0,0x515C); (0x6F1,0x7AC3); (0x6F2,0x84B2);
  (0x6F3,0x91DC); (0x6F4,0x938C); (0x6F5,0x565B); (0x6F6,0x9D28); (0x6F7,0x6822); (0x6F8,0x8305); (0x6F9,0x8431); (0x6FA,0x7CA5);
  (0x6FB,0x5208); (0x6FC,0x82C5); (0x6FD,0x74E6); (0x6FE,0x4E7E); (0x6FF,0x4F83); (0x700,0x51A0); (0x701,0x5BD2); (0x702,0x520A);
  (0x703,0x52D8); (0x704,0x52E7); (0x705,0x5DFB); (0x706,0x559A); (0x707,0x582A); (0x708,0x59E6); (0x709,0x5B8C); (0x70A,0x5B98);
  (0x70B,0x5BDB); (0x70C,0x5E72); (0x70D,0x5E79); (0x70E,0x60A3); (0x70F,0x611F); (0x710,0x6163); (0x711,0x61BE); (0x712,0x63DB);
  (0x713,0x6562); (0x714,0x67D1); (0x715,0x6853); (0x716,0x68FA); (0x717,0x6B3E); (0x718,0x6B53); (0x719,0x6C57); (0x71A,0x6F22);
  (0x71B,0x6F97); (0x71C,0x6F45); (0x71D,0x74B0); (0x71E,0x7518); (0x71F,0x76E3); (0x720,0x770B); (0x721,0x7AFF); (0x722,0x7BA1)
].
(* encoding_tables/whatwg/index-jis0208.txt (pointer, code point), entries 1024..1279 *)
Definition jis0208_index_4 : list (N * N) := [
  (0x723,0x7C21); (0x724,0x7DE9); (0x725,0x7F36); (0x726,0x7FF0); (0x727,0x809D); (0x728,0x8266); (0x729,0x839E); (0x72A,0x89B3);
  (0x72B,0x8ACC); (0x72C,0x8CAB); (0x72D,0x9084); (0x72E,0x9451); (0x72F,0x9593); (0x730,0x9591); (0x731,0x95A2); (0x732,0x9665);
  (0x733,0x97D3); (0x734,0x9928); (0x735,0x8218); (0x736,0x4E38); (0x737,0x542B); (0x738,0x5CB8); (0x739,0x5DCC); (0x73A,0x73A9);
  (0x73B,0x764C); (0x73C,0x773C); (0x73D,0x5CA9); (0x73E,0x7FEB); (0x73F,0x8D0B); (0x740,0x96C1); (0x741,0x9811); (0x742,0x9854);
  (0x743,0x9858); (0x744,0x4F01); (0x745,0x4F0E); (0x746,0x5371); (0x747,0x559C); (0x748,0x5668); (0x749,0x57FA); (0x74A,0x5947);
  (0x74B,0x5B09); (0x74C,0x5BC4); (0x74D,0x5C90); (0x74E,0x5E0C); (0x74F,0x5E7E); (0x750,0x5FCC); (0x751,0x63EE); (0x752,0x673A);
  (0x753,0x65D7); (0x754,0x65E2); (0x755,0x671F); (0x756,0x68CB); (0x757,0x68C4); (0x758,0x6A5F); (0x759,0x5E30); (0x75A,0x6BC5);
  (0x75B,0x6C17); (0x75C,0x6C7D); (0x75D,0x757F); (0x75E,0x7948); (0x75F,0x5B63); (0x760,0x7A00); (0x761,0x7D00); (0x762,0x5FBD);
  (0x763,0x898F); (0x764,0x8A18); (0x765,0x8CB4); (0x766,0x8D77); (0x767,0x8ECC); (0x768,0x8F1D); (0x769,0x98E2); (0x76A,0x9A0E);
  (0x76B,0x9B3C); (0x76C,0x4E80); (0x76D,0x507D); (0x76E,0x5100); (0x76F,0x5993); (0x770,0x5B9C); (0x771,0x622F); (0x772,0x6280);
  (0x773,0x64EC); (0x774,0x6B3A); (0x775,0x72A0); (0x776,0x7591); (0x777,0x7947); (0x778,0x7FA9); (0x779,0x87FB); (0x77A,0x8ABC);
  (0x77B,0x8B70); (0x77C,0x63AC); (0x77D,0x83CA); (0x77E,0x97A0); (0x77F,0x5409); (0x780,0x5403); (0x781,0x55AB); (0x782,0x6854);
  (0x783,0x6A58); (0x784,0x8A70); (0x785,0x7827); (0x786,0x6775); (0x787,0x9ECD); (0x788,0x5374); (0x789,0x5BA2); (0x78A,0x811A);
  (0x78B,0x8650); (0x78C,0x9006); (0x78D,0x4E18); (0x78E,0x4E45); (0x78F,0x4EC7); (0x790,0x4F11); (0x791,0x53CA); (0x792,0x5438);
  (0x793,0x5BAE); (0x794,0x5F13); (0x795,0x6025); (0x796,0x6551); (0x797,0x673D); (0x798,0x6C42); (0x799,0x6C72); (0x79A,0x6CE3);
  (0x79B,0x7078); (0x79C,0x7403); (0x79D,0x7A76); (0x79E,0x7AAE); (0x79F,0x7B08); (0x7A0,0x7D1A); (0x7A1,0x7CFE); (0x7A2,0x7D66);
  (0x7A3,0x65E7); (0x7A4,0x725B); (0x7A5,0x53BB); (0x7A6,0x5C45); (0x7A7,0x5DE8); (0x7A8,0x62D2); (0x7A9,0x62E0); (0x7AA,0x6319);
  (0x7AB,0x6E20); (0x7AC,0x865A); (0x7AD,0x8A31); (0x7AE,0x8DDD); (0x7AF,0x92F8); (0x7B0,0x6F01); (0x7B1,0x79A6); (0x7B2,0x9B5A);
  (0x7B3,0x4EA8); (0x7B4,0x4EAB); (0x7B5,0x4EAC); (0x7B6,0x4F9B); (0x7B7,0x4FA0); (0x7B8,0x50D1); (0x7B9,0x5147); (0x7BA,0x7AF6);
  (0x7BB,0x5171); (0x7BC,0x51F6); (0x7BD,0x5354); (0x7BE,0x5321); (0x7BF,0x537F); (0x7C0,0x53EB); (0x7C1,0x55AC); (0x7C2,0x5883);
  (0x7C3,0x5CE1); (0x7C4,0x5F37); (0x7C5,0x5F4A); (0x7C6,0x602F); (0x7C7,0x6050); (0x7C8,0x606D); (0x7C9,0x631F); (0x7CA,0x6559);
  (0x7CB,0x6A4B); (0x7CC,0x6CC1); (0x7CD,0x72C2); (0x7CE,0x72ED); (0x7CF,0x77EF); (0x7D0,0x80F8); (0x7D1,0x8105); (0x7D2,0x8208);
  (0x7D3,0x854E); (0x7D4,0x90F7); (0x7D5,0x93E1); (0x7D6,0x97FF); (0x7D7,0x9957); (0x7D8,0x9A5A); (0x7D9,0x4EF0); (0x7DA,0x51DD);
  (0x7DB,0x5C2D); (0x7DC,0x6681); (0x7DD,0x696D); (0x7DE,0x5C40); (0x7DF,0x66F2); (0x7E0,0x6975); (0x7E1,0x7389); (0x7E2,0x6850);
  (0x7E3,0x7C81); (0x7E4,0x50C5); (0x7E5,0x52E4); (0x7E6,0x5747); (0x7E7,0x5DFE); (0x7E8,0x9326); (0x7E9,0x65A4); (0x7EA,0x6B23);
  (0x7EB,0x6B3D); (0x7EC,0x7434); (0x7ED,0x7981); (0x7EE,0x79BD); (0x7EF,0x7B4B); (0x7F0,0x7DCA); (0x7F1,0x82B9); (0x7F2,0x83CC);
  (0x7F3,0x887F); (0x7F4,0x895F); (0x7F5,0x8B39); (0x7F6,0x8FD1); (0x7F7,0x91D1); (0x7F8,0x541F); (0x7F9,0x9280); (0x7FA,0x4E5D);
  (0x7FB,0x5036); (0x7FC,0x53E5); (0x7FD,0x533A); (0x7FE,0x72D7); (0x7FF,0x7396); (0x800,0x77E9); (0x801,0x82E6); (0x802,0x8EAF);
  (0x803,0x99C6); (0x804,0x99C8); (0x805,0x99D2); (0x806,0x5177); (0x807,0x611A); (0x808,0x865E); (0x809,0x55B0); (0x80A,0x7A7A);
  (0x80B,0x5076); (0x80C,0x5BD3); (0x80D,0x9047); (0x80E,0x9685); (0x80F,0x4E32); (0x810,0x6ADB); (0x811,0x91E7); (0x812,0x5C51);
  (0x813,0x5C48); (0x814,0x6398); (0x815,0x7A9F); (0x816,0x6C93); (0x817,0x9774); (0x818,0x8F61); (0x819,0x7AAA); (0x81A,0x718A);
  (0x81B,0x9688); (0x81C,0x7C82); (0x81D,0x6817); (0x81E,0x7E70); (0x81F,0x6851); (0x820,0x936C); (0x821,0x52F2); (0x822,0x541B)
].
(* encoding_tables/whatwg/index-jis0208.txt (pointer, code point), entries 1280..1535 *)
Definition jis0208_index_5 : list (N * N) := [
  (0x823,0x85AB); (0x824,0x8A13); (0x825,0x7FA4); (0x826,0x8ECD); (0x827,0x90E1); (0x828,0x5366); (0x829,0x8888); (0x82A,0x7941);
  (0x82B,0x4FC2); (0x82C,0x50BE); (0x82D,0x5211); (0x82E,0x5144); (0x82F,0x5553); (0x830,0x572D); (0x831,0x73EA); (0x832,0x578B);
  (0x833,0x5951); (0x834,0x5F62); (0x835,0x5F84); (0x836,0x6075); (0x837,0x6176); (0x838,0x6167); (0x839,0x61A9); (0x83A,0x63B2);
  (0x83B,0x643A); (0x83C,0x656C); (0x83D,0x666F); (0x83E,0x6842); (0x83F,0x6E13); (0x840,0x7566); (0x841,0x7A3D); (0x842,0x7CFB);
  (0x843,0x7D4C); (0x844,0x7D99); (0x845,0x7E4B); (0x846,0x7F6B); (0x847,0x830E); (0x848,0x834A); (0x849,0x86CD); (0x84A,0x8A08);
  (0x84B,0x8A63); (0x84C,0x8B66); (0x84D,0x8EFD); (0x84E,0x981A); (0x84F,0x9D8F); (0x850,0x82B8); (0x851,0x8FCE); (0x852,0x9BE8);
  (0x853,0x5287); (0x854,0x621F); (0x855,0x6483); (0x856,0x6FC0); (0x857,0x9699); (0x858,0x6841); (0x859,0x5091); (0x85A,0x6B20);
  (0x85B,0x6C7A); (0x85C,0x6F54); (0x85D,0x7A74); (0x85E,0x7D50); (0x85F,0x8840); (0x860,0x8A23); (0x861,0x6708); (0x862,0x4EF6);
  (0x863,0x5039); (0x864,0x5026); (0x865,0x5065); (0x866,0x517C); (0x867,0x5238); (0x868,0x5263); (0x869,0x55A7); (0x86A,0x570F);
  (0x86B,0x5805); (0x86C,0x5ACC); (0x86D,0x5EFA); (0x86E,0x61B2); (0x86F,0x61F8); (0x870,0x62F3); (0x871,0x6372); (0x872,0x691C);
  (0x873,0x6A29); (0x874,0x727D); (0x875,0x72AC); (0x876,0x732E); (0x877,0x7814); (0x878,0x786F); (0x879,0x7D79); (0x87A,0x770C);
  (0x87B,0x80A9); (0x87C,0x898B); (0x87D,0x8B19); (0x87E,0x8CE2); (0x87F,0x8ED2); (0x880,0x9063); (0x881,0x9375); (0x882,0x967A);
  (0x883,0x9855); (0x884,0x9A13); (0x885,0x9E78); (0x886,0x5143); (0x887,0x539F); (0x888,0x53B3); (0x889,0x5E7B); (0x88A,0x5F26);
  (0x88B,0x6E1B); (0x88C,0x6E90); (0x88D,0x7384); (0x88E,0x73FE); (0x88F,0x7D43); (0x890,0x8237); (0x891,0x8A00); (0x892,0x8AFA);
  (0x893,0x9650); (0x894,0x4E4E); (0x895,0x500B); (0x896,0x53E4); (0x897,0x547C); (0x898,0x56FA); (0x899,0x59D1); (0x89A,0x5B64);
  (0x89B,0x5DF1); (0x89C,0x5EAB); (0x89D,0x5F27); (0x89E,0x6238); (0x89F,0x6545); (0x8A0,0x67AF); (0x8A1,0x6E56); (0x8A2,0x72D0);
  (0x8A3,0x7CCA); (0x8A4,0x88B4); (0x8A5,0x80A1); (0x8A6,0x80E1); (0x8A7,0x83F0); (0x8A8,0x864E); (0x8A9,0x8A87); (0x8AA,0x8DE8);
  (0x8AB,0x9237); (0x8AC,0x96C7); (0x8AD,0x9867); (0x8AE,0x9F13); (0x8AF,0x4E94); (0x8B0,0x4E92); (0x8B1,0x4F0D); (0x8B2,0x5348);
  (0x8B3,0x5449); (0x8B4,0x543E); (0x8B5,0x5A2F); (0x8B6,0x5F8C); (0x8B7,0x5FA1); (0x8B8,0x609F); (0x8B9,0x68A7); (0x8BA,0x6A8E);
  (0x8BB,0x745A); (0x8BC,0x7881); (0x8BD,0x8A9E); (0x8BE,0x8AA4); (0x8BF,0x8B77); (0x8C0,0x9190); (0x8C1,0x4E5E); (0x8C2,0x9BC9);
  (0x8C3,0x4EA4); (0x8C4,0x4F7C); (0x8C5,0x4FAF); (0x8C6,0x5019); (0x8C7,0x5016); (0x8C8,0x5149); (0x8C9,0x516C); (0x8CA,0x529F);
  (0x8CB,0x52B9); (0x8CC,0x52FE); (0x8CD,0x539A); (0x8CE,0x53E3); (0x8CF,0x5411); (0x8D0,0x540E); (0x8D1,0x5589); (0x8D2,0x5751);
  (0x8D3,0x57A2); (0x8D4,0x597D); (0x8D5,0x5B54); (0x8D6,0x5B5D); (0x8D7,0x5B8F); (0x8D8,0x5DE5); (0x8D9,0x5DE7); (0x8DA,0x5DF7);
  (0x8DB,0x5E78); (0x8DC,0x5E83); (0x8DD,0x5E9A); (0x8DE,0x5EB7); (0x8DF,0x5F18); (0x8E0,0x6052); (0x8E1,0x614C); (0x8E2,0x6297);
  (0x8E3,0x62D8); (0x8E4,0x63A7); (0x8E5,0x653B); (0x8E6,0x6602); (0x8E7,0x6643); (0x8E8,0x66F4); (0x8E9,0x676D); (0x8EA,0x6821);
  (0x8EB,0x6897); (0x8EC,0x69CB); (0x8ED,0x6C5F); (0x8EE,0x6D2A); (0x8EF,0x6D69); (0x8F0,0x6E2F); (0x8F1,0x6E9D); (0x8F2,0x7532);
  (0x8F3,0x7687); (0x8F4,0x786C); (0x8F5,0x7A3F); (0x8F6,0x7CE0); (0x8F7,0x7D05); (0x8F8,0x7D18); (0x8F9,0x7D5E); (0x8FA,0x7DB1);
  (0x8FB,0x8015); (0x8FC,0x8003); (0x8FD,0x80AF); (0x8FE,0x80B1); (0x8FF,0x8154); (0x900,0x818F); (0x901,0x822A); (0x902,0x8352);
  (0x903,0x884C); (0x904,0x8861); (0x905,0x8B1B); (0x906,0x8CA2); (0x907,0x8CFC); (0x908,0x90CA); (0x909,0x9175); (0x90A,0x9271);
  (0x90B,0x783F); (0x90C,0x92FC); (0x90D,0x95A4); (0x90E,0x964D); (0x90F,0x9805); (0x910,0x9999); (0x911,0x9AD8); (0x912,0x9D3B);
  (0x913,0x525B); (0x914,0x52AB); (0x915,0x53F7); (0x916,0x5408); (0x917,0x58D5); (0x918,0x62F7); (0x919,0x6FE0); (0x91A,0x8C6A);
  (0x91B,0x8F5F); (0x91C,0x9EB9); (0x91D,0x514B); (0x91E,0x523B); (0x91F,0x544A); (0x920,0x56FD); (0x921,0x7A40); (0x922,0x9177)
].
(* encoding_tables/whatwg/index-jis0208.txt (pointer, code point), entries 1536..1791 *)
Definition jis0208_index_6 : list (N * N) := [
  (0x923,0x9D60); (0x924,0x9ED2); (0x925,0x7344); (0x926,0x6F09); (0x927,0x8170); (0x928,0x7511); (0x929,0x5FFD); (0x92A,0x60DA);
  (0x92B,0x9AA8); (0x92C,0x72DB); (0x92D,0x8FBC); (0x92E,0x6B64); (0x92F,0x9803); (0x930,0x4ECA); (0x931,0x56F0); (0x932,0x5764);
  (0x933,0x58BE); (0x934,0x5A5A); (0x935,0x6068); (0x936,0x61C7); (0x937,0x660F); (0x938,0x6606); (0x939,0x6839); (0x93A,0x68B1);
  (0x93B,0x6DF7); (0x93C,0x75D5); (0x93D,0x7D3A); (0x93E,0x826E); (0x93F,0x9B42); (0x940,0x4E9B); (0x941,0x4F50); (0x942,0x53C9);
  (0x943,0x5506); (0x944,0x5D6F); (0x945,0x5DE6); (0x946,0x5DEE); (0x947,0x67FB); (0x948,0x6C99); (0x949,0x7473); (0x94A,0x7802);
  (0x94B,0x8A50); (0x94C,0x9396); (0x94D,0x88DF); (0x94E,0x5750); (0x94F,0x5EA7); (0x950,0x632B); (0x951,0x50B5); (0x952,0x50AC);
  (0x953,0x518D); (0x954,0x6700); (0x955,0x54C9); (0x956,0x585E); (0x957,0x59BB); (0x958,0x5BB0); (0x959,0x5F69); (0x95A,0x624D);
  (0x95B,0x63A1); (0x95C,0x683D); (0x95D,0x6B73); (0x95E,0x6E08); (0x95F,0x707D); (0x960,0x91C7); (0x961,0x7280); (0x962,0x7815);
  (0x963,0x7826); (0x964,0x796D); (0x965,0x658E); (0x966,0x7D30); (0x967,0x83DC); (0x968,0x88C1); (0x969,0x8F09); (0x96A,0x969B);
  (0x96B,0x5264); (0x96C,0x5728); (0x96D,0x6750); (0x96E,0x7F6A); (0x96F,0x8CA1); (0x970,0x51B4); (0x971,0x5742); (0x972,0x962A);
  (0x973,0x583A); (0x974,0x698A); (0x975,0x80B4); (0x976,0x54B2); (0x977,0x5D0E); (0x978,0x57FC); (0x979,0x7895); (0x97A,0x9DFA);
  (0x97B,0x4F5C); (0x97C,0x524A); (0x97D,0x548B); (0x97E,0x643E); (0x97F,0x6628); (0x980,0x6714); (0x981,0x67F5); (0x982,0x7A84);
  (0x983,0x7B56); (0x984,0x7D22); (0x985,0x932F); (0x986,0x685C); (0x987,0x9BAD); (0x988,0x7B39); (0x989,0x5319); (0x98A,0x518A);
  (0x98B,0x5237); (0x98C,0x5BDF); (0x98D,0x62F6); (0x98E,0x64AE); (0x98F,0x64E6); (0x990,0x672D); (0x991,0x6BBA); (0x992,0x85A9);
  (0x993,0x96D1); (0x994,0x7690); (0x995,0x9BD6); (0x996,0x634C); (0x997,0x9306); (0x998,0x9BAB); (0x999,0x76BF); (0x99A,0x6652);
  (0x99B,0x4E09); (0x99C,0x5098); (0x99D,0x53C2); (0x99E,0x5C71); (0x99F,0x60E8); (0x9A0,0x6492); (0x9A1,0x6563); (0x9A2,0x685F);
  (0x9A3,0x71E6); (0x9A4,0x73CA); (0x9A5,0x7523); (0x9A6,0x7B97); (0x9A7,0x7E82); (0x9A8,0x8695); (0x9A9,0x8B83); (0x9AA,0x8CDB);
  (0x9AB,0x9178); (0x9AC,0x9910); (0x9AD,0x65AC); (0x9AE,0x66AB); (0x9AF,0x6B8B); (0x9B0,0x4ED5); (0x9B1,0x4ED4); (0x9B2,0x4F3A);
  (0x9B3,0x4F7F); (0x9B4,0x523A); (0x9B5,0x53F8); (0x9B6,0x53F2); (0x9B7,0x55E3); (0x9B8,0x56DB); (0x9B9,0x58EB); (0x9BA,0x59CB);
  (0x9BB,0x59C9); (0x9BC,0x59FF); (0x9BD,0x5B50); (0x9BE,0x5C4D); (0x9BF,0x5E02); (0x9C0,0x5E2B); (0x9C1,0x5FD7); (0x9C2,0x601D);
  (0x9C3,0x6307); (0x9C4,0x652F); (0x9C5,0x5B5C); (0x9C6,0x65AF); (0x9C7,0x65BD); (0x9C8,0x65E8); (0x9C9,0x679D); (0x9CA,0x6B62);
  (0x9CB,0x6B7B); (0x9CC,0x6C0F); (0x9CD,0x7345); (0x9CE,0x7949); (0x9CF,0x79C1); (0x9D0,0x7CF8); (0x9D1,0x7D19); (0x9D2,0x7D2B);
  (0x9D3,0x80A2); (0x9D4,0x8102); (0x9D5,0x81F3); (0x9D6,0x8996); (0x9D7,0x8A5E); (0x9D8,0x8A69); (0x9D9,0x8A66); (0x9DA,0x8A8C);
  (0x9DB,0x8AEE); (0x9DC,0x8CC7); (0x9DD,0x8CDC); (0x9DE,0x96CC); (0x9DF,0x98FC); (0x9E0,0x6B6F); (0x9E1,0x4E8B); (0x9E2,0x4F3C);
  (0x9E3,0x4F8D); (0x9E4,0x5150); (0x9E5,0x5B57); (0x9E6,0x5BFA); (0x9E7,0x6148); (0x9E8,0x6301); (0x9E9,0x6642); (0x9EA,0x6B21);
  (0x9EB,0x6ECB); (0x9EC,0x6CBB); (0x9ED,0x723E); (0x9EE,0x74BD); (0x9EF,0x75D4); (0x9F0,0x78C1); (0x9F1,0x793A); (0x9F2,0x800C);
  (0x9F3,0x8033); (0x9F4,0x81EA); (0x9F5,0x8494); (0x9F6,0x8F9E); (0x9F7,0x6C50); (0x9F8,0x9E7F); (0x9F9,0x5F0F); (0x9FA,0x8B58);
  (0x9FB,0x9D2B); (0x9FC,0x7AFA); (0x9FD,0x8EF8); (0x9FE,0x5B8D); (0x9FF,0x96EB); (0xA00,0x4E03); (0xA01,0x53F1); (0xA02,0x57F7);
  (0xA03,0x5931); (0xA04,0x5AC9); (0xA05,0x5BA4); (0xA06,0x6089); (0xA07,0x6E7F); (0xA08,0x6F06); (0xA09,0x75BE); (0xA0A,0x8CEA);
  (0xA0B,0x5B9F); (0xA0C,0x8500); (0xA0D,0x7BE0); (0xA0E,0x5072); (0xA0F,0x67F4); (0xA10,0x829D); (0xA11,0x5C61); (0xA12,0x854A);
  (0xA13,0x7E1E); (0xA14,0x820E); (0xA15,0x5199); (0xA16,0x5C04); (0xA17,0x6368); (0xA18,0x8D66); (0xA19,0x659C); (0xA1A,0x716E);
  (0xA1B,0x793E); (0xA1C,0x7D17); (0xA1D,0x8005); (0xA1E,0x8B1D); (0xA1F,0x8ECA); (0xA20,0x906E); (0xA21,0x86C7); (0xA22,0x90AA)
].
(* encoding_tables/whatwg/index-jis0208.txt (pointer, code point), entries 1792..2047 *)
Definition jis0208_index_7 : list (N * N) := [
  (0xA23,0x501F); (0xA24,0x52FA); (0xA25,0x5C3A); (0xA26,0x6753); (0xA27,0x707C); (0xA28,0x7235); (0xA29,0x914C); (0xA2A,0x91C8);
  (0xA2B,0x932B); (0xA2C,0x82E5); (0xA2D,0x5BC2); (0xA2E,0x5F31); (0xA2F,0x60F9); (0xA30,0x4E3B); (0xA31,0x53D6); (0xA32,0x5B88);
  (0xA33,0x624B); (0xA34,0x6731); (0xA35,0x6B8A); (0xA36,0x72E9); (0xA37,0x73E0); (0xA38,0x7A2E); (0xA39,0x816B); (0xA3A,0x8DA3);
  (0xA3B,0x9152); (0xA3C,0x9996); (0xA3D,0x5112); (0xA3E,0x53D7); (0xA3F,0x546A); (0xA40,0x5BFF); (0xA41,0x6388); (0xA42,0x6A39);
  (0xA43,0x7DAC); (0xA44,0x9700); (0xA45,0x56DA); (0xA46,0x53CE); (0xA47,0x5468); (0xA48,0x5B97); (0xA49,0x5C31); (0xA4A,0x5DDE);
  (0xA4B,0x4FEE); (0xA4C,0x6101); (0xA4D,0x62FE); (0xA4E,0x6D32); (0xA4F,0x79C0); (0xA50,0x79CB); (0xA51,0x7D42); (0xA52,0x7E4D);
  (0xA53,0x7FD2); (0xA54,0x81ED); (0xA55,0x821F); (0xA56,0x8490); (0xA57,0x8846); (0xA58,0x8972); (0xA59,0x8B90); (0xA5A,0x8E74);
  (0xA5B,0x8F2F); (0xA5C,0x9031); (0xA5D,0x914B); (0xA5E,0x916C); (0xA5F,0x96C6); (0xA60,0x919C); (0xA61,0x4EC0); (0xA62,0x4F4F);
  (0xA63,0x5145); (0xA64,0x5341); (0xA65,0x5F93); (0xA66,0x620E); (0xA67,0x67D4); (0xA68,0x6C41); (0xA69,0x6E0B); (0xA6A,0x7363);
  (0xA6B,0x7E26); (0xA6C,0x91CD); (0xA6D,0x9283); (0xA6E,0x53D4); (0xA6F,0x5919); (0xA70,0x5BBF); (0xA71,0x6DD1); (0xA72,0x795D);
  (0xA73,0x7E2E); (0xA74,0x7C9B); (0xA75,0x587E); (0xA76,0x719F); (0xA77,0x51FA); (0xA78,0x8853); (0xA79,0x8FF0); (0xA7A,0x4FCA);
  (0xA7B,0x5CFB); (0xA7C,0x6625); (0xA7D,0x77AC); (0xA7E,0x7AE3); (0xA7F,0x821C); (0xA80,0x99FF); (0xA81,0x51C6); (0xA82,0x5FAA);
  (0xA83,0x65EC); (0xA84,0x696F); (0xA85,0x6B89); (0xA86,0x6DF3); (0xA87,0x6E96); (0xA88,0x6F64); (0xA89,0x76FE); (0xA8A,0x7D14);
  (0xA8B,0x5DE1); (0xA8C,0x9075); (0xA8D,0x9187); (0xA8E,0x9806); (0xA8F,0x51E6); (0xA90,0x521D); (0xA91,0x6240); (0xA92,0x6691);
  (0xA93,0x66D9); (0xA94,0x6E1A); (0xA95,0x5EB6); (0xA96,0x7DD2); (0xA97,0x7F72); (0xA98,0x66F8); (0xA99,0x85AF); (0xA9A,0x85F7);
  (0xA9B,0x8AF8); (0xA9C,0x52A9); (0xA9D,0x53D9); (0xA9E,0x5973); (0xA9F,0x5E8F); (0xAA0,0x5F90); (0xAA1,0x6055); (0xAA2,0x92E4);
  (0xAA3,0x9664); (0xAA4,0x50B7); (0xAA5,0x511F); (0xAA6,0x52DD); (0xAA7,0x5320); (0xAA8,0x5347); (0xAA9,0x53EC); (0xAAA,0x54E8);
  (0xAAB,0x5546); (0xAAC,0x5531); (0xAAD,0x5617); (0xAAE,0x5968); (0xAAF,0x59BE); (0xAB0,0x5A3C); (0xAB1,0x5BB5); (0xAB2,0x5C06);
  (0xAB3,0x5C0F); (0xAB4,0x5C11); (0xAB5,0x5C1A); (0xAB6,0x5E84); (0xAB7,0x5E8A); (0xAB8,0x5EE0); (0xAB9,0x5F70); (0xABA,0x627F);
  (0xABB,0x6284); (0xABC,0x62DB); (0xABD,0x638C); (0xABE,0x6377); (0xABF,0x6607); (0xAC0,0x660C); (0xAC1,0x662D); (0xAC2,0x6676);
  (0xAC3,0x677E); (0xAC4,0x68A2); (0xAC5,0x6A1F); (0xAC6,0x6A35); (0xAC7,0x6CBC); (0xAC8,0x6D88); (0xAC9,0x6E09); (0xACA,0x6E58);
  (0xACB,0x713C); (0xACC,0x7126); (0xACD,0x7167); (0xACE,0x75C7); (0xACF,0x7701); (0xAD0,0x785D); (0xAD1,0x7901); (0xAD2,0x7965);
  (0xAD3,0x79F0); (0xAD4,0x7AE0); (0xAD5,0x7B11); (0xAD6,0x7CA7); (0xAD7,0x7D39); (0xAD8,0x8096); (0xAD9,0x83D6); (0xADA,0x848B);
  (0xADB,0x8549); (0xADC,0x885D); (0xADD,0x88F3); (0xADE,0x8A1F); (0xADF,0x8A3C); (0xAE0,0x8A54); (0xAE1,0x8A73); (0xAE2,0x8C61);
  (0xAE3,0x8CDE); (0xAE4,0x91A4); (0xAE5,0x9266); (0xAE6,0x937E); (0xAE7,0x9418); (0xAE8,0x969C); (0xAE9,0x9798); (0xAEA,0x4E0A);
  (0xAEB,0x4E08); (0xAEC,0x4E1E); (0xAED,0x4E57); (0xAEE,0x5197); (0xAEF,0x5270); (0xAF0,0x57CE); (0xAF1,0x5834); (0xAF2,0x58CC);
  (0xAF3,0x5B22); (0xAF4,0x5E38); (0xAF5,0x60C5); (0xAF6,0x64FE); (0xAF7,0x6761); (0xAF8,0x6756); (0xAF9,0x6D44); (0xAFA,0x72B6);
  (0xAFB,0x7573); (0xAFC,0x7A63); (0xAFD,0x84B8); (0xAFE,0x8B72); (0xAFF,0x91B8); (0xB00,0x9320); (0xB01,0x5631); (0xB02,0x57F4);
  (0xB03,0x98FE); (0xB04,0x62ED); (0xB05,0x690D); (0xB06,0x6B96); (0xB07,0x71ED); (0xB08,0x7E54); (0xB09,0x8077); (0xB0A,0x8272);
  (0xB0B,0x89E6); (0xB0C,0x98DF); (0xB0D,0x8755); (0xB0E,0x8FB1); (0xB0F,0x5C3B); (0xB10,0x4F38); (0xB11,0x4FE1); (0xB12,0x4FB5);
  (0xB13,0x5507); (0xB14,0x5A20); (0xB15,0x5BDD); (0xB16,0x5BE9); (0xB17,0x5FC3); (0xB18,0x614E); (0xB19,0x632F); (0xB1A,0x65B0);
  (0xB1B,0x664B); (0xB1C,0x68EE); (0xB1D,0x699B); (0xB1E,0x6D78); (0xB1F,0x6DF1); (0xB20,0x7533); (0xB21,0x75B9); (0xB22,0x771F)
].
(* encoding_tables/whatwg/index-jis0208.txt (pointer, code point), entries 2048..2303 *)
Definition jis0208_index_8 : list (N * N) := [
  (0xB23,0x795E); (0xB24,0x79E6); (0xB25,0x7D33); (0xB26,0x81E3); (0xB27,0x82AF); (0xB28,0x85AA); (0xB29,0x89AA); (0xB2A,0x8A3A);
  (0xB2B,0x8EAB); (0xB2C,0x8F9B); (0xB2D,0x9032); (0xB2E,0x91DD); (0xB2F,0x9707); (0xB30,0x4EBA); (0xB31,0x4EC1); (0xB32,0x5203);
  (0xB33,0x5875); (0xB34,0x58EC); (0xB35,0x5C0B); (0xB36,0x751A); (0xB37,0x5C3D); (0xB38,0x814E); (0xB39,0x8A0A); (0xB3A,0x8FC5);
  (0xB3B,0x9663); (0xB3C,0x976D); (0xB3D,0x7B25); (0xB3E,0x8ACF); (0xB3F,0x9808); (0xB40,0x9162); (0xB41,0x56F3); (0xB42,0x53A8);
  (0xB43,0x9017); (0xB44,0x5439); (0xB45,0x5782); (0xB46,0x5E25); (0xB47,0x63A8); (0xB48,0x6C34); (0xB49,0x708A); (0xB4A,0x7761);
  (0xB4B,0x7C8B); (0xB4C,0x7FE0); (0xB4D,0x8870); (0xB4E,0x9042); (0xB4F,0x9154); (0xB50,0x9310); (0xB51,0x9318); (0xB52,0x968F);
  (0xB53,0x745E); (0xB54,0x9AC4); (0xB55,0x5D07); (0xB56,0x5D69); (0xB57,0x6570); (0xB58,0x67A2); (0xB59,0x8DA8); (0xB5A,0x96DB);
  (0xB5B,0x636E); (0xB5C,0x6749); (0xB5D,0x6919); (0xB5E,0x83C5); (0xB5F,0x9817); (0xB60,0x96C0); (0xB61,0x88FE); (0xB62,0x6F84);
  (0xB63,0x647A); (0xB64,0x5BF8); (0xB65,0x4E16); (0xB66,0x702C); (0xB67,0x755D); (0xB68,0x662F); (0xB69,0x51C4); (0xB6A,0x5236);
  (0xB6B,0x52E2); (0xB6C,0x59D3); (0xB6D,0x5F81); (0xB6E,0x6027); (0xB6F,0x6210); (0xB70,0x653F); (0xB71,0x6574); (0xB72,0x661F);
  (0xB73,0x6674); (0xB74,0x68F2); (0xB75,0x6816); (0xB76,0x6B63); (0xB77,0x6E05); (0xB78,0x7272); (0xB79,0x751F); (0xB7A,0x76DB);
  (0xB7B,0x7CBE); (0xB7C,0x8056); (0xB7D,0x58F0); (0xB7E,0x88FD); (0xB7F,0x897F); (0xB80,0x8AA0); (0xB81,0x8A93); (0xB82,0x8ACB);
  (0xB83,0x901D); (0xB84,0x9192); (0xB85,0x9752); (0xB86,0x9759); (0xB87,0x6589); (0xB88,0x7A0E); (0xB89,0x8106); (0xB8A,0x96BB);
  (0xB8B,0x5E2D); (0xB8C,0x60DC); (0xB8D,0x621A); (0xB8E,0x65A5); (0xB8F,0x6614); (0xB90,0x6790); (0xB91,0x77F3); (0xB92,0x7A4D);
  (0xB93,0x7C4D); (0xB94,0x7E3E); (0xB95,0x810A); (0xB96,0x8CAC); (0xB97,0x8D64); (0xB98,0x8DE1); (0xB99,0x8E5F); (0xB9A,0x78A9);
  (0xB9B,0x5207); (0xB9C,0x62D9); (0xB9D,0x63A5); (0xB9E,0x6442); (0xB9F,0x6298); (0xBA0,0x8A2D); (0xBA1,0x7A83); (0xBA2,0x7BC0);
  (0xBA3,0x8AAC); (0xBA4,0x96EA); (0xBA5,0x7D76); (0xBA6,0x820C); (0xBA7,0x8749); (0xBA8,0x4ED9); (0xBA9,0x5148); (0xBAA,0x5343);
  (0xBAB,0x5360); (0xBAC,0x5BA3); (0xBAD,0x5C02); (0xBAE,0x5C16); (0xBAF,0x5DDD); (0xBB0,0x6226); (0xBB1,0x6247); (0xBB2,0x64B0);
  (0xBB3,0x6813); (0xBB4,0x6834); (0xBB5,0x6CC9); (0xBB6,0x6D45); (0xBB7,0x6D17); (0xBB8,0x67D3); (0xBB9,0x6F5C); (0xBBA,0x714E);
  (0xBBB,0x717D); (0xBBC,0x65CB); (0xBBD,0x7A7F); (0xBBE,0x7BAD); (0xBBF,0x7DDA); (0xBC0,0x7E4A); (0xBC1,0x7FA8); (0xBC2,0x817A);
  (0xBC3,0x821B); (0xBC4,0x8239); (0xBC5,0x85A6); (0xBC6,0x8A6E); (0xBC7,0x8CCE); (0xBC8,0x8DF5); (0xBC9,0x9078); (0xBCA,0x9077);
  (0xBCB,0x92AD); (0xBCC,0x9291); (0xBCD,0x9583); (0xBCE,0x9BAE); (0xBCF,0x524D); (0xBD0,0x5584); (0xBD1,0x6F38); (0xBD2,0x7136);
  (0xBD3,0x5168); (0xBD4,0x7985); (0xBD5,0x7E55); (0xBD6,0x81B3); (0xBD7,0x7CCE); (0xBD8,0x564C); (0xBD9,0x5851); (0xBDA,0x5CA8);
  (0xBDB,0x63AA); (0xBDC,0x66FE); (0xBDD,0x66FD); (0xBDE,0x695A); (0xBDF,0x72D9); (0xBE0,0x758F); (0xBE1,0x758E); (0xBE2,0x790E);
  (0xBE3,0x7956); (0xBE4,0x79DF); (0xBE5,0x7C97); (0xBE6,0x7D20); (0xBE7,0x7D44); (0xBE8,0x8607); (0xBE9,0x8A34); (0xBEA,0x963B);
  (0xBEB,0x9061); (0xBEC,0x9F20); (0xBED,0x50E7); (0xBEE,0x5275); (0xBEF,0x53CC); (0xBF0,0x53E2); (0xBF1,0x5009); (0xBF2,0x55AA);
  (0xBF3,0x58EE); (0xBF4,0x594F); (0xBF5,0x723D); (0xBF6,0x5B8B); (0xBF7,0x5C64); (0xBF8,0x531D); (0xBF9,0x60E3); (0xBFA,0x60F3);
  (0xBFB,0x635C); (0xBFC,0x6383); (0xBFD,0x633F); (0xBFE,0x63BB); (0xBFF,0x64CD); (0xC00,0x65E9); (0xC01,0x66F9); (0xC02,0x5DE3);
  (0xC03,0x69CD); (0xC04,0x69FD); (0xC05,0x6F15); (0xC06,0x71E5); (0xC07,0x4E89); (0xC08,0x75E9); (0xC09,0x76F8); (0xC0A,0x7A93);
  (0xC0B,0x7CDF); (0xC0C,0x7DCF); (0xC0D,0x7D9C); (0xC0E,0x8061); (0xC0F,0x8349); (0xC10,0x8358); (0xC11,0x846C); (0xC12,0x84BC);
  (0xC13,0x85FB); (0xC14,0x88C5); (0xC15,0x8D70); (0xC16,0x9001); (0xC17,0x906D); (0xC18,0x9397); (0xC19,0x971C); (0xC1A,0x9A12);
  (0xC1B,0x50CF); (0xC1C,0x5897); (0xC1D,0x618E); (0xC1E,0x81D3); (0xC1F,0x8535); (0xC20,0x8D08); (0xC21,0x9020); (0xC22,0x4FC3)
].
(* encoding_tables/whatwg/index-jis0208.txt (pointer, code point), entries 2304..2559 *)
Definition jis0208_index_9 : list (N * N) := [
  (0xC23,0x5074); (0xC24,0x5247); (0xC25,0x5373); (0xC26,0x606F); (0xC27,0x6349); (0xC28,0x675F); (0xC29,0x6E2C); (0xC2A,0x8DB3);
  (0xC2B,0x901F); (0xC2C,0x4FD7); (0xC2D,0x5C5E); (0xC2E,0x8CCA); (0xC2F,0x65CF); (0xC30,0x7D9A); (0xC31,0x5352); (0xC32,0x8896);
  (0xC33,0x5176); (0xC34,0x63C3); (0xC35,0x5B58); (0xC36,0x5B6B); (0xC37,0x5C0A); (0xC38,0x640D); (0xC39,0x6751); (0xC3A,0x905C);
  (0xC3B,0x4ED6); (0xC3C,0x591A); (0xC3D,0x592A); (0xC3E,0x6C70); (0xC3F,0x8A51); (0xC40,0x553E); (0xC41,0x5815); (0xC42,0x59A5);
  (0xC43,0x60F0); (0xC44,0x6253); (0xC45,0x67C1); (0xC46,0x8235); (0xC47,0x6955); (0xC48,0x9640); (0xC49,0x99C4); (0xC4A,0x9A28);
  (0xC4B,0x4F53); (0xC4C,0x5806); (0xC4D,0x5BFE); (0xC4E,0x8010); (0xC4F,0x5CB1); (0xC50,0x5E2F); (0xC51,0x5F85); (0xC52,0x6020);
  (0xC53,0x614B); (0xC54,0x6234); (0xC55,0x66FF); (0xC56,0x6CF0); (0xC57,0x6EDE); (0xC58,0x80CE); (0xC59,0x817F); (0xC5A,0x82D4);
  (0xC5B,0x888B); (0xC5C,0x8CB8); (0xC5D,0x9000); (0xC5E,0x902E); (0xC5F,0x968A); (0xC60,0x9EDB); (0xC61,0x9BDB); (0xC62,0x4EE3);
  (0xC63,0x53F0); (0xC64,0x5927); (0xC65,0x7B2C); (0xC66,0x918D); (0xC67,0x984C); (0xC68,0x9DF9); (0xC69,0x6EDD); (0xC6A,0x7027);
  (0xC6B,0x5353); (0xC6C,0x5544); (0xC6D,0x5B85); (0xC6E,0x6258); (0xC6F,0x629E); (0xC70,0x62D3); (0xC71,0x6CA2); (0xC72,0x6FEF);
  (0xC73,0x7422); (0xC74,0x8A17); (0xC75,0x9438); (0xC76,0x6FC1); (0xC77,0x8AFE); (0xC78,0x8338); (0xC79,0x51E7); (0xC7A,0x86F8);
  (0xC7B,0x53EA); (0xC7C,0x53E9); (0xC7D,0x4F46); (0xC7E,0x9054); (0xC7F,0x8FB0); (0xC80,0x596A); (0xC81,0x8131); (0xC82,0x5DFD);
  (0xC83,0x7AEA); (0xC84,0x8FBF); (0xC85,0x68DA); (0xC86,0x8C37); (0xC87,0x72F8); (0xC88,0x9C48); (0xC89,0x6A3D); (0xC8A,0x8AB0);
  (0xC8B,0x4E39); (0xC8C,0x5358); (0xC8D,0x5606); (0xC8E,0x5766); (0xC8F,0x62C5); (0xC90,0x63A2); (0xC91,0x65E6); (0xC92,0x6B4E);
  (0xC93,0x6DE1); (0xC94,0x6E5B); (0xC95,0x70AD); (0xC96,0x77ED); (0xC97,0x7AEF); (0xC98,0x7BAA); (0xC99,0x7DBB); (0xC9A,0x803D);
  (0xC9B,0x80C6); (0xC9C,0x86CB); (0xC9D,0x8A95); (0xC9E,0x935B); (0xC9F,0x56E3); (0xCA0,0x58C7); (0xCA1,0x5F3E); (0xCA2,0x65AD);
  (0xCA3,0x6696); (0xCA4,0x6A80); (0xCA5,0x6BB5); (0xCA6,0x7537); (0xCA7,0x8AC7); (0xCA8,0x5024); (0xCA9,0x77E5); (0xCAA,0x5730);
  (0xCAB,0x5F1B); (0xCAC,0x6065); (0xCAD,0x667A); (0xCAE,0x6C60); (0xCAF,0x75F4); (0xCB0,0x7A1A); (0xCB1,0x7F6E); (0xCB2,0x81F4);
  (0xCB3,0x8718); (0xCB4,0x9045); (0xCB5,0x99B3); (0xCB6,0x7BC9); (0xCB7,0x755C); (0xCB8,0x7AF9); (0xCB9,0x7B51); (0xCBA,0x84C4);
  (0xCBB,0x9010); (0xCBC,0x79E9); (0xCBD,0x7A92); (0xCBE,0x8336); (0xCBF,0x5AE1); (0xCC0,0x7740); (0xCC1,0x4E2D); (0xCC2,0x4EF2);
  (0xCC3,0x5B99); (0xCC4,0x5FE0); (0xCC5,0x62BD); (0xCC6,0x663C); (0xCC7,0x67F1); (0xCC8,0x6CE8); (0xCC9,0x866B); (0xCCA,0x8877);
  (0xCCB,0x8A3B); (0xCCC,0x914E); (0xCCD,0x92F3); (0xCCE,0x99D0); (0xCCF,0x6A17); (0xCD0,0x7026); (0xCD1,0x732A); (0xCD2,0x82E7);
  (0xCD3,0x8457); (0xCD4,0x8CAF); (0xCD5,0x4E01); (0xCD6,0x5146); (0xCD7,0x51CB); (0xCD8,0x558B); (0xCD9,0x5BF5); (0xCDA,0x5E16);
  (0xCDB,0x5E33); (0xCDC,0x5E81); (0xCDD,0x5F14); (0xCDE,0x5F35); (0xCDF,0x5F6B); (0xCE0,0x5FB4); (0xCE1,0x61F2); (0xCE2,0x6311);
  (0xCE3,0x66A2); (0xCE4,0x671D); (0xCE5,0x6F6E); (0xCE6,0x7252); (0xCE7,0x753A); (0xCE8,0x773A); (0xCE9,0x8074); (0xCEA,0x8139);
  (0xCEB,0x8178); (0xCEC,0x8776); (0xCED,0x8ABF); (0xCEE,0x8ADC); (0xCEF,0x8D85); (0xCF0,0x8DF3); (0xCF1,0x929A); (0xCF2,0x9577);
  (0xCF3,0x9802); (0xCF4,0x9CE5); (0xCF5,0x52C5); (0xCF6,0x6357); (0xCF7,0x76F4); (0xCF8,0x6715); (0xCF9,0x6C88); (0xCFA,0x73CD);
  (0xCFB,0x8CC3); (0xCFC,0x93AE); (0xCFD,0x9673); (0xCFE,0x6D25); (0xCFF,0x589C); (0xD00,0x690E); (0xD01,0x69CC); (0xD02,0x8FFD);
  (0xD03,0x939A); (0xD04,0x75DB); (0xD05,0x901A); (0xD06,0x585A); (0xD07,0x6802); (0xD08,0x63B4); (0xD09,0x69FB); (0xD0A,0x4F43);
  (0xD0B,0x6F2C); (0xD0C,0x67D8); (0xD0D,0x8FBB); (0xD0E,0x8526); (0xD0F,0x7DB4); (0xD10,0x9354); (0xD11,0x693F); (0xD12,0x6F70);
  (0xD13,0x576A); (0xD14,0x58F7); (0xD15,0x5B2C); (0xD16,0x7D2C); (0xD17,0x722A); (0xD18,0x540A); (0xD19,0x91E3); (0xD1A,0x9DB4);
  (0xD1B,0x4EAD); (0xD1C,0x4F4E); (0xD1D,0x505C); (0xD1E,0x5075); (0xD1F,0x5243); (0xD20,0x8C9E); (0xD21,0x5448); (0xD22,0x5824)
].
(* encoding_tables/whatwg/index-jis0208.txt (pointer, code point), entries 2560..2815 *)
Definition jis0208_index_10 : list (N * N) := [
  (0xD23,0x5B9A); (0xD24,0x5E1D); (0xD25,0x5E95); (0xD26,0x5EAD); (0xD27,0x5EF7); (0xD28,0x5F1F); (0xD29,0x608C); (0xD2A,0x62B5);
  (0xD2B,0x633A); (0xD2C,0x63D0); (0xD2D,0x68AF); (0xD2E,0x6C40); (0xD2F,0x7887); (0xD30,0x798E); (0xD31,0x7A0B); (0xD32,0x7DE0);
  (0xD33,0x8247); (0xD34,0x8A02); (0xD35,0x8AE6); (0xD36,0x8E44); (0xD37,0x9013); (0xD38,0x90B8); (0xD39,0x912D); (0xD3A,0x91D8);
  (0xD3B,0x9F0E); (0xD3C,0x6CE5); (0xD3D,0x6458); (0xD3E,0x64E2); (0xD3F,0x6575); (0xD40,0x6EF4); (0xD41,0x7684); (0xD42,0x7B1B);
  (0xD43,0x9069); (0xD44,0x93D1); (0xD45,0x6EBA); (0xD46,0x54F2); (0xD47,0x5FB9); (0xD48,0x64A4); (0xD49,0x8F4D); (0xD4A,0x8FED);
  (0xD4B,0x9244); (0xD4C,0x5178); (0xD4D,0x586B); (0xD4E,0x5929); (0xD4F,0x5C55); (0xD50,0x5E97); (0xD51,0x6DFB); (0xD52,0x7E8F);
  (0xD53,0x751C); (0xD54,0x8CBC); (0xD55,0x8EE2); (0xD56,0x985B); (0xD57,0x70B9); (0xD58,0x4F1D); (0xD59,0x6BBF); (0xD5A,0x6FB1);
  (0xD5B,0x7530); (0xD5C,0x96FB); (0xD5D,0x514E); (0xD5E,0x5410); (0xD5F,0x5835); (0xD60,0x5857); (0xD61,0x59AC); (0xD62,0x5C60);
  (0xD63,0x5F92); (0xD64,0x6597); (0xD65,0x675C); (0xD66,0x6E21); (0xD67,0x767B); (0xD68,0x83DF); (0xD69,0x8CED); (0xD6A,0x9014);
  (0xD6B,0x90FD); (0xD6C,0x934D); (0xD6D,0x7825); (0xD6E,0x783A); (0xD6F,0x52AA); (0xD70,0x5EA6); (0xD71,0x571F); (0xD72,0x5974);
  (0xD73,0x6012); (0xD74,0x5012); (0xD75,0x515A); (0xD76,0x51AC); (0xD77,0x51CD); (0xD78,0x5200); (0xD79,0x5510); (0xD7A,0x5854);
  (0xD7B,0x5858); (0xD7C,0x5957); (0xD7D,0x5B95); (0xD7E,0x5CF6); (0xD7F,0x5D8B); (0xD80,0x60BC); (0xD81,0x6295); (0xD82,0x642D);
  (0xD83,0x6771); (0xD84,0x6843); (0xD85,0x68BC); (0xD86,0x68DF); (0xD87,0x76D7); (0xD88,0x6DD8); (0xD89,0x6E6F); (0xD8A,0x6D9B);
  (0xD8B,0x706F); (0xD8C,0x71C8); (0xD8D,0x5F53); (0xD8E,0x75D8); (0xD8F,0x7977); (0xD90,0x7B49); (0xD91,0x7B54); (0xD92,0x7B52);
  (0xD93,0x7CD6); (0xD94,0x7D71); (0xD95,0x5230); (0xD96,0x8463); (0xD97,0x8569); (0xD98,0x85E4); (0xD99,0x8A0E); (0xD9A,0x8B04);
  (0xD9B,0x8C46); (0xD9C,0x8E0F); (0xD9D,0x9003); (0xD9E,0x900F); (0xD9F,0x9419); (0xDA0,0x9676); (0xDA1,0x982D); (0xDA2,0x9A30);
  (0xDA3,0x95D8); (0xDA4,0x50CD); (0xDA5,0x52D5); (0xDA6,0x540C); (0xDA7,0x5802); (0xDA8,0x5C0E); (0xDA9,0x61A7); (0xDAA,0x649E);
  (0xDAB,0x6D1E); (0xDAC,0x77B3); (0xDAD,0x7AE5); (0xDAE,0x80F4); (0xDAF,0x8404); (0xDB0,0x9053); (0xDB1,0x9285); (0xDB2,0x5CE0);
  (0xDB3,0x9D07); (0xDB4,0x533F); (0xDB5,0x5F97); (0xDB6,0x5FB3); (0xDB7,0x6D9C); (0xDB8,0x7279); (0xDB9,0x7763); (0xDBA,0x79BF);
  (0xDBB,0x7BE4); (0xDBC,0x6BD2); (0xDBD,0x72EC); (0xDBE,0x8AAD); (0xDBF,0x6803); (0xDC0,0x6A61); (0xDC1,0x51F8); (0xDC2,0x7A81);
  (0xDC3,0x6934); (0xDC4,0x5C4A); (0xDC5,0x9CF6); (0xDC6,0x82EB); (0xDC7,0x5BC5); (0xDC8,0x9149); (0xDC9,0x701E); (0xDCA,0x5678);
  (0xDCB,0x5C6F); (0xDCC,0x60C7); (0xDCD,0x6566); (0xDCE,0x6C8C); (0xDCF,0x8C5A); (0xDD0,0x9041); (0xDD1,0x9813); (0xDD2,0x5451);
  (0xDD3,0x66C7); (0xDD4,0x920D); (0xDD5,0x5948); (0xDD6,0x90A3); (0xDD7,0x5185); (0xDD8,0x4E4D); (0xDD9,0x51EA); (0xDDA,0x8599);
  (0xDDB,0x8B0E); (0xDDC,0x7058); (0xDDD,0x637A); (0xDDE,0x934B); (0xDDF,0x6962); (0xDE0,0x99B4); (0xDE1,0x7E04); (0xDE2,0x7577);
  (0xDE3,0x5357); (0xDE4,0x6960); (0xDE5,0x8EDF); (0xDE6,0x96E3); (0xDE7,0x6C5D); (0xDE8,0x4E8C); (0xDE9,0x5C3C); (0xDEA,0x5F10);
  (0xDEB,0x8FE9); (0xDEC,0x5302); (0xDED,0x8CD1); (0xDEE,0x8089); (0xDEF,0x8679); (0xDF0,0x5EFF); (0xDF1,0x65E5); (0xDF2,0x4E73);
  (0xDF3,0x5165); (0xDF4,0x5982); (0xDF5,0x5C3F); (0xDF6,0x97EE); (0xDF7,0x4EFB); (0xDF8,0x598A); (0xDF9,0x5FCD); (0xDFA,0x8A8D);
  (0xDFB,0x6FE1); (0xDFC,0x79B0); (0xDFD,0x7962); (0xDFE,0x5BE7); (0xDFF,0x8471); (0xE00,0x732B); (0xE01,0x71B1); (0xE02,0x5E74);
  (0xE03,0x5FF5); (0xE04,0x637B); (0xE05,0x649A); (0xE06,0x71C3); (0xE07,0x7C98); (0xE08,0x4E43); (0xE09,0x5EFC); (0xE0A,0x4E4B);
  (0xE0B,0x57DC); (0xE0C,0x56A2); (0xE0D,0x60A9); (0xE0E,0x6FC3); (0xE0F,0x7D0D); (0xE10,0x80FD); (0xE11,0x8133); (0xE12,0x81BF);
  (0xE13,0x8FB2); (0xE14,0x8997); (0xE15,0x86A4); (0xE16,0x5DF4); (0xE17,0x628A); (0xE18,0x64AD); (0xE19,0x8987); (0xE1A,0x6777);
  (0xE1B,0x6CE2); (0xE1C,0x6D3E); (0xE1D,0x7436); (0xE1E,0x7834); (0xE1F,0x5A46); (0xE20,0x7F75); (0xE21,0x82AD); (0xE22,0x99AC)
].
(* encoding_tables/whatwg/index-jis0208.txt (pointer, code point), entries 2816..3071 *)
Definition jis0208_index_11 : list (N * N) := [
  (0xE23,0x4FF3); (0xE24,0x5EC3); (0xE25,0x62DD); (0xE26,0x6392); (0xE27,0x6557); (0xE28,0x676F); (0xE29,0x76C3); (0xE2A,0x724C);
  (0xE2B,0x80CC); (0xE2C,0x80BA); (0xE2D,0x8F29); (0xE2E,0x914D); (0xE2F,0x500D); (0xE30,0x57F9); (0xE31,0x5A92); (0xE32,0x6885);
  (0xE33,0x6973); (0xE34,0x7164); (0xE35,0x72FD); (0xE36,0x8CB7); (0xE37,0x58F2); (0xE38,0x8CE0); (0xE39,0x966A); (0xE3A,0x9019);
  (0xE3B,0x877F); (0xE3C,0x79E4); (0xE3D,0x77E7); (0xE3E,0x8429); (0xE3F,0x4F2F); (0xE40,0x5265); (0xE41,0x535A); (0xE42,0x62CD);
  (0xE43,0x67CF); (0xE44,0x6CCA); (0xE45,0x767D); (0xE46,0x7B94); (0xE47,0x7C95); (0xE48,0x8236); (0xE49,0x8584); (0xE4A,0x8FEB);
  (0xE4B,0x66DD); (0xE4C,0x6F20); (0xE4D,0x7206); (0xE4E,0x7E1B); (0xE4F,0x83AB); (0xE50,0x99C1); (0xE51,0x9EA6); (0xE52,0x51FD);
  (0xE53,0x7BB1); (0xE54,0x7872); (0xE55,0x7BB8); (0xE56,0x8087); (0xE57,0x7B48); (0xE58,0x6AE8); (0xE59,0x5E61); (0xE5A,0x808C);
  (0xE5B,0x7551); (0xE5C,0x7560); (0xE5D,0x516B); (0xE5E,0x9262); (0xE5F,0x6E8C); (0xE60,0x767A); (0xE61,0x9197); (0xE62,0x9AEA);
  (0xE63,0x4F10); (0xE64,0x7F70); (0xE65,0x629C); (0xE66,0x7B4F); (0xE67,0x95A5); (0xE68,0x9CE9); (0xE69,0x567A); (0xE6A,0x5859);
  (0xE6B,0x86E4); (0xE6C,0x96BC); (0xE6D,0x4F34); (0xE6E,0x5224); (0xE6F,0x534A); (0xE70,0x53CD); (0xE71,0x53DB); (0xE72,0x5E06);
  (0xE73,0x642C); (0xE74,0x6591); (0xE75,0x677F); (0xE76,0x6C3E); (0xE77,0x6C4E); (0xE78,0x7248); (0xE79,0x72AF); (0xE7A,0x73ED);
  (0xE7B,0x7554); (0xE7C,0x7E41); (0xE7D,0x822C); (0xE7E,0x85E9); (0xE7F,0x8CA9); (0xE80,0x7BC4); (0xE81,0x91C6); (0xE82,0x7169);
  (0xE83,0x9812); (0xE84,0x98EF); (0xE85,0x633D); (0xE86,0x6669); (0xE87,0x756A); (0xE88,0x76E4); (0xE89,0x78D0); (0xE8A,0x8543);
  (0xE8B,0x86EE); (0xE8C,0x532A); (0xE8D,0x5351); (0xE8E,0x5426); (0xE8F,0x5983); (0xE90,0x5E87); (0xE91,0x5F7C); (0xE92,0x60B2);
  (0xE93,0x6249); (0xE94,0x6279); (0xE95,0x62AB); (0xE96,0x6590); (0xE97,0x6BD4); (0xE98,0x6CCC); (0xE99,0x75B2); (0xE9A,0x76AE);
  (0xE9B,0x7891); (0xE9C,0x79D8); (0xE9D,0x7DCB); (0xE9E,0x7F77); (0xE9F,0x80A5); (0xEA0,0x88AB); (0xEA1,0x8AB9); (0xEA2,0x8CBB);
  (0xEA3,0x907F); (0xEA4,0x975E); (0xEA5,0x98DB); (0xEA6,0x6A0B); (0xEA7,0x7C38); (0xEA8,0x5099); (0xEA9,0x5C3E); (0xEAA,0x5FAE);
  (0xEAB,0x6787); (0xEAC,0x6BD8); (0xEAD,0x7435); (0xEAE,0x7709); (0xEAF,0x7F8E); (0xEB0,0x9F3B); (0xEB1,0x67CA); (0xEB2,0x7A17);
  (0xEB3,0x5339); (0xEB4,0x758B); (0xEB5,0x9AED); (0xEB6,0x5F66); (0xEB7,0x819D); (0xEB8,0x83F1); (0xEB9,0x8098); (0xEBA,0x5F3C);
  (0xEBB,0x5FC5); (0xEBC,0x7562); (0xEBD,0x7B46); (0xEBE,0x903C); (0xEBF,0x6867); (0xEC0,0x59EB); (0xEC1,0x5A9B); (0xEC2,0x7D10);
  (0xEC3,0x767E); (0xEC4,0x8B2C); (0xEC5,0x4FF5); (0xEC6,0x5F6A); (0xEC7,0x6A19); (0xEC8,0x6C37); (0xEC9,0x6F02); (0xECA,0x74E2);
  (0xECB,0x7968); (0xECC,0x8868); (0xECD,0x8A55); (0xECE,0x8C79); (0xECF,0x5EDF); (0xED0,0x63CF); (0xED1,0x75C5); (0xED2,0x79D2);
  (0xED3,0x82D7); (0xED4,0x9328); (0xED5,0x92F2); (0xED6,0x849C); (0xED7,0x86ED); (0xED8,0x9C2D); (0xED9,0x54C1); (0xEDA,0x5F6C);
  (0xEDB,0x658C); (0xEDC,0x6D5C); (0xEDD,0x7015); (0xEDE,0x8CA7); (0xEDF,0x8CD3); (0xEE0,0x983B); (0xEE1,0x654F); (0xEE2,0x74F6);
  (0xEE3,0x4E0D); (0xEE4,0x4ED8); (0xEE5,0x57E0); (0xEE6,0x592B); (0xEE7,0x5A66); (0xEE8,0x5BCC); (0xEE9,0x51A8); (0xEEA,0x5E03);
  (0xEEB,0x5E9C); (0xEEC,0x6016); (0xEED,0x6276); (0xEEE,0x6577); (0xEEF,0x65A7); (0xEF0,0x666E); (0xEF1,0x6D6E); (0xEF2,0x7236);
  (0xEF3,0x7B26); (0xEF4,0x8150); (0xEF5,0x819A); (0xEF6,0x8299); (0xEF7,0x8B5C); (0xEF8,0x8CA0); (0xEF9,0x8CE6); (0xEFA,0x8D74);
  (0xEFB,0x961C); (0xEFC,0x9644); (0xEFD,0x4FAE); (0xEFE,0x64AB); (0xEFF,0x6B66); (0xF00,0x821E); (0xF01,0x8461); (0xF02,0x856A);
  (0xF03,0x90E8); (0xF04,0x5C01); (0xF05,0x6953); (0xF06,0x98A8); (0xF07,0x847A); (0xF08,0x8557); (0xF09,0x4F0F); (0xF0A,0x526F);
  (0xF0B,0x5FA9); (0xF0C,0x5E45); (0xF0D,0x670D); (0xF0E,0x798F); (0xF0F,0x8179); (0xF10,0x8907); (0xF11,0x8986); (0xF12,0x6DF5);
  (0xF13,0x5F17); (0xF14,0x6255); (0xF15,0x6CB8); (0xF16,0x4ECF); (0xF17,0x7269); (0xF18,0x9B92); (0xF19,0x5206); (0xF1A,0x543B);
  (0xF1B,0x5674); (0xF1C,0x58B3); (0xF1D,0x61A4); (0xF1E,0x626E); (0xF1F,0x711A); (0xF20,0x596E); (0xF21,0x7C89); (0xF22,0x7CDE)
].
(* encoding_tables/whatwg/index-jis0208.txt (pointer, code point), entries 3072..3327 *)
Definition jis0208_index_12 : list (N * N) := [
  (0xF23,0x7D1B); (0xF24,0x96F0); (0xF25,0x6587); (0xF26,0x805E); (0xF27,0x4E19); (0xF28,0x4F75); (0xF29,0x5175); (0xF2A,0x5840);
  (0xF2B,0x5E63); (0xF2C,0x5E73); (0xF2D,0x5F0A); (0xF2E,0x67C4); (0xF2F,0x4E26); (0xF30,0x853D); (0xF31,0x9589); (0xF32,0x965B);
  (0xF33,0x7C73); (0xF34,0x9801); (0xF35,0x50FB); (0xF36,0x58C1); (0xF37,0x7656); (0xF38,0x78A7); (0xF39,0x5225); (0xF3A,0x77A5);
  (0xF3B,0x8511); (0xF3C,0x7B86); (0xF3D,0x504F); (0xF3E,0x5909); (0xF3F,0x7247); (0xF40,0x7BC7); (0xF41,0x7DE8); (0xF42,0x8FBA);
  (0xF43,0x8FD4); (0xF44,0x904D); (0xF45,0x4FBF); (0xF46,0x52C9); (0xF47,0x5A29); (0xF48,0x5F01); (0xF49,0x97AD); (0xF4A,0x4FDD);
  (0xF4B,0x8217); (0xF4C,0x92EA); (0xF4D,0x5703); (0xF4E,0x6355); (0xF4F,0x6B69); (0xF50,0x752B); (0xF51,0x88DC); (0xF52,0x8F14);
  (0xF53,0x7A42); (0xF54,0x52DF); (0xF55,0x5893); (0xF56,0x6155); (0xF57,0x620A); (0xF58,0x66AE); (0xF59,0x6BCD); (0xF5A,0x7C3F);
  (0xF5B,0x83E9); (0xF5C,0x5023); (0xF5D,0x4FF8); (0xF5E,0x5305); (0xF5F,0x5446); (0xF60,0x5831); (0xF61,0x5949); (0xF62,0x5B9D);
  (0xF63,0x5CF0); (0xF64,0x5CEF); (0xF65,0x5D29); (0xF66,0x5E96); (0xF67,0x62B1); (0xF68,0x6367); (0xF69,0x653E); (0xF6A,0x65B9);
  (0xF6B,0x670B); (0xF6C,0x6CD5); (0xF6D,0x6CE1); (0xF6E,0x70F9); (0xF6F,0x7832); (0xF70,0x7E2B); (0xF71,0x80DE); (0xF72,0x82B3);
  (0xF73,0x840C); (0xF74,0x84EC); (0xF75,0x8702); (0xF76,0x8912); (0xF77,0x8A2A); (0xF78,0x8C4A); (0xF79,0x90A6); (0xF7A,0x92D2);
  (0xF7B,0x98FD); (0xF7C,0x9CF3); (0xF7D,0x9D6C); (0xF7E,0x4E4F); (0xF7F,0x4EA1); (0xF80,0x508D); (0xF81,0x5256); (0xF82,0x574A);
  (0xF83,0x59A8); (0xF84,0x5E3D); (0xF85,0x5FD8); (0xF86,0x5FD9); (0xF87,0x623F); (0xF88,0x66B4); (0xF89,0x671B); (0xF8A,0x67D0);
  (0xF8B,0x68D2); (0xF8C,0x5192); (0xF8D,0x7D21); (0xF8E,0x80AA); (0xF8F,0x81A8); (0xF90,0x8B00); (0xF91,0x8C8C); (0xF92,0x8CBF);
  (0xF93,0x927E); (0xF94,0x9632); (0xF95,0x5420); (0xF96,0x982C); (0xF97,0x5317); (0xF98,0x50D5); (0xF99,0x535C); (0xF9A,0x58A8);
  (0xF9B,0x64B2); (0xF9C,0x6734); (0xF9D,0x7267); (0xF9E,0x7766); (0xF9F,0x7A46); (0xFA0,0x91E6); (0xFA1,0x52C3); (0xFA2,0x6CA1);
  (0xFA3,0x6B86); (0xFA4,0x5800); (0xFA5,0x5E4C); (0xFA6,0x5954); (0xFA7,0x672C); (0xFA8,0x7FFB); (0xFA9,0x51E1); (0xFAA,0x76C6);
  (0xFAB,0x6469); (0xFAC,0x78E8); (0xFAD,0x9B54); (0xFAE,0x9EBB); (0xFAF,0x57CB); (0xFB0,0x59B9); (0xFB1,0x6627); (0xFB2,0x679A);
  (0xFB3,0x6BCE); (0xFB4,0x54E9); (0xFB5,0x69D9); (0xFB6,0x5E55); (0xFB7,0x819C); (0xFB8,0x6795); (0xFB9,0x9BAA); (0xFBA,0x67FE);
  (0xFBB,0x9C52); (0xFBC,0x685D); (0xFBD,0x4EA6); (0xFBE,0x4FE3); (0xFBF,0x53C8); (0xFC0,0x62B9); (0xFC1,0x672B); (0xFC2,0x6CAB);
  (0xFC3,0x8FC4); (0xFC4,0x4FAD); (0xFC5,0x7E6D); (0xFC6,0x9EBF); (0xFC7,0x4E07); (0xFC8,0x6162); (0xFC9,0x6E80); (0xFCA,0x6F2B);
  (0xFCB,0x8513); (0xFCC,0x5473); (0xFCD,0x672A); (0xFCE,0x9B45); (0xFCF,0x5DF3); (0xFD0,0x7B95); (0xFD1,0x5CAC); (0xFD2,0x5BC6);
  (0xFD3,0x871C); (0xFD4,0x6E4A); (0xFD5,0x84D1); (0xFD6,0x7A14); (0xFD7,0x8108); (0xFD8,0x5999); (0xFD9,0x7C8D); (0xFDA,0x6C11);
  (0xFDB,0x7720); (0xFDC,0x52D9); (0xFDD,0x5922); (0xFDE,0x7121); (0xFDF,0x725F); (0xFE0,0x77DB); (0xFE1,0x9727); (0xFE2,0x9D61);
  (0xFE3,0x690B); (0xFE4,0x5A7F); (0xFE5,0x5A18); (0xFE6,0x51A5); (0xFE7,0x540D); (0xFE8,0x547D); (0xFE9,0x660E); (0xFEA,0x76DF);
  (0xFEB,0x8FF7); (0xFEC,0x9298); (0xFED,0x9CF4); (0xFEE,0x59EA); (0xFEF,0x725D); (0xFF0,0x6EC5); (0xFF1,0x514D); (0xFF2,0x68C9);
  (0xFF3,0x7DBF); (0xFF4,0x7DEC); (0xFF5,0x9762); (0xFF6,0x9EBA); (0xFF7,0x6478); (0xFF8,0x6A21); (0xFF9,0x8302); (0xFFA,0x5984);
  (0xFFB,0x5B5F); (0xFFC,0x6BDB); (0xFFD,0x731B); (0xFFE,0x76F2); (0xFFF,0x7DB2); (0x1000,0x8017); (0x1001,0x8499); (0x1002,0x5132);
  (0x1003,0x6728); (0x1004,0x9ED9); (0x1005,0x76EE); (0x1006,0x6762); (0x1007,0x52FF); (0x1008,0x9905); (0x1009,0x5C24); (0x100A,0x623B);
  (0x100B,0x7C7E); (0x100C,0x8CB0); (0x100D,0x554F); (0x100E,0x60B6); (0x100F,0x7D0B); (0x1010,0x9580); (0x1011,0x5301); (0x1012,0x4E5F);
  (0x1013,0x51B6); (0x1014,0x591C); (0x1015,0x723A); (0x1016,0x8036); (0x1017,0x91CE); (0x1018,0x5F25); (0x1019,0x77E2); (0x101A,0x5384);
  (0x101B,0x5F79); (0x101C,0x7D04); (0x101D,0x85AC); (0x101E,0x8A33); (0x101F,0x8E8D); (0x1020,0x9756); (0x1021,0x67F3); (0x1022,0x85AE)
].
(* encoding_tables/whatwg/index-jis0208.txt (pointer, code point), entries 3328..3583 *)
Definition jis0208_index_13 : list (N * N) := [
  (0x1023,0x9453); (0x1024,0x6109); (0x1025,0x6108); (0x1026,0x6CB9); (0x1027,0x7652); (0x1028,0x8AED); (0x1029,0x8F38); (0x102A,0x552F);
  (0x102B,0x4F51); (0x102C,0x512A); (0x102D,0x52C7); (0x102E,0x53CB); (0x102F,0x5BA5); (0x1030,0x5E7D); (0x1031,0x60A0); (0x1032,0x6182);
  (0x1033,0x63D6); (0x1034,0x6709); (0x1035,0x67DA); (0x1036,0x6E67); (0x1037,0x6D8C); (0x1038,0x7336); (0x1039,0x7337); (0x103A,0x7531);
  (0x103B,0x7950); (0x103C,0x88D5); (0x103D,0x8A98); (0x103E,0x904A); (0x103F,0x9091); (0x1040,0x90F5); (0x1041,0x96C4); (0x1042,0x878D);
  (0x1043,0x5915); (0x1044,0x4E88); (0x1045,0x4F59); (0x1046,0x4E0E); (0x1047,0x8A89); (0x1048,0x8F3F); (0x1049,0x9810); (0x104A,0x50AD);
  (0x104B,0x5E7C); (0x104C,0x5996); (0x104D,0x5BB9); (0x104E,0x5EB8); (0x104F,0x63DA); (0x1050,0x63FA); (0x1051,0x64C1); (0x1052,0x66DC);
  (0x1053,0x694A); (0x1054,0x69D8); (0x1055,0x6D0B); (0x1056,0x6EB6); (0x1057,0x7194); (0x1058,0x7528); (0x1059,0x7AAF); (0x105A,0x7F8A);
  (0x105B,0x8000); (0x105C,0x8449); (0x105D,0x84C9); (0x105E,0x8981); (0x105F,0x8B21); (0x1060,0x8E0A); (0x1061,0x9065); (0x1062,0x967D);
  (0x1063,0x990A); (0x1064,0x617E); (0x1065,0x6291); (0x1066,0x6B32); (0x1067,0x6C83); (0x1068,0x6D74); (0x1069,0x7FCC); (0x106A,0x7FFC);
  (0x106B,0x6DC0); (0x106C,0x7F85); (0x106D,0x87BA); (0x106E,0x88F8); (0x106F,0x6765); (0x1070,0x83B1); (0x1071,0x983C); (0x1072,0x96F7);
  (0x1073,0x6D1B); (0x1074,0x7D61); (0x1075,0x843D); (0x1076,0x916A); (0x1077,0x4E71); (0x1078,0x5375); (0x1079,0x5D50); (0x107A,0x6B04);
  (0x107B,0x6FEB); (0x107C,0x85CD); (0x107D,0x862D); (0x107E,0x89A7); (0x107F,0x5229); (0x1080,0x540F); (0x1081,0x5C65); (0x1082,0x674E);
  (0x1083,0x68A8); (0x1084,0x7406); (0x1085,0x7483); (0x1086,0x75E2); (0x1087,0x88CF); (0x1088,0x88E1); (0x1089,0x91CC); (0x108A,0x96E2);
  (0x108B,0x9678); (0x108C,0x5F8B); (0x108D,0x7387); (0x108E,0x7ACB); (0x108F,0x844E); (0x1090,0x63A0); (0x1091,0x7565); (0x1092,0x5289);
  (0x1093,0x6D41); (0x1094,0x6E9C); (0x1095,0x7409); (0x1096,0x7559); (0x1097,0x786B); (0x1098,0x7C92); (0x1099,0x9686); (0x109A,0x7ADC);
  (0x109B,0x9F8D); (0x109C,0x4FB6); (0x109D,0x616E); (0x109E,0x65C5); (0x109F,0x865C); (0x10A0,0x4E86); (0x10A1,0x4EAE); (0x10A2,0x50DA);
  (0x10A3,0x4E21); (0x10A4,0x51CC); (0x10A5,0x5BEE); (0x10A6,0x6599); (0x10A7,0x6881); (0x10A8,0x6DBC); (0x10A9,0x731F); (0x10AA,0x7642);
  (0x10AB,0x77AD); (0x10AC,0x7A1C); (0x10AD,0x7CE7); (0x10AE,0x826F); (0x10AF,0x8AD2); (0x10B0,0x907C); (0x10B1,0x91CF); (0x10B2,0x9675);
  (0x10B3,0x9818); (0x10B4,0x529B); (0x10B5,0x7DD1); (0x10B6,0x502B); (0x10B7,0x5398); (0x10B8,0x6797); (0x10B9,0x6DCB); (0x10BA,0x71D0);
  (0x10BB,0x7433); (0x10BC,0x81E8); (0x10BD,0x8F2A); (0x10BE,0x96A3); (0x10BF,0x9C57); (0x10C0,0x9E9F); (0x10C1,0x7460); (0x10C2,0x5841);
  (0x10C3,0x6D99); (0x10C4,0x7D2F); (0x10C5,0x985E); (0x10C6,0x4EE4); (0x10C7,0x4F36); (0x10C8,0x4F8B); (0x10C9,0x51B7); (0x10CA,0x52B1);
  (0x10CB,0x5DBA); (0x10CC,0x601C); (0x10CD,0x73B2); (0x10CE,0x793C); (0x10CF,0x82D3); (0x10D0,0x9234); (0x10D1,0x96B7); (0x10D2,0x96F6);
  (0x10D3,0x970A); (0x10D4,0x9E97); (0x10D5,0x9F62); (0x10D6,0x66A6); (0x10D7,0x6B74); (0x10D8,0x5217); (0x10D9,0x52A3); (0x10DA,0x70C8);
  (0x10DB,0x88C2); (0x10DC,0x5EC9); (0x10DD,0x604B); (0x10DE,0x6190); (0x10DF,0x6F23); (0x10E0,0x7149); (0x10E1,0x7C3E); (0x10E2,0x7DF4);
  (0x10E3,0x806F); (0x10E4,0x84EE); (0x10E5,0x9023); (0x10E6,0x932C); (0x10E7,0x5442); (0x10E8,0x9B6F); (0x10E9,0x6AD3); (0x10EA,0x7089);
  (0x10EB,0x8CC2); (0x10EC,0x8DEF); (0x10ED,0x9732); (0x10EE,0x52B4); (0x10EF,0x5A41); (0x10F0,0x5ECA); (0x10F1,0x5F04); (0x10F2,0x6717);
  (0x10F3,0x697C); (0x10F4,0x6994); (0x10F5,0x6D6A); (0x10F6,0x6F0F); (0x10F7,0x7262); (0x10F8,0x72FC); (0x10F9,0x7BED); (0x10FA,0x8001);
  (0x10FB,0x807E); (0x10FC,0x874B); (0x10FD,0x90CE); (0x10FE,0x516D); (0x10FF,0x9E93); (0x1100,0x7984); (0x1101,0x808B); (0x1102,0x9332);
  (0x1103,0x8AD6); (0x1104,0x502D); (0x1105,0x548C); (0x1106,0x8A71); (0x1107,0x6B6A); (0x1108,0x8CC4); (0x1109,0x8107); (0x110A,0x60D1);
  (0x110B,0x67A0); (0x110C,0x9DF2); (0x110D,0x4E99); (0x110E,0x4E98); (0x110F,0x9C10); (0x1110,0x8A6B); (0x1111,0x85C1); (0x1112,0x8568);
  (0x1113,0x6900); (0x1114,0x6E7E); (0x1115,0x7897); (0x1116,0x8155); (0x1142,0x5F0C); (0x1143,0x4E10); (0x1144,0x4E15); (0x1145,0x4E2A);
  (0x1146,0x4E31); (0x1147,0x4E36); (0x1148,0x4E3C); (0x1149,0x4E3F); (0x114A,0x4E42); (0x114B,0x4E56); (0x114C,0x4E58); (0x114D,0x4E82)
].
(* encoding_tables/whatwg/index-jis0208.txt (pointer, code point), entries 3584..3839 *)
Definition jis0208_index_14 : list (N * N) := [
  (0x114E,0x4E85); (0x114F,0x8C6B); (0x1150,0x4E8A); (0x1151,0x8212); (0x1152,0x5F0D); (0x1153,0x4E8E); (0x1154,0x4E9E); (0x1155,0x4E9F);
  (0x1156,0x4EA0); (0x1157,0x4EA2); (0x1158,0x4EB0); (0x1159,0x4EB3); (0x115A,0x4EB6); (0x115B,0x4ECE); (0x115C,0x4ECD); (0x115D,0x4EC4);
  (0x115E,0x4EC6); (0x115F,0x4EC2); (0x1160,0x4ED7); (0x1161,0x4EDE); (0x1162,0x4EED); (0x1163,0x4EDF); (0x1164,0x4EF7); (0x1165,0x4F09);
  (0x1166,0x4F5A); (0x1167,0x4F30); (0x1168,0x4F5B); (0x1169,0x4F5D); (0x116A,0x4F57); (0x116B,0x4F47); (0x116C,0x4F76); (0x116D,0x4F88);
  (0x116E,0x4F8F); (0x116F,0x4F98); (0x1170,0x4F7B); (0x1171,0x4F69); (0x1172,0x4F70); (0x1173,0x4F91); (0x1174,0x4F6F); (0x1175,0x4F86);
  (0x1176,0x4F96); (0x1177,0x5118); (0x1178,0x4FD4); (0x1179,0x4FDF); (0x117A,0x4FCE); (0x117B,0x4FD8); (0x117C,0x4FDB); (0x117D,0x4FD1);
  (0x117E,0x4FDA); (0x117F,0x4FD0); (0x1180,0x4FE4); (0x1181,0x4FE5); (0x1182,0x501A); (0x1183,0x5028); (0x1184,0x5014); (0x1185,0x502A);
  (0x1186,0x5025); (0x1187,0x5005); (0x1188,0x4F1C); (0x1189,0x4FF6); (0x118A,0x5021); (0x118B,0x5029); (0x118C,0x502C); (0x118D,0x4FFE);
  (0x118E,0x4FEF); (0x118F,0x5011); (0x1190,0x5006); (0x1191,0x5043); (0x1192,0x5047); (0x1193,0x6703); (0x1194,0x5055); (0x1195,0x5050);
  (0x1196,0x5048); (0x1197,0x505A); (0x1198,0x5056); (0x1199,0x506C); (0x119A,0x5078); (0x119B,0x5080); (0x119C,0x509A); (0x119D,0x5085);
  (0x119E,0x50B4); (0x119F,0x50B2); (0x11A0,0x50C9); (0x11A1,0x50CA); (0x11A2,0x50B3); (0x11A3,0x50C2); (0x11A4,0x50D6); (0x11A5,0x50DE);
  (0x11A6,0x50E5); (0x11A7,0x50ED); (0x11A8,0x50E3); (0x11A9,0x50EE); (0x11AA,0x50F9); (0x11AB,0x50F5); (0x11AC,0x5109); (0x11AD,0x5101);
  (0x11AE,0x5102); (0x11AF,0x5116); (0x11B0,0x5115); (0x11B1,0x5114); (0x11B2,0x511A); (0x11B3,0x5121); (0x11B4,0x513A); (0x11B5,0x5137);
  (0x11B6,0x513C); (0x11B7,0x513B); (0x11B8,0x513F); (0x11B9,0x5140); (0x11BA,0x5152); (0x11BB,0x514C); (0x11BC,0x5154); (0x11BD,0x5162);
  (0x11BE,0x7AF8); (0x11BF,0x5169); (0x11C0,0x516A); (0x11C1,0x516E); (0x11C2,0x5180); (0x11C3,0x5182); (0x11C4,0x56D8); (0x11C5,0x518C);
  (0x11C6,0x5189); (0x11C7,0x518F); (0x11C8,0x5191); (0x11C9,0x5193); (0x11CA,0x5195); (0x11CB,0x5196); (0x11CC,0x51A4); (0x11CD,0x51A6);
  (0x11CE,0x51A2); (0x11CF,0x51A9); (0x11D0,0x51AA); (0x11D1,0x51AB); (0x11D2,0x51B3); (0x11D3,0x51B1); (0x11D4,0x51B2); (0x11D5,0x51B0);
  (0x11D6,0x51B5); (0x11D7,0x51BD); (0x11D8,0x51C5); (0x11D9,0x51C9); (0x11DA,0x51DB); (0x11DB,0x51E0); (0x11DC,0x8655); (0x11DD,0x51E9);
  (0x11DE,0x51ED); (0x11DF,0x51F0); (0x11E0,0x51F5); (0x11E1,0x51FE); (0x11E2,0x5204); (0x11E3,0x520B); (0x11E4,0x5214); (0x11E5,0x520E);
  (0x11E6,0x5227); (0x11E7,0x522A); (0x11E8,0x522E); (0x11E9,0x5233); (0x11EA,0x5239); (0x11EB,0x524F); (0x11EC,0x5244); (0x11ED,0x524B);
  (0x11EE,0x524C); (0x11EF,0x525E); (0x11F0,0x5254); (0x11F1,0x526A); (0x11F2,0x5274); (0x11F3,0x5269); (0x11F4,0x5273); (0x11F5,0x527F);
  (0x11F6,0x527D); (0x11F7,0x528D); (0x11F8,0x5294); (0x11F9,0x5292); (0x11FA,0x5271); (0x11FB,0x5288); (0x11FC,0x5291); (0x11FD,0x8FA8);
  (0x11FE,0x8FA7); (0x11FF,0x52AC); (0x1200,0x52AD); (0x1201,0x52BC); (0x1202,0x52B5); (0x1203,0x52C1); (0x1204,0x52CD); (0x1205,0x52D7);
  (0x1206,0x52DE); (0x1207,0x52E3); (0x1208,0x52E6); (0x1209,0x98ED); (0x120A,0x52E0); (0x120B,0x52F3); (0x120C,0x52F5); (0x120D,0x52F8);
  (0x120E,0x52F9); (0x120F,0x5306); (0x1210,0x5308); (0x1211,0x7538); (0x1212,0x530D); (0x1213,0x5310); (0x1214,0x530F); (0x1215,0x5315);
  (0x1216,0x531A); (0x1217,0x5323); (0x1218,0x532F); (0x1219,0x5331); (0x121A,0x5333); (0x121B,0x5338); (0x121C,0x5340); (0x121D,0x5346);
  (0x121E,0x5345); (0x121F,0x4E17); (0x1220,0x5349); (0x1221,0x534D); (0x1222,0x51D6); (0x1223,0x535E); (0x1224,0x5369); (0x1225,0x536E);
  (0x1226,0x5918); (0x1227,0x537B); (0x1228,0x5377); (0x1229,0x5382); (0x122A,0x5396); (0x122B,0x53A0); (0x122C,0x53A6); (0x122D,0x53A5);
  (0x122E,0x53AE); (0x122F,0x53B0); (0x1230,0x53B6); (0x1231,0x53C3); (0x1232,0x7C12); (0x1233,0x96D9); (0x1234,0x53DF); (0x1235,0x66FC);
  (0x1236,0x71EE); (0x1237,0x53EE); (0x1238,0x53E8); (0x1239,0x53ED); (0x123A,0x53FA); (0x123B,0x5401); (0x123C,0x543D); (0x123D,0x5440);
  (0x123E,0x542C); (0x123F,0x542D); (0x1240,0x543C); (0x1241,0x542E); (0x1242,0x5436); (0x1243,0x5429); (0x1244,0x541D); (0x1245,0x544E);
  (0x1246,0x548F); (0x1247,0x5475); (0x1248,0x548E); (0x1249,0x545F); (0x124A,0x5471); (0x124B,0x5477); (0x124C,0x5470); (0x124D,0x5492)
].
(* encoding_tables/whatwg/index-jis0208.txt (pointer, code point), entries 3840..4095 *)
Definition jis0208_index_15 : list (N * N) := [
  (0x124E,0x547B); (0x124F,0x5480); (0x1250,0x5476); (0x1251,0x5484); (0x1252,0x5490); (0x1253,0x5486); (0x1254,0x54C7); (0x1255,0x54A2);
  (0x1256,0x54B8); (0x1257,0x54A5); (0x1258,0x54AC); (0x1259,0x54C4); (0x125A,0x54C8); (0x125B,0x54A8); (0x125C,0x54AB); (0x125D,0x54C2);
  (0x125E,0x54A4); (0x125F,0x54BE); (0x1260,0x54BC); (0x1261,0x54D8); (0x1262,0x54E5); (0x1263,0x54E6); (0x1264,0x550F); (0x1265,0x5514);
  (0x1266,0x54FD); (0x1267,0x54EE); (0x1268,0x54ED); (0x1269,0x54FA); (0x126A,0x54E2); (0x126B,0x5539); (0x126C,0x5540); (0x126D,0x5563);
  (0x126E,0x554C); (0x126F,0x552E); (0x1270,0x555C); (0x1271,0x5545); (0x1272,0x5556); (0x1273,0x5557); (0x1274,0x5538); (0x1275,0x5533);
  (0x1276,0x555D); (0x1277,0x5599); (0x1278,0x5580); (0x1279,0x54AF); (0x127A,0x558A); (0x127B,0x559F); (0x127C,0x557B); (0x127D,0x557E);
  (0x127E,0x5598); (0x127F,0x559E); (0x1280,0x55AE); (0x1281,0x557C); (0x1282,0x5583); (0x1283,0x55A9); (0x1284,0x5587); (0x1285,0x55A8);
  (0x1286,0x55DA); (0x1287,0x55C5); (0x1288,0x55DF); (0x1289,0x55C4); (0x128A,0x55DC); (0x128B,0x55E4); (0x128C,0x55D4); (0x128D,0x5614);
  (0x128E,0x55F7); (0x128F,0x5616); (0x1290,0x55FE); (0x1291,0x55FD); (0x1292,0x561B); (0x1293,0x55F9); (0x1294,0x564E); (0x1295,0x5650);
  (0x1296,0x71DF); (0x1297,0x5634); (0x1298,0x5636); (0x1299,0x5632); (0x129A,0x5638); (0x129B,0x566B); (0x129C,0x5664); (0x129D,0x562F);
  (0x129E,0x566C); (0x129F,0x566A); (0x12A0,0x5686); (0x12A1,0x5680); (0x12A2,0x568A); (0x12A3,0x56A0); (0x12A4,0x5694); (0x12A5,0x568F);
  (0x12A6,0x56A5); (0x12A7,0x56AE); (0x12A8,0x56B6); (0x12A9,0x56B4); (0x12AA,0x56C2); (0x12AB,0x56BC); (0x12AC,0x56C1); (0x12AD,0x56C3);
  (0x12AE,0x56C0); (0x12AF,0x56C8); (0x12B0,0x56CE); (0x12B1,0x56D1); (0x12B2,0x56D3); (0x12B3,0x56D7); (0x12B4,0x56EE); (0x12B5,0x56F9);
  (0x12B6,0x5700); (0x12B7,0x56FF); (0x12B8,0x5704); (0x12B9,0x5709); (0x12BA,0x5708); (0x12BB,0x570B); (0x12BC,0x570D); (0x12BD,0x5713);
  (0x12BE,0x5718); (0x12BF,0x5716); (0x12C0,0x55C7); (0x12C1,0x571C); (0x12C2,0x5726); (0x12C3,0x5737); (0x12C4,0x5738); (0x12C5,0x574E);
  (0x12C6,0x573B); (0x12C7,0x5740); (0x12C8,0x574F); (0x12C9,0x5769); (0x12CA,0x57C0); (0x12CB,0x5788); (0x12CC,0x5761); (0x12CD,0x577F);
  (0x12CE,0x5789); (0x12CF,0x5793); (0x12D0,0x57A0); (0x12D1,0x57B3); (0x12D2,0x57A4); (0x12D3,0x57AA); (0x12D4,0x57B0); (0x12D5,0x57C3);
  (0x12D6,0x57C6); (0x12D7,0x57D4); (0x12D8,0x57D2); (0x12D9,0x57D3); (0x12DA,0x580A); (0x12DB,0x57D6); (0x12DC,0x57E3); (0x12DD,0x580B);
  (0x12DE,0x5819); (0x12DF,0x581D); (0x12E0,0x5872); (0x12E1,0x5821); (0x12E2,0x5862); (0x12E3,0x584B); (0x12E4,0x5870); (0x12E5,0x6BC0);
  (0x12E6,0x5852); (0x12E7,0x583D); (0x12E8,0x5879); (0x12E9,0x5885); (0x12EA,0x58B9); (0x12EB,0x589F); (0x12EC,0x58AB); (0x12ED,0x58BA);
  (0x12EE,0x58DE); (0x12EF,0x58BB); (0x12F0,0x58B8); (0x12F1,0x58AE); (0x12F2,0x58C5); (0x12F3,0x58D3); (0x12F4,0x58D1); (0x12F5,0x58D7);
  (0x12F6,0x58D9); (0x12F7,0x58D8); (0x12F8,0x58E5); (0x12F9,0x58DC); (0x12FA,0x58E4); (0x12FB,0x58DF); (0x12FC,0x58EF); (0x12FD,0x58FA);
  (0x12FE,0x58F9); (0x12FF,0x58FB); (0x1300,0x58FC); (0x1301,0x58FD); (0x1302,0x5902); (0x1303,0x590A); (0x1304,0x5910); (0x1305,0x591B);
  (0x1306,0x68A6); (0x1307,0x5925); (0x1308,0x592C); (0x1309,0x592D); (0x130A,0x5932); (0x130B,0x5938); (0x130C,0x593E); (0x130D,0x7AD2);
  (0x130E,0x5955); (0x130F,0x5950); (0x1310,0x594E); (0x1311,0x595A); (0x1312,0x5958); (0x1313,0x5962); (0x1314,0x5960); (0x1315,0x5967);
  (0x1316,0x596C); (0x1317,0x5969); (0x1318,0x5978); (0x1319,0x5981); (0x131A,0x599D); (0x131B,0x4F5E); (0x131C,0x4FAB); (0x131D,0x59A3);
  (0x131E,0x59B2); (0x131F,0x59C6); (0x1320,0x59E8); (0x1321,0x59DC); (0x1322,0x598D); (0x1323,0x59D9); (0x1324,0x59DA); (0x1325,0x5A25);
  (0x1326,0x5A1F); (0x1327,0x5A11); (0x1328,0x5A1C); (0x1329,0x5A09); (0x132A,0x5A1A); (0x132B,0x5A40); (0x132C,0x5A6C); (0x132D,0x5A49);
  (0x132E,0x5A35); (0x132F,0x5A36); (0x1330,0x5A62); (0x1331,0x5A6A); (0x1332,0x5A9A); (0x1333,0x5ABC); (0x1334,0x5ABE); (0x1335,0x5ACB);
  (0x1336,0x5AC2); (0x1337,0x5ABD); (0x1338,0x5AE3); (0x1339,0x5AD7); (0x133A,0x5AE6); (0x133B,0x5AE9); (0x133C,0x5AD6); (0x133D,0x5AFA);
  (0x133E,0x5AFB); (0x133F,0x5B0C); (0x1340,0x5B0B); (0x1341,0x5B16); (0x1342,0x5B32); (0x1343,0x5AD0); (0x1344,0x5B2A); (0x1345,0x5B36);
  (0x1346,0x5B3E); (0x1347,0x5B43); (0x1348,0x5B45); (0x1349,0x5B40); (0x134A,0x5B51); (0x134B,0x5B55); (0x134C,0x5B5A); (0x134D,0x5B5B)
].
(* encoding_tables/whatwg/index-jis0208.txt (pointer, code point), entries 4096..4351 *)
Definition jis0208_index_16 : list (N * N) := [
  (0x134E,0x5B65); (0x134F,0x5B69); (0x1350,0x5B70); (0x1351,0x5B73); (0x1352,0x5B75); (0x1353,0x5B78); (0x1354,0x6588); (0x1355,0x5B7A);
  (0x1356,0x5B80); (0x1357,0x5B83); (0x1358,0x5BA6); (0x1359,0x5BB8); (0x135A,0x5BC3); (0x135B,0x5BC7); (0x135C,0x5BC9); (0x135D,0x5BD4);
  (0x135E,0x5BD0); (0x135F,0x5BE4); (0x1360,0x5BE6); (0x1361,0x5BE2); (0x1362,0x5BDE); (0x1363,0x5BE5); (0x1364,0x5BEB); (0x1365,0x5BF0);
  (0x1366,0x5BF6); (0x1367,0x5BF3); (0x1368,0x5C05); (0x1369,0x5C07); (0x136A,0x5C08); (0x136B,0x5C0D); (0x136C,0x5C13); (0x136D,0x5C20);
  (0x136E,0x5C22); (0x136F,0x5C28); (0x1370,0x5C38); (0x1371,0x5C39); (0x1372,0x5C41); (0x1373,0x5C46); (0x1374,0x5C4E); (0x1375,0x5C53);
  (0x1376,0x5C50); (0x1377,0x5C4F); (0x1378,0x5B71); (0x1379,0x5C6C); (0x137A,0x5C6E); (0x137B,0x4E62); (0x137C,0x5C76); (0x137D,0x5C79);
  (0x137E,0x5C8C); (0x137F,0x5C91); (0x1380,0x5C94); (0x1381,0x599B); (0x1382,0x5CAB); (0x1383,0x5CBB); (0x1384,0x5CB6); (0x1385,0x5CBC);
  (0x1386,0x5CB7); (0x1387,0x5CC5); (0x1388,0x5CBE); (0x1389,0x5CC7); (0x138A,0x5CD9); (0x138B,0x5CE9); (0x138C,0x5CFD); (0x138D,0x5CFA);
  (0x138E,0x5CED); (0x138F,0x5D8C); (0x1390,0x5CEA); (0x1391,0x5D0B); (0x1392,0x5D15); (0x1393,0x5D17); (0x1394,0x5D5C); (0x1395,0x5D1F);
  (0x1396,0x5D1B); (0x1397,0x5D11); (0x1398,0x5D14); (0x1399,0x5D22); (0x139A,0x5D1A); (0x139B,0x5D19); (0x139C,0x5D18); (0x139D,0x5D4C);
  (0x139E,0x5D52); (0x139F,0x5D4E); (0x13A0,0x5D4B); (0x13A1,0x5D6C); (0x13A2,0x5D73); (0x13A3,0x5D76); (0x13A4,0x5D87); (0x13A5,0x5D84);
  (0x13A6,0x5D82); (0x13A7,0x5DA2); (0x13A8,0x5D9D); (0x13A9,0x5DAC); (0x13AA,0x5DAE); (0x13AB,0x5DBD); (0x13AC,0x5D90); (0x13AD,0x5DB7);
  (0x13AE,0x5DBC); (0x13AF,0x5DC9); (0x13B0,0x5DCD); (0x13B1,0x5DD3); (0x13B2,0x5DD2); (0x13B3,0x5DD6); (0x13B4,0x5DDB); (0x13B5,0x5DEB);
  (0x13B6,0x5DF2); (0x13B7,0x5DF5); (0x13B8,0x5E0B); (0x13B9,0x5E1A); (0x13BA,0x5E19); (0x13BB,0x5E11); (0x13BC,0x5E1B); (0x13BD,0x5E36);
  (0x13BE,0x5E37); (0x13BF,0x5E44); (0x13C0,0x5E43); (0x13C1,0x5E40); (0x13C2,0x5E4E); (0x13C3,0x5E57); (0x13C4,0x5E54); (0x13C5,0x5E5F);
  (0x13C6,0x5E62); (0x13C7,0x5E64); (0x13C8,0x5E47); (0x13C9,0x5E75); (0x13CA,0x5E76); (0x13CB,0x5E7A); (0x13CC,0x9EBC); (0x13CD,0x5E7F);
  (0x13CE,0x5EA0); (0x13CF,0x5EC1); (0x13D0,0x5EC2); (0x13D1,0x5EC8); (0x13D2,0x5ED0); (0x13D3,0x5ECF); (0x13D4,0x5ED6); (0x13D5,0x5EE3);
  (0x13D6,0x5EDD); (0x13D7,0x5EDA); (0x13D8,0x5EDB); (0x13D9,0x5EE2); (0x13DA,0x5EE1); (0x13DB,0x5EE8); (0x13DC,0x5EE9); (0x13DD,0x5EEC);
  (0x13DE,0x5EF1); (0x13DF,0x5EF3); (0x13E0,0x5EF0); (0x13E1,0x5EF4); (0x13E2,0x5EF8); (0x13E3,0x5EFE); (0x13E4,0x5F03); (0x13E5,0x5F09);
  (0x13E6,0x5F5D); (0x13E7,0x5F5C); (0x13E8,0x5F0B); (0x13E9,0x5F11); (0x13EA,0x5F16); (0x13EB,0x5F29); (0x13EC,0x5F2D); (0x13ED,0x5F38);
  (0x13EE,0x5F41); (0x13EF,0x5F48); (0x13F0,0x5F4C); (0x13F1,0x5F4E); (0x13F2,0x5F2F); (0x13F3,0x5F51); (0x13F4,0x5F56); (0x13F5,0x5F57);
  (0x13F6,0x5F59); (0x13F7,0x5F61); (0x13F8,0x5F6D); (0x13F9,0x5F73); (0x13FA,0x5F77); (0x13FB,0x5F83); (0x13FC,0x5F82); (0x13FD,0x5F7F);
  (0x13FE,0x5F8A); (0x13FF,0x5F88); (0x1400,0x5F91); (0x1401,0x5F87); (0x1402,0x5F9E); (0x1403,0x5F99); (0x1404,0x5F98); (0x1405,0x5FA0);
  (0x1406,0x5FA8); (0x1407,0x5FAD); (0x1408,0x5FBC); (0x1409,0x5FD6); (0x140A,0x5FFB); (0x140B,0x5FE4); (0x140C,0x5FF8); (0x140D,0x5FF1);
  (0x140E,0x5FDD); (0x140F,0x60B3); (0x1410,0x5FFF); (0x1411,0x6021); (0x1412,0x6060); (0x1413,0x6019); (0x1414,0x6010); (0x1415,0x6029);
  (0x1416,0x600E); (0x1417,0x6031); (0x1418,0x601B); (0x1419,0x6015); (0x141A,0x602B); (0x141B,0x6026); (0x141C,0x600F); (0x141D,0x603A);
  (0x141E,0x605A); (0x141F,0x6041); (0x1420,0x606A); (0x1421,0x6077); (0x1422,0x605F); (0x1423,0x604A); (0x1424,0x6046); (0x1425,0x604D);
  (0x1426,0x6063); (0x1427,0x6043); (0x1428,0x6064); (0x1429,0x6042); (0x142A,0x606C); (0x142B,0x606B); (0x142C,0x6059); (0x142D,0x6081);
  (0x142E,0x608D); (0x142F,0x60E7); (0x1430,0x6083); (0x1431,0x609A); (0x1432,0x6084); (0x1433,0x609B); (0x1434,0x6096); (0x1435,0x6097);
  (0x1436,0x6092); (0x1437,0x60A7); (0x1438,0x608B); (0x1439,0x60E1); (0x143A,0x60B8); (0x143B,0x60E0); (0x143C,0x60D3); (0x143D,0x60B4);
  (0x143E,0x5FF0); (0x143F,0x60BD); (0x1440,0x60C6); (0x1441,0x60B5); (0x1442,0x60D8); (0x1443,0x614D); (0x1444,0x6115); (0x1445,0x6106);
  (0x1446,0x60F6); (0x1447,0x60F7); (0x1448,0x6100); (0x1449,0x60F4); (0x144A,0x60FA); (0x144B,0x6103); (0x144C,0x6121); (0x144D,0x60FB)
].
(* encoding_tables/whatwg/index-jis0208.txt (pointer, code point), entries 4352..4607 *)
Definition jis0208_index_17 : list (N * N) := [
  (0x144E,0x60F1); (0x144F,0x610D); (0x1450,0x610E); (0x1451,0x6147); (0x1452,0x613E); (0x1453,0x6128); (0x1454,0x6127); (0x1455,0x614A);
  (0x1456,0x613F); (0x1457,0x613C); (0x1458,0x612C); (0x1459,0x6134); (0x145A,0x613D); (0x145B,0x6142); (0x145C,0x6144); (0x145D,0x6173);
  (0x145E,0x6177); (0x145F,0x6158); (0x1460,0x6159); (0x1461,0x615A); (0x1462,0x616B); (0x1463,0x6174); (0x1464,0x616F); (0x1465,0x6165);
  (0x1466,0x6171); (0x1467,0x615F); (0x1468,0x615D); (0x1469,0x6153); (0x146A,0x6175); (0x146B,0x6199); (0x146C,0x6196); (0x146D,0x6187);
  (0x146E,0x61AC); (0x146F,0x6194); (0x1470,0x619A); (0x1471,0x618A); (0x1472,0x6191); (0x1473,0x61AB); (0x1474,0x61AE); (0x1475,0x61CC);
  (0x1476,0x61CA); (0x1477,0x61C9); (0x1478,0x61F7); (0x1479,0x61C8); (0x147A,0x61C3); (0x147B,0x61C6); (0x147C,0x61BA); (0x147D,0x61CB);
  (0x147E,0x7F79); (0x147F,0x61CD); (0x1480,0x61E6); (0x1481,0x61E3); (0x1482,0x61F6); (0x1483,0x61FA); (0x1484,0x61F4); (0x1485,0x61FF);
  (0x1486,0x61FD); (0x1487,0x61FC); (0x1488,0x61FE); (0x1489,0x6200); (0x148A,0x6208); (0x148B,0x6209); (0x148C,0x620D); (0x148D,0x620C);
  (0x148E,0x6214); (0x148F,0x621B); (0x1490,0x621E); (0x1491,0x6221); (0x1492,0x622A); (0x1493,0x622E); (0x1494,0x6230); (0x1495,0x6232);
  (0x1496,0x6233); (0x1497,0x6241); (0x1498,0x624E); (0x1499,0x625E); (0x149A,0x6263); (0x149B,0x625B); (0x149C,0x6260); (0x149D,0x6268);
  (0x149E,0x627C); (0x149F,0x6282); (0x14A0,0x6289); (0x14A1,0x627E); (0x14A2,0x6292); (0x14A3,0x6293); (0x14A4,0x6296); (0x14A5,0x62D4);
  (0x14A6,0x6283); (0x14A7,0x6294); (0x14A8,0x62D7); (0x14A9,0x62D1); (0x14AA,0x62BB); (0x14AB,0x62CF); (0x14AC,0x62FF); (0x14AD,0x62C6);
  (0x14AE,0x64D4); (0x14AF,0x62C8); (0x14B0,0x62DC); (0x14B1,0x62CC); (0x14B2,0x62CA); (0x14B3,0x62C2); (0x14B4,0x62C7); (0x14B5,0x629B);
  (0x14B6,0x62C9); (0x14B7,0x630C); (0x14B8,0x62EE); (0x14B9,0x62F1); (0x14BA,0x6327); (0x14BB,0x6302); (0x14BC,0x6308); (0x14BD,0x62EF);
  (0x14BE,0x62F5); (0x14BF,0x6350); (0x14C0,0x633E); (0x14C1,0x634D); (0x14C2,0x641C); (0x14C3,0x634F); (0x14C4,0x6396); (0x14C5,0x638E);
  (0x14C6,0x6380); (0x14C7,0x63AB); (0x14C8,0x6376); (0x14C9,0x63A3); (0x14CA,0x638F); (0x14CB,0x6389); (0x14CC,0x639F); (0x14CD,0x63B5);
  (0x14CE,0x636B); (0x14CF,0x6369); (0x14D0,0x63BE); (0x14D1,0x63E9); (0x14D2,0x63C0); (0x14D3,0x63C6); (0x14D4,0x63E3); (0x14D5,0x63C9);
  (0x14D6,0x63D2); (0x14D7,0x63F6); (0x14D8,0x63C4); (0x14D9,0x6416); (0x14DA,0x6434); (0x14DB,0x6406); (0x14DC,0x6413); (0x14DD,0x6426);
  (0x14DE,0x6436); (0x14DF,0x651D); (0x14E0,0x6417); (0x14E1,0x6428); (0x14E2,0x640F); (0x14E3,0x6467); (0x14E4,0x646F); (0x14E5,0x6476);
  (0x14E6,0x644E); (0x14E7,0x652A); (0x14E8,0x6495); (0x14E9,0x6493); (0x14EA,0x64A5); (0x14EB,0x64A9); (0x14EC,0x6488); (0x14ED,0x64BC);
  (0x14EE,0x64DA); (0x14EF,0x64D2); (0x14F0,0x64C5); (0x14F1,0x64C7); (0x14F2,0x64BB); (0x14F3,0x64D8); (0x14F4,0x64C2); (0x14F5,0x64F1);
  (0x14F6,0x64E7); (0x14F7,0x8209); (0x14F8,0x64E0); (0x14F9,0x64E1); (0x14FA,0x62AC); (0x14FB,0x64E3); (0x14FC,0x64EF); (0x14FD,0x652C);
  (0x14FE,0x64F6); (0x14FF,0x64F4); (0x1500,0x64F2); (0x1501,0x64FA); (0x1502,0x6500); (0x1503,0x64FD); (0x1504,0x6518); (0x1505,0x651C);
  (0x1506,0x6505); (0x1507,0x6524); (0x1508,0x6523); (0x1509,0x652B); (0x150A,0x6534); (0x150B,0x6535); (0x150C,0x6537); (0x150D,0x6536);
  (0x150E,0x6538); (0x150F,0x754B); (0x1510,0x6548); (0x1511,0x6556); (0x1512,0x6555); (0x1513,0x654D); (0x1514,0x6558); (0x1515,0x655E);
  (0x1516,0x655D); (0x1517,0x6572); (0x1518,0x6578); (0x1519,0x6582); (0x151A,0x6583); (0x151B,0x8B8A); (0x151C,0x659B); (0x151D,0x659F);
  (0x151E,0x65AB); (0x151F,0x65B7); (0x1520,0x65C3); (0x1521,0x65C6); (0x1522,0x65C1); (0x1523,0x65C4); (0x1524,0x65CC); (0x1525,0x65D2);
  (0x1526,0x65DB); (0x1527,0x65D9); (0x1528,0x65E0); (0x1529,0x65E1); (0x152A,0x65F1); (0x152B,0x6772); (0x152C,0x660A); (0x152D,0x6603);
  (0x152E,0x65FB); (0x152F,0x6773); (0x1530,0x6635); (0x1531,0x6636); (0x1532,0x6634); (0x1533,0x661C); (0x1534,0x664F); (0x1535,0x6644);
  (0x1536,0x6649); (0x1537,0x6641); (0x1538,0x665E); (0x1539,0x665D); (0x153A,0x6664); (0x153B,0x6667); (0x153C,0x6668); (0x153D,0x665F);
  (0x153E,0x6662); (0x153F,0x6670); (0x1540,0x6683); (0x1541,0x6688); (0x1542,0x668E); (0x1543,0x6689); (0x1544,0x6684); (0x1545,0x6698);
  (0x1546,0x669D); (0x1547,0x66C1); (0x1548,0x66B9); (0x1549,0x66C9); (0x154A,0x66BE); (0x154B,0x66BC); (0x154C,0x66C4); (0x154D,0x66B8)
].
(* encoding_tables/whatwg/index-jis0208.txt (pointer, code point), entries 4608..4863 *)
Definition jis0208_index_18 : list (N * N) := [
  (0x154E,0x66D6); (0x154F,0x66DA); (0x1550,0x66E0); (0x1551,0x663F); (0x1552,0x66E6); (0x1553,0x66E9); (0x1554,0x66F0); (0x1555,0x66F5);
  (0x1556,0x66F7); (0x1557,0x670F); (0x1558,0x6716); (0x1559,0x671E); (0x155A,0x6726); (0x155B,0x6727); (0x155C,0x9738); (0x155D,0x672E);
  (0x155E,0x673F); (0x155F,0x6736); (0x1560,0x6741); (0x1561,0x6738); (0x1562,0x6737); (0x1563,0x6746); (0x1564,0x675E); (0x1565,0x6760);
  (0x1566,0x6759); (0x1567,0x6763); (0x1568,0x6764); (0x1569,0x6789); (0x156A,0x6770); (0x156B,0x67A9); (0x156C,0x677C); (0x156D,0x676A);
  (0x156E,0x678C); (0x156F,0x678B); (0x1570,0x67A6); (0x1571,0x67A1); (0x1572,0x6785); (0x1573,0x67B7); (0x1574,0x67EF); (0x1575,0x67B4);
  (0x1576,0x67EC); (0x1577,0x67B3); (0x1578,0x67E9); (0x1579,0x67B8); (0x157A,0x67E4); (0x157B,0x67DE); (0x157C,0x67DD); (0x157D,0x67E2);
  (0x157E,0x67EE); (0x157F,0x67B9); (0x1580,0x67CE); (0x1581,0x67C6); (0x1582,0x67E7); (0x1583,0x6A9C); (0x1584,0x681E); (0x1585,0x6846);
  (0x1586,0x6829); (0x1587,0x6840); (0x1588,0x684D); (0x1589,0x6832); (0x158A,0x684E); (0x158B,0x68B3); (0x158C,0x682B); (0x158D,0x6859);
  (0x158E,0x6863); (0x158F,0x6877); (0x1590,0x687F); (0x1591,0x689F); (0x1592,0x688F); (0x1593,0x68AD); (0x1594,0x6894); (0x1595,0x689D);
  (0x1596,0x689B); (0x1597,0x6883); (0x1598,0x6AAE); (0x1599,0x68B9); (0x159A,0x6874); (0x159B,0x68B5); (0x159C,0x68A0); (0x159D,0x68BA);
  (0x159E,0x690F); (0x159F,0x688D); (0x15A0,0x687E); (0x15A1,0x6901); (0x15A2,0x68CA); (0x15A3,0x6908); (0x15A4,0x68D8); (0x15A5,0x6922);
  (0x15A6,0x6926); (0x15A7,0x68E1); (0x15A8,0x690C); (0x15A9,0x68CD); (0x15AA,0x68D4); (0x15AB,0x68E7); (0x15AC,0x68D5); (0x15AD,0x6936);
  (0x15AE,0x6912); (0x15AF,0x6904); (0x15B0,0x68D7); (0x15B1,0x68E3); (0x15B2,0x6925); (0x15B3,0x68F9); (0x15B4,0x68E0); (0x15B5,0x68EF);
  (0x15B6,0x6928); (0x15B7,0x692A); (0x15B8,0x691A); (0x15B9,0x6923); (0x15BA,0x6921); (0x15BB,0x68C6); (0x15BC,0x6979); (0x15BD,0x6977);
  (0x15BE,0x695C); (0x15BF,0x6978); (0x15C0,0x696B); (0x15C1,0x6954); (0x15C2,0x697E); (0x15C3,0x696E); (0x15C4,0x6939); (0x15C5,0x6974);
  (0x15C6,0x693D); (0x15C7,0x6959); (0x15C8,0x6930); (0x15C9,0x6961); (0x15CA,0x695E); (0x15CB,0x695D); (0x15CC,0x6981); (0x15CD,0x696A);
  (0x15CE,0x69B2); (0x15CF,0x69AE); (0x15D0,0x69D0); (0x15D1,0x69BF); (0x15D2,0x69C1); (0x15D3,0x69D3); (0x15D4,0x69BE); (0x15D5,0x69CE);
  (0x15D6,0x5BE8); (0x15D7,0x69CA); (0x15D8,0x69DD); (0x15D9,0x69BB); (0x15DA,0x69C3); (0x15DB,0x69A7); (0x15DC,0x6A2E); (0x15DD,0x6991);
  (0x15DE,0x69A0); (0x15DF,0x699C); (0x15E0,0x6995); (0x15E1,0x69B4); (0x15E2,0x69DE); (0x15E3,0x69E8); (0x15E4,0x6A02); (0x15E5,0x6A1B);
  (0x15E6,0x69FF); (0x15E7,0x6B0A); (0x15E8,0x69F9); (0x15E9,0x69F2); (0x15EA,0x69E7); (0x15EB,0x6A05); (0x15EC,0x69B1); (0x15ED,0x6A1E);
  (0x15EE,0x69ED); (0x15EF,0x6A14); (0x15F0,0x69EB); (0x15F1,0x6A0A); (0x15F2,0x6A12); (0x15F3,0x6AC1); (0x15F4,0x6A23); (0x15F5,0x6A13);
  (0x15F6,0x6A44); (0x15F7,0x6A0C); (0x15F8,0x6A72); (0x15F9,0x6A36); (0x15FA,0x6A78); (0x15FB,0x6A47); (0x15FC,0x6A62); (0x15FD,0x6A59);
  (0x15FE,0x6A66); (0x15FF,0x6A48); (0x1600,0x6A38); (0x1601,0x6A22); (0x1602,0x6A90); (0x1603,0x6A8D); (0x1604,0x6AA0); (0x1605,0x6A84);
  (0x1606,0x6AA2); (0x1607,0x6AA3); (0x1608,0x6A97); (0x1609,0x8617); (0x160A,0x6ABB); (0x160B,0x6AC3); (0x160C,0x6AC2); (0x160D,0x6AB8);
  (0x160E,0x6AB3); (0x160F,0x6AAC); (0x1610,0x6ADE); (0x1611,0x6AD1); (0x1612,0x6ADF); (0x1613,0x6AAA); (0x1614,0x6ADA); (0x1615,0x6AEA);
  (0x1616,0x6AFB); (0x1617,0x6B05); (0x1618,0x8616); (0x1619,0x6AFA); (0x161A,0x6B12); (0x161B,0x6B16); (0x161C,0x9B31); (0x161D,0x6B1F);
  (0x161E,0x6B38); (0x161F,0x6B37); (0x1620,0x76DC); (0x1621,0x6B39); (0x1622,0x98EE); (0x1623,0x6B47); (0x1624,0x6B43); (0x1625,0x6B49);
  (0x1626,0x6B50); (0x1627,0x6B59); (0x1628,0x6B54); (0x1629,0x6B5B); (0x162A,0x6B5F); (0x162B,0x6B61); (0x162C,0x6B78); (0x162D,0x6B79);
  (0x162E,0x6B7F); (0x162F,0x6B80); (0x1630,0x6B84); (0x1631,0x6B83); (0x1632,0x6B8D); (0x1633,0x6B98); (0x1634,0x6B95); (0x1635,0x6B9E);
  (0x1636,0x6BA4); (0x1637,0x6BAA); (0x1638,0x6BAB); (0x1639,0x6BAF); (0x163A,0x6BB2); (0x163B,0x6BB1); (0x163C,0x6BB3); (0x163D,0x6BB7);
  (0x163E,0x6BBC); (0x163F,0x6BC6); (0x1640,0x6BCB); (0x1641,0x6BD3); (0x1642,0x6BDF); (0x1643,0x6BEC); (0x1644,0x6BEB); (0x1645,0x6BF3);
  (0x1646,0x6BEF); (0x1647,0x9EBE); (0x1648,0x6C08); (0x1649,0x6C13); (0x164A,0x6C14); (0x164B,0x6C1B); (0x164C,0x6C24); (0x164D,0x6C23)
].
(* encoding_tables/whatwg/index-jis0208.txt (pointer, code point), entries 4864..5119 *)
Definition jis0208_index_19 : list (N * N) := [
  (0x164E,0x6C5E); (0x164F,0x6C55); (0x1650,0x6C62); (0x1651,0x6C6A); (0x1652,0x6C82); (0x1653,0x6C8D); (0x1654,0x6C9A); (0x1655,0x6C81);
  (0x1656,0x6C9B); (0x1657,0x6C7E); (0x1658,0x6C68); (0x1659,0x6C73); (0x165A,0x6C92); (0x165B,0x6C90); (0x165C,0x6CC4); (0x165D,0x6CF1);
  (0x165E,0x6CD3); (0x165F,0x6CBD); (0x1660,0x6CD7); (0x1661,0x6CC5); (0x1662,0x6CDD); (0x1663,0x6CAE); (0x1664,0x6CB1); (0x1665,0x6CBE);
  (0x1666,0x6CBA); (0x1667,0x6CDB); (0x1668,0x6CEF); (0x1669,0x6CD9); (0x166A,0x6CEA); (0x166B,0x6D1F); (0x166C,0x884D); (0x166D,0x6D36);
  (0x166E,0x6D2B); (0x166F,0x6D3D); (0x1670,0x6D38); (0x1671,0x6D19); (0x1672,0x6D35); (0x1673,0x6D33); (0x1674,0x6D12); (0x1675,0x6D0C);
  (0x1676,0x6D63); (0x1677,0x6D93); (0x1678,0x6D64); (0x1679,0x6D5A); (0x167A,0x6D79); (0x167B,0x6D59); (0x167C,0x6D8E); (0x167D,0x6D95);
  (0x167E,0x6FE4); (0x167F,0x6D85); (0x1680,0x6DF9); (0x1681,0x6E15); (0x1682,0x6E0A); (0x1683,0x6DB5); (0x1684,0x6DC7); (0x1685,0x6DE6);
  (0x1686,0x6DB8); (0x1687,0x6DC6); (0x1688,0x6DEC); (0x1689,0x6DDE); (0x168A,0x6DCC); (0x168B,0x6DE8); (0x168C,0x6DD2); (0x168D,0x6DC5);
  (0x168E,0x6DFA); (0x168F,0x6DD9); (0x1690,0x6DE4); (0x1691,0x6DD5); (0x1692,0x6DEA); (0x1693,0x6DEE); (0x1694,0x6E2D); (0x1695,0x6E6E);
  (0x1696,0x6E2E); (0x1697,0x6E19); (0x1698,0x6E72); (0x1699,0x6E5F); (0x169A,0x6E3E); (0x169B,0x6E23); (0x169C,0x6E6B); (0x169D,0x6E2B);
  (0x169E,0x6E76); (0x169F,0x6E4D); (0x16A0,0x6E1F); (0x16A1,0x6E43); (0x16A2,0x6E3A); (0x16A3,0x6E4E); (0x16A4,0x6E24); (0x16A5,0x6EFF);
  (0x16A6,0x6E1D); (0x16A7,0x6E38); (0x16A8,0x6E82); (0x16A9,0x6EAA); (0x16AA,0x6E98); (0x16AB,0x6EC9); (0x16AC,0x6EB7); (0x16AD,0x6ED3);
  (0x16AE,0x6EBD); (0x16AF,0x6EAF); (0x16B0,0x6EC4); (0x16B1,0x6EB2); (0x16B2,0x6ED4); (0x16B3,0x6ED5); (0x16B4,0x6E8F); (0x16B5,0x6EA5);
  (0x16B6,0x6EC2); (0x16B7,0x6E9F); (0x16B8,0x6F41); (0x16B9,0x6F11); (0x16BA,0x704C); (0x16BB,0x6EEC); (0x16BC,0x6EF8); (0x16BD,0x6EFE);
  (0x16BE,0x6F3F); (0x16BF,0x6EF2); (0x16C0,0x6F31); (0x16C1,0x6EEF); (0x16C2,0x6F32); (0x16C3,0x6ECC); (0x16C4,0x6F3E); (0x16C5,0x6F13);
  (0x16C6,0x6EF7); (0x16C7,0x6F86); (0x16C8,0x6F7A); (0x16C9,0x6F78); (0x16CA,0x6F81); (0x16CB,0x6F80); (0x16CC,0x6F6F); (0x16CD,0x6F5B);
  (0x16CE,0x6FF3); (0x16CF,0x6F6D); (0x16D0,0x6F82); (0x16D1,0x6F7C); (0x16D2,0x6F58); (0x16D3,0x6F8E); (0x16D4,0x6F91); (0x16D5,0x6FC2);
  (0x16D6,0x6F66); (0x16D7,0x6FB3); (0x16D8,0x6FA3); (0x16D9,0x6FA1); (0x16DA,0x6FA4); (0x16DB,0x6FB9); (0x16DC,0x6FC6); (0x16DD,0x6FAA);
  (0x16DE,0x6FDF); (0x16DF,0x6FD5); (0x16E0,0x6FEC); (0x16E1,0x6FD4); (0x16E2,0x6FD8); (0x16E3,0x6FF1); (0x16E4,0x6FEE); (0x16E5,0x6FDB);
  (0x16E6,0x7009); (0x16E7,0x700B); (0x16E8,0x6FFA); (0x16E9,0x7011); (0x16EA,0x7001); (0x16EB,0x700F); (0x16EC,0x6FFE); (0x16ED,0x701B);
  (0x16EE,0x701A); (0x16EF,0x6F74); (0x16F0,0x701D); (0x16F1,0x7018); (0x16F2,0x701F); (0x16F3,0x7030); (0x16F4,0x703E); (0x16F5,0x7032);
  (0x16F6,0x7051); (0x16F7,0x7063); (0x16F8,0x7099); (0x16F9,0x7092); (0x16FA,0x70AF); (0x16FB,0x70F1); (0x16FC,0x70AC); (0x16FD,0x70B8);
  (0x16FE,0x70B3); (0x16FF,0x70AE); (0x1700,0x70DF); (0x1701,0x70CB); (0x1702,0x70DD); (0x1703,0x70D9); (0x1704,0x7109); (0x1705,0x70FD);
  (0x1706,0x711C); (0x1707,0x7119); (0x1708,0x7165); (0x1709,0x7155); (0x170A,0x7188); (0x170B,0x7166); (0x170C,0x7162); (0x170D,0x714C);
  (0x170E,0x7156); (0x170F,0x716C); (0x1710,0x718F); (0x1711,0x71FB); (0x1712,0x7184); (0x1713,0x7195); (0x1714,0x71A8); (0x1715,0x71AC);
  (0x1716,0x71D7); (0x1717,0x71B9); (0x1718,0x71BE); (0x1719,0x71D2); (0x171A,0x71C9); (0x171B,0x71D4); (0x171C,0x71CE); (0x171D,0x71E0);
  (0x171E,0x71EC); (0x171F,0x71E7); (0x1720,0x71F5); (0x1721,0x71FC); (0x1722,0x71F9); (0x1723,0x71FF); (0x1724,0x720D); (0x1725,0x7210);
  (0x1726,0x721B); (0x1727,0x7228); (0x1728,0x722D); (0x1729,0x722C); (0x172A,0x7230); (0x172B,0x7232); (0x172C,0x723B); (0x172D,0x723C);
  (0x172E,0x723F); (0x172F,0x7240); (0x1730,0x7246); (0x1731,0x724B); (0x1732,0x7258); (0x1733,0x7274); (0x1734,0x727E); (0x1735,0x7282);
  (0x1736,0x7281); (0x1737,0x7287); (0x1738,0x7292); (0x1739,0x7296); (0x173A,0x72A2); (0x173B,0x72A7); (0x173C,0x72B9); (0x173D,0x72B2);
  (0x173E,0x72C3); (0x173F,0x72C6); (0x1740,0x72C4); (0x1741,0x72CE); (0x1742,0x72D2); (0x1743,0x72E2); (0x1744,0x72E0); (0x1745,0x72E1);
  (0x1746,0x72F9); (0x1747,0x72F7); (0x1748,0x500F); (0x1749,0x7317); (0x174A,0x730A); (0x174B,0x731C); (0x174C,0x7316); (0x174D,0x731D)
].
(* encoding_tables/whatwg/index-jis0208.txt (pointer, code point), entries 5120..5375 *)
Definition jis0208_index_20 : list (N * N) := [
  (0x174E,0x7334); (0x174F,0x732F); (0x1750,0x7329); (0x1751,0x7325); (0x1752,0x733E); (0x1753,0x734E); (0x1754,0x734F); (0x1755,0x9ED8);
  (0x1756,0x7357); (0x1757,0x736A); (0x1758,0x7368); (0x1759,0x7370); (0x175A,0x7378); (0x175B,0x7375); (0x175C,0x737B); (0x175D,0x737A);
  (0x175E,0x73C8); (0x175F,0x73B3); (0x1760,0x73CE); (0x1761,0x73BB); (0x1762,0x73C0); (0x1763,0x73E5); (0x1764,0x73EE); (0x1765,0x73DE);
  (0x1766,0x74A2); (0x1767,0x7405); (0x1768,0x746F); (0x1769,0x7425); (0x176A,0x73F8); (0x176B,0x7432); (0x176C,0x743A); (0x176D,0x7455);
  (0x176E,0x743F); (0x176F,0x745F); (0x1770,0x7459); (0x1771,0x7441); (0x1772,0x745C); (0x1773,0x7469); (0x1774,0x7470); (0x1775,0x7463);
  (0x1776,0x746A); (0x1777,0x7476); (0x1778,0x747E); (0x1779,0x748B); (0x177A,0x749E); (0x177B,0x74A7); (0x177C,0x74CA); (0x177D,0x74CF);
  (0x177E,0x74D4); (0x177F,0x73F1); (0x1780,0x74E0); (0x1781,0x74E3); (0x1782,0x74E7); (0x1783,0x74E9); (0x1784,0x74EE); (0x1785,0x74F2);
  (0x1786,0x74F0); (0x1787,0x74F1); (0x1788,0x74F8); (0x1789,0x74F7); (0x178A,0x7504); (0x178B,0x7503); (0x178C,0x7505); (0x178D,0x750C);
  (0x178E,0x750E); (0x178F,0x750D); (0x1790,0x7515); (0x1791,0x7513); (0x1792,0x751E); (0x1793,0x7526); (0x1794,0x752C); (0x1795,0x753C);
  (0x1796,0x7544); (0x1797,0x754D); (0x1798,0x754A); (0x1799,0x7549); (0x179A,0x755B); (0x179B,0x7546); (0x179C,0x755A); (0x179D,0x7569);
  (0x179E,0x7564); (0x179F,0x7567); (0x17A0,0x756B); (0x17A1,0x756D); (0x17A2,0x7578); (0x17A3,0x7576); (0x17A4,0x7586); (0x17A5,0x7587);
  (0x17A6,0x7574); (0x17A7,0x758A); (0x17A8,0x7589); (0x17A9,0x7582); (0x17AA,0x7594); (0x17AB,0x759A); (0x17AC,0x759D); (0x17AD,0x75A5);
  (0x17AE,0x75A3); (0x17AF,0x75C2); (0x17B0,0x75B3); (0x17B1,0x75C3); (0x17B2,0x75B5); (0x17B3,0x75BD); (0x17B4,0x75B8); (0x17B5,0x75BC);
  (0x17B6,0x75B1); (0x17B7,0x75CD); (0x17B8,0x75CA); (0x17B9,0x75D2); (0x17BA,0x75D9); (0x17BB,0x75E3); (0x17BC,0x75DE); (0x17BD,0x75FE);
  (0x17BE,0x75FF); (0x17BF,0x75FC); (0x17C0,0x7601); (0x17C1,0x75F0); (0x17C2,0x75FA); (0x17C3,0x75F2); (0x17C4,0x75F3); (0x17C5,0x760B);
  (0x17C6,0x760D); (0x17C7,0x7609); (0x17C8,0x761F); (0x17C9,0x7627); (0x17CA,0x7620); (0x17CB,0x7621); (0x17CC,0x7622); (0x17CD,0x7624);
  (0x17CE,0x7634); (0x17CF,0x7630); (0x17D0,0x763B); (0x17D1,0x7647); (0x17D2,0x7648); (0x17D3,0x7646); (0x17D4,0x765C); (0x17D5,0x7658);
  (0x17D6,0x7661); (0x17D7,0x7662); (0x17D8,0x7668); (0x17D9,0x7669); (0x17DA,0x766A); (0x17DB,0x7667); (0x17DC,0x766C); (0x17DD,0x7670);
  (0x17DE,0x7672); (0x17DF,0x7676); (0x17E0,0x7678); (0x17E1,0x767C); (0x17E2,0x7680); (0x17E3,0x7683); (0x17E4,0x7688); (0x17E5,0x768B);
  (0x17E6,0x768E); (0x17E7,0x7696); (0x17E8,0x7693); (0x17E9,0x7699); (0x17EA,0x769A); (0x17EB,0x76B0); (0x17EC,0x76B4); (0x17ED,0x76B8);
  (0x17EE,0x76B9); (0x17EF,0x76BA); (0x17F0,0x76C2); (0x17F1,0x76CD); (0x17F2,0x76D6); (0x17F3,0x76D2); (0x17F4,0x76DE); (0x17F5,0x76E1);
  (0x17F6,0x76E5); (0x17F7,0x76E7); (0x17F8,0x76EA); (0x17F9,0x862F); (0x17FA,0x76FB); (0x17FB,0x7708); (0x17FC,0x7707); (0x17FD,0x7704);
  (0x17FE,0x7729); (0x17FF,0x7724); (0x1800,0x771E); (0x1801,0x7725); (0x1802,0x7726); (0x1803,0x771B); (0x1804,0x7737); (0x1805,0x7738);
  (0x1806,0x7747); (0x1807,0x775A); (0x1808,0x7768); (0x1809,0x776B); (0x180A,0x775B); (0x180B,0x7765); (0x180C,0x777F); (0x180D,0x777E);
  (0x180E,0x7779); (0x180F,0x778E); (0x1810,0x778B); (0x1811,0x7791); (0x1812,0x77A0); (0x1813,0x779E); (0x1814,0x77B0); (0x1815,0x77B6);
  (0x1816,0x77B9); (0x1817,0x77BF); (0x1818,0x77BC); (0x1819,0x77BD); (0x181A,0x77BB); (0x181B,0x77C7); (0x181C,0x77CD); (0x181D,0x77D7);
  (0x181E,0x77DA); (0x181F,0x77DC); (0x1820,0x77E3); (0x1821,0x77EE); (0x1822,0x77FC); (0x1823,0x780C); (0x1824,0x7812); (0x1825,0x7926);
  (0x1826,0x7820); (0x1827,0x792A); (0x1828,0x7845); (0x1829,0x788E); (0x182A,0x7874); (0x182B,0x7886); (0x182C,0x787C); (0x182D,0x789A);
  (0x182E,0x788C); (0x182F,0x78A3); (0x1830,0x78B5); (0x1831,0x78AA); (0x1832,0x78AF); (0x1833,0x78D1); (0x1834,0x78C6); (0x1835,0x78CB);
  (0x1836,0x78D4); (0x1837,0x78BE); (0x1838,0x78BC); (0x1839,0x78C5); (0x183A,0x78CA); (0x183B,0x78EC); (0x183C,0x78E7); (0x183D,0x78DA);
  (0x183E,0x78FD); (0x183F,0x78F4); (0x1840,0x7907); (0x1841,0x7912); (0x1842,0x7911); (0x1843,0x7919); (0x1844,0x792C); (0x1845,0x792B);
  (0x1846,0x7940); (0x1847,0x7960); (0x1848,0x7957); (0x1849,0x795F); (0x184A,0x795A); (0x184B,0x7955); (0x184C,0x7953); (0x184D,0x797A)
].
(* encoding_tables/whatwg/index-jis0208.txt (pointer, code point), entries 5376..5631 *)
Definition jis0208_index_21 : list (N * N) := [
  (0x184E,0x797F); (0x184F,0x798A); (0x1850,0x799D); (0x1851,0x79A7); (0x1852,0x9F4B); (0x1853,0x79AA); (0x1854,0x79AE); (0x1855,0x79B3);
  (0x1856,0x79B9); (0x1857,0x79BA); (0x1858,0x79C9); (0x1859,0x79D5); (0x185A,0x79E7); (0x185B,0x79EC); (0x185C,0x79E1); (0x185D,0x79E3);
  (0x185E,0x7A08); (0x185F,0x7A0D); (0x1860,0x7A18); (0x1861,0x7A19); (0x1862,0x7A20); (0x1863,0x7A1F); (0x1864,0x7980); (0x1865,0x7A31);
  (0x1866,0x7A3B); (0x1867,0x7A3E); (0x1868,0x7A37); (0x1869,0x7A43); (0x186A,0x7A57); (0x186B,0x7A49); (0x186C,0x7A61); (0x186D,0x7A62);
  (0x186E,0x7A69); (0x186F,0x9F9D); (0x1870,0x7A70); (0x1871,0x7A79); (0x1872,0x7A7D); (0x1873,0x7A88); (0x1874,0x7A97); (0x1875,0x7A95);
  (0x1876,0x7A98); (0x1877,0x7A96); (0x1878,0x7AA9); (0x1879,0x7AC8); (0x187A,0x7AB0); (0x187B,0x7AB6); (0x187C,0x7AC5); (0x187D,0x7AC4);
  (0x187E,0x7ABF); (0x187F,0x9083); (0x1880,0x7AC7); (0x1881,0x7ACA); (0x1882,0x7ACD); (0x1883,0x7ACF); (0x1884,0x7AD5); (0x1885,0x7AD3);
  (0x1886,0x7AD9); (0x1887,0x7ADA); (0x1888,0x7ADD); (0x1889,0x7AE1); (0x188A,0x7AE2); (0x188B,0x7AE6); (0x188C,0x7AED); (0x188D,0x7AF0);
  (0x188E,0x7B02); (0x188F,0x7B0F); (0x1890,0x7B0A); (0x1891,0x7B06); (0x1892,0x7B33); (0x1893,0x7B18); (0x1894,0x7B19); (0x1895,0x7B1E);
  (0x1896,0x7B35); (0x1897,0x7B28); (0x1898,0x7B36); (0x1899,0x7B50); (0x189A,0x7B7A); (0x189B,0x7B04); (0x189C,0x7B4D); (0x189D,0x7B0B);
  (0x189E,0x7B4C); (0x189F,0x7B45); (0x18A0,0x7B75); (0x18A1,0x7B65); (0x18A2,0x7B74); (0x18A3,0x7B67); (0x18A4,0x7B70); (0x18A5,0x7B71);
  (0x18A6,0x7B6C); (0x18A7,0x7B6E); (0x18A8,0x7B9D); (0x18A9,0x7B98); (0x18AA,0x7B9F); (0x18AB,0x7B8D); (0x18AC,0x7B9C); (0x18AD,0x7B9A);
  (0x18AE,0x7B8B); (0x18AF,0x7B92); (0x18B0,0x7B8F); (0x18B1,0x7B5D); (0x18B2,0x7B99); (0x18B3,0x7BCB); (0x18B4,0x7BC1); (0x18B5,0x7BCC);
  (0x18B6,0x7BCF); (0x18B7,0x7BB4); (0x18B8,0x7BC6); (0x18B9,0x7BDD); (0x18BA,0x7BE9); (0x18BB,0x7C11); (0x18BC,0x7C14); (0x18BD,0x7BE6);
  (0x18BE,0x7BE5); (0x18BF,0x7C60); (0x18C0,0x7C00); (0x18C1,0x7C07); (0x18C2,0x7C13); (0x18C3,0x7BF3); (0x18C4,0x7BF7); (0x18C5,0x7C17);
  (0x18C6,0x7C0D); (0x18C7,0x7BF6); (0x18C8,0x7C23); (0x18C9,0x7C27); (0x18CA,0x7C2A); (0x18CB,0x7C1F); (0x18CC,0x7C37); (0x18CD,0x7C2B);
  (0x18CE,0x7C3D); (0x18CF,0x7C4C); (0x18D0,0x7C43); (0x18D1,0x7C54); (0x18D2,0x7C4F); (0x18D3,0x7C40); (0x18D4,0x7C50); (0x18D5,0x7C58);
  (0x18D6,0x7C5F); (0x18D7,0x7C64); (0x18D8,0x7C56); (0x18D9,0x7C65); (0x18DA,0x7C6C); (0x18DB,0x7C75); (0x18DC,0x7C83); (0x18DD,0x7C90);
  (0x18DE,0x7CA4); (0x18DF,0x7CAD); (0x18E0,0x7CA2); (0x18E1,0x7CAB); (0x18E2,0x7CA1); (0x18E3,0x7CA8); (0x18E4,0x7CB3); (0x18E5,0x7CB2);
  (0x18E6,0x7CB1); (0x18E7,0x7CAE); (0x18E8,0x7CB9); (0x18E9,0x7CBD); (0x18EA,0x7CC0); (0x18EB,0x7CC5); (0x18EC,0x7CC2); (0x18ED,0x7CD8);
  (0x18EE,0x7CD2); (0x18EF,0x7CDC); (0x18F0,0x7CE2); (0x18F1,0x9B3B); (0x18F2,0x7CEF); (0x18F3,0x7CF2); (0x18F4,0x7CF4); (0x18F5,0x7CF6);
  (0x18F6,0x7CFA); (0x18F7,0x7D06); (0x18F8,0x7D02); (0x18F9,0x7D1C); (0x18FA,0x7D15); (0x18FB,0x7D0A); (0x18FC,0x7D45); (0x18FD,0x7D4B);
  (0x18FE,0x7D2E); (0x18FF,0x7D32); (0x1900,0x7D3F); (0x1901,0x7D35); (0x1902,0x7D46); (0x1903,0x7D73); (0x1904,0x7D56); (0x1905,0x7D4E);
  (0x1906,0x7D72); (0x1907,0x7D68); (0x1908,0x7D6E); (0x1909,0x7D4F); (0x190A,0x7D63); (0x190B,0x7D93); (0x190C,0x7D89); (0x190D,0x7D5B);
  (0x190E,0x7D8F); (0x190F,0x7D7D); (0x1910,0x7D9B); (0x1911,0x7DBA); (0x1912,0x7DAE); (0x1913,0x7DA3); (0x1914,0x7DB5); (0x1915,0x7DC7);
  (0x1916,0x7DBD); (0x1917,0x7DAB); (0x1918,0x7E3D); (0x1919,0x7DA2); (0x191A,0x7DAF); (0x191B,0x7DDC); (0x191C,0x7DB8); (0x191D,0x7D9F);
  (0x191E,0x7DB0); (0x191F,0x7DD8); (0x1920,0x7DDD); (0x1921,0x7DE4); (0x1922,0x7DDE); (0x1923,0x7DFB); (0x1924,0x7DF2); (0x1925,0x7DE1);
  (0x1926,0x7E05); (0x1927,0x7E0A); (0x1928,0x7E23); (0x1929,0x7E21); (0x192A,0x7E12); (0x192B,0x7E31); (0x192C,0x7E1F); (0x192D,0x7E09);
  (0x192E,0x7E0B); (0x192F,0x7E22); (0x1930,0x7E46); (0x1931,0x7E66); (0x1932,0x7E3B); (0x1933,0x7E35); (0x1934,0x7E39); (0x1935,0x7E43);
  (0x1936,0x7E37); (0x1937,0x7E32); (0x1938,0x7E3A); (0x1939,0x7E67); (0x193A,0x7E5D); (0x193B,0x7E56); (0x193C,0x7E5E); (0x193D,0x7E59);
  (0x193E,0x7E5A); (0x193F,0x7E79); (0x1940,0x7E6A); (0x1941,0x7E69); (0x1942,0x7E7C); (0x1943,0x7E7B); (0x1944,0x7E83); (0x1945,0x7DD5);
  (0x1946,0x7E7D); (0x1947,0x8FAE); (0x1948,0x7E7F); (0x1949,0x7E88); (0x194A,0x7E89); (0x194B,0x7E8C); (0x194C,0x7E92); (0x194D,0x7E90)
].
(* encoding_tables/whatwg/index-jis0208.txt (pointer, code point), entries 5632..5887 *)
Definition jis0208_index_22 : list (N * N) := [
  (0x194E,0x7E93); (0x194F,0x7E94); (0x1950,0x7E96); (0x1951,0x7E8E); (0x1952,0x7E9B); (0x1953,0x7E9C); (0x1954,0x7F38); (0x1955,0x7F3A);
  (0x1956,0x7F45); (0x1957,0x7F4C); (0x1958,0x7F4D); (0x1959,0x7F4E); (0x195A,0x7F50); (0x195B,0x7F51); (0x195C,0x7F55); (0x195D,0x7F54);
  (0x195E,0x7F58); (0x195F,0x7F5F); (0x1960,0x7F60); (0x1961,0x7F68); (0x1962,0x7F69); (0x1963,0x7F67); (0x1964,0x7F78); (0x1965,0x7F82);
  (0x1966,0x7F86); (0x1967,0x7F83); (0x1968,0x7F88); (0x1969,0x7F87); (0x196A,0x7F8C); (0x196B,0x7F94); (0x196C,0x7F9E); (0x196D,0x7F9D);
  (0x196E,0x7F9A); (0x196F,0x7FA3); (0x1970,0x7FAF); (0x1971,0x7FB2); (0x1972,0x7FB9); (0x1973,0x7FAE); (0x1974,0x7FB6); (0x1975,0x7FB8);
  (0x1976,0x8B71); (0x1977,0x7FC5); (0x1978,0x7FC6); (0x1979,0x7FCA); (0x197A,0x7FD5); (0x197B,0x7FD4); (0x197C,0x7FE1); (0x197D,0x7FE6);
  (0x197E,0x7FE9); (0x197F,0x7FF3); (0x1980,0x7FF9); (0x1981,0x98DC); (0x1982,0x8006); (0x1983,0x8004); (0x1984,0x800B); (0x1985,0x8012);
  (0x1986,0x8018); (0x1987,0x8019); (0x1988,0x801C); (0x1989,0x8021); (0x198A,0x8028); (0x198B,0x803F); (0x198C,0x803B); (0x198D,0x804A);
  (0x198E,0x8046); (0x198F,0x8052); (0x1990,0x8058); (0x1991,0x805A); (0x1992,0x805F); (0x1993,0x8062); (0x1994,0x8068); (0x1995,0x8073);
  (0x1996,0x8072); (0x1997,0x8070); (0x1998,0x8076); (0x1999,0x8079); (0x199A,0x807D); (0x199B,0x807F); (0x199C,0x8084); (0x199D,0x8086);
  (0x199E,0x8085); (0x199F,0x809B); (0x19A0,0x8093); (0x19A1,0x809A); (0x19A2,0x80AD); (0x19A3,0x5190); (0x19A4,0x80AC); (0x19A5,0x80DB);
  (0x19A6,0x80E5); (0x19A7,0x80D9); (0x19A8,0x80DD); (0x19A9,0x80C4); (0x19AA,0x80DA); (0x19AB,0x80D6); (0x19AC,0x8109); (0x19AD,0x80EF);
  (0x19AE,0x80F1); (0x19AF,0x811B); (0x19B0,0x8129); (0x19B1,0x8123); (0x19B2,0x812F); (0x19B3,0x814B); (0x19B4,0x968B); (0x19B5,0x8146);
  (0x19B6,0x813E); (0x19B7,0x8153); (0x19B8,0x8151); (0x19B9,0x80FC); (0x19BA,0x8171); (0x19BB,0x816E); (0x19BC,0x8165); (0x19BD,0x8166);
  (0x19BE,0x8174); (0x19BF,0x8183); (0x19C0,0x8188); (0x19C1,0x818A); (0x19C2,0x8180); (0x19C3,0x8182); (0x19C4,0x81A0); (0x19C5,0x8195);
  (0x19C6,0x81A4); (0x19C7,0x81A3); (0x19C8,0x815F); (0x19C9,0x8193); (0x19CA,0x81A9); (0x19CB,0x81B0); (0x19CC,0x81B5); (0x19CD,0x81BE);
  (0x19CE,0x81B8); (0x19CF,0x81BD); (0x19D0,0x81C0); (0x19D1,0x81C2); (0x19D2,0x81BA); (0x19D3,0x81C9); (0x19D4,0x81CD); (0x19D5,0x81D1);
  (0x19D6,0x81D9); (0x19D7,0x81D8); (0x19D8,0x81C8); (0x19D9,0x81DA); (0x19DA,0x81DF); (0x19DB,0x81E0); (0x19DC,0x81E7); (0x19DD,0x81FA);
  (0x19DE,0x81FB); (0x19DF,0x81FE); (0x19E0,0x8201); (0x19E1,0x8202); (0x19E2,0x8205); (0x19E3,0x8207); (0x19E4,0x820A); (0x19E5,0x820D);
  (0x19E6,0x8210); (0x19E7,0x8216); (0x19E8,0x8229); (0x19E9,0x822B); (0x19EA,0x8238); (0x19EB,0x8233); (0x19EC,0x8240); (0x19ED,0x8259);
  (0x19EE,0x8258); (0x19EF,0x825D); (0x19F0,0x825A); (0x19F1,0x825F); (0x19F2,0x8264); (0x19F3,0x8262); (0x19F4,0x8268); (0x19F5,0x826A);
  (0x19F6,0x826B); (0x19F7,0x822E); (0x19F8,0x8271); (0x19F9,0x8277); (0x19FA,0x8278); (0x19FB,0x827E); (0x19FC,0x828D); (0x19FD,0x8292);
  (0x19FE,0x82AB); (0x19FF,0x829F); (0x1A00,0x82BB); (0x1A01,0x82AC); (0x1A02,0x82E1); (0x1A03,0x82E3); (0x1A04,0x82DF); (0x1A05,0x82D2);
  (0x1A06,0x82F4); (0x1A07,0x82F3); (0x1A08,0x82FA); (0x1A09,0x8393); (0x1A0A,0x8303); (0x1A0B,0x82FB); (0x1A0C,0x82F9); (0x1A0D,0x82DE);
  (0x1A0E,0x8306); (0x1A0F,0x82DC); (0x1A10,0x8309); (0x1A11,0x82D9); (0x1A12,0x8335); (0x1A13,0x8334); (0x1A14,0x8316); (0x1A15,0x8332);
  (0x1A16,0x8331); (0x1A17,0x8340); (0x1A18,0x8339); (0x1A19,0x8350); (0x1A1A,0x8345); (0x1A1B,0x832F); (0x1A1C,0x832B); (0x1A1D,0x8317);
  (0x1A1E,0x8318); (0x1A1F,0x8385); (0x1A20,0x839A); (0x1A21,0x83AA); (0x1A22,0x839F); (0x1A23,0x83A2); (0x1A24,0x8396); (0x1A25,0x8323);
  (0x1A26,0x838E); (0x1A27,0x8387); (0x1A28,0x838A); (0x1A29,0x837C); (0x1A2A,0x83B5); (0x1A2B,0x8373); (0x1A2C,0x8375); (0x1A2D,0x83A0);
  (0x1A2E,0x8389); (0x1A2F,0x83A8); (0x1A30,0x83F4); (0x1A31,0x8413); (0x1A32,0x83EB); (0x1A33,0x83CE); (0x1A34,0x83FD); (0x1A35,0x8403);
  (0x1A36,0x83D8); (0x1A37,0x840B); (0x1A38,0x83C1); (0x1A39,0x83F7); (0x1A3A,0x8407); (0x1A3B,0x83E0); (0x1A3C,0x83F2); (0x1A3D,0x840D);
  (0x1A3E,0x8422); (0x1A3F,0x8420); (0x1A40,0x83BD); (0x1A41,0x8438); (0x1A42,0x8506); (0x1A43,0x83FB); (0x1A44,0x846D); (0x1A45,0x842A);
  (0x1A46,0x843C); (0x1A47,0x855A); (0x1A48,0x8484); (0x1A49,0x8477); (0x1A4A,0x846B); (0x1A4B,0x84AD); (0x1A4C,0x846E); (0x1A4D,0x8482)
].
(* encoding_tables/whatwg/index-jis0208.txt (pointer, code point), entries 5888..6143 *)
Definition jis0208_index_23 : list (N * N) := [
  (0x1A4E,0x8469); (0x1A4F,0x8446); (0x1A50,0x842C); (0x1A51,0x846F); (0x1A52,0x8479); (0x1A53,0x8435); (0x1A54,0x84CA); (0x1A55,0x8462);
  (0x1A56,0x84B9); (0x1A57,0x84BF); (0x1A58,0x849F); (0x1A59,0x84D9); (0x1A5A,0x84CD); (0x1A5B,0x84BB); (0x1A5C,0x84DA); (0x1A5D,0x84D0);
  (0x1A5E,0x84C1); (0x1A5F,0x84C6); (0x1A60,0x84D6); (0x1A61,0x84A1); (0x1A62,0x8521); (0x1A63,0x84FF); (0x1A64,0x84F4); (0x1A65,0x8517);
  (0x1A66,0x8518); (0x1A67,0x852C); (0x1A68,0x851F); (0x1A69,0x8515); (0x1A6A,0x8514); (0x1A6B,0x84FC); (0x1A6C,0x8540); (0x1A6D,0x8563);
  (0x1A6E,0x8558); (0x1A6F,0x8548); (0x1A70,0x8541); (0x1A71,0x8602); (0x1A72,0x854B); (0x1A73,0x8555); (0x1A74,0x8580); (0x1A75,0x85A4);
  (0x1A76,0x8588); (0x1A77,0x8591); (0x1A78,0x858A); (0x1A79,0x85A8); (0x1A7A,0x856D); (0x1A7B,0x8594); (0x1A7C,0x859B); (0x1A7D,0x85EA);
  (0x1A7E,0x8587); (0x1A7F,0x859C); (0x1A80,0x8577); (0x1A81,0x857E); (0x1A82,0x8590); (0x1A83,0x85C9); (0x1A84,0x85BA); (0x1A85,0x85CF);
  (0x1A86,0x85B9); (0x1A87,0x85D0); (0x1A88,0x85D5); (0x1A89,0x85DD); (0x1A8A,0x85E5); (0x1A8B,0x85DC); (0x1A8C,0x85F9); (0x1A8D,0x860A);
  (0x1A8E,0x8613); (0x1A8F,0x860B); (0x1A90,0x85FE); (0x1A91,0x85FA); (0x1A92,0x8606); (0x1A93,0x8622); (0x1A94,0x861A); (0x1A95,0x8630);
  (0x1A96,0x863F); (0x1A97,0x864D); (0x1A98,0x4E55); (0x1A99,0x8654); (0x1A9A,0x865F); (0x1A9B,0x8667); (0x1A9C,0x8671); (0x1A9D,0x8693);
  (0x1A9E,0x86A3); (0x1A9F,0x86A9); (0x1AA0,0x86AA); (0x1AA1,0x868B); (0x1AA2,0x868C); (0x1AA3,0x86B6); (0x1AA4,0x86AF); (0x1AA5,0x86C4);
  (0x1AA6,0x86C6); (0x1AA7,0x86B0); (0x1AA8,0x86C9); (0x1AA9,0x8823); (0x1AAA,0x86AB); (0x1AAB,0x86D4); (0x1AAC,0x86DE); (0x1AAD,0x86E9);
  (0x1AAE,0x86EC); (0x1AAF,0x86DF); (0x1AB0,0x86DB); (0x1AB1,0x86EF); (0x1AB2,0x8712); (0x1AB3,0x8706); (0x1AB4,0x8708); (0x1AB5,0x8700);
  (0x1AB6,0x8703); (0x1AB7,0x86FB); (0x1AB8,0x8711); (0x1AB9,0x8709); (0x1ABA,0x870D); (0x1ABB,0x86F9); (0x1ABC,0x870A); (0x1ABD,0x8734);
  (0x1ABE,0x873F); (0x1ABF,0x8737); (0x1AC0,0x873B); (0x1AC1,0x8725); (0x1AC2,0x8729); (0x1AC3,0x871A); (0x1AC4,0x8760); (0x1AC5,0x875F);
  (0x1AC6,0x8778); (0x1AC7,0x874C); (0x1AC8,0x874E); (0x1AC9,0x8774); (0x1ACA,0x8757); (0x1ACB,0x8768); (0x1ACC,0x876E); (0x1ACD,0x8759);
  (0x1ACE,0x8753); (0x1ACF,0x8763); (0x1AD0,0x876A); (0x1AD1,0x8805); (0x1AD2,0x87A2); (0x1AD3,0x879F); (0x1AD4,0x8782); (0x1AD5,0x87AF);
  (0x1AD6,0x87CB); (0x1AD7,0x87BD); (0x1AD8,0x87C0); (0x1AD9,0x87D0); (0x1ADA,0x96D6); (0x1ADB,0x87AB); (0x1ADC,0x87C4); (0x1ADD,0x87B3);
  (0x1ADE,0x87C7); (0x1ADF,0x87C6); (0x1AE0,0x87BB); (0x1AE1,0x87EF); (0x1AE2,0x87F2); (0x1AE3,0x87E0); (0x1AE4,0x880F); (0x1AE5,0x880D);
  (0x1AE6,0x87FE); (0x1AE7,0x87F6); (0x1AE8,0x87F7); (0x1AE9,0x880E); (0x1AEA,0x87D2); (0x1AEB,0x8811); (0x1AEC,0x8816); (0x1AED,0x8815);
  (0x1AEE,0x8822); (0x1AEF,0x8821); (0x1AF0,0x8831); (0x1AF1,0x8836); (0x1AF2,0x8839); (0x1AF3,0x8827); (0x1AF4,0x883B); (0x1AF5,0x8844);
  (0x1AF6,0x8842); (0x1AF7,0x8852); (0x1AF8,0x8859); (0x1AF9,0x885E); (0x1AFA,0x8862); (0x1AFB,0x886B); (0x1AFC,0x8881); (0x1AFD,0x887E);
  (0x1AFE,0x889E); (0x1AFF,0x8875); (0x1B00,0x887D); (0x1B01,0x88B5); (0x1B02,0x8872); (0x1B03,0x8882); (0x1B04,0x8897); (0x1B05,0x8892);
  (0x1B06,0x88AE); (0x1B07,0x8899); (0x1B08,0x88A2); (0x1B09,0x888D); (0x1B0A,0x88A4); (0x1B0B,0x88B0); (0x1B0C,0x88BF); (0x1B0D,0x88B1);
  (0x1B0E,0x88C3); (0x1B0F,0x88C4); (0x1B10,0x88D4); (0x1B11,0x88D8); (0x1B12,0x88D9); (0x1B13,0x88DD); (0x1B14,0x88F9); (0x1B15,0x8902);
  (0x1B16,0x88FC); (0x1B17,0x88F4); (0x1B18,0x88E8); (0x1B19,0x88F2); (0x1B1A,0x8904); (0x1B1B,0x890C); (0x1B1C,0x890A); (0x1B1D,0x8913);
  (0x1B1E,0x8943); (0x1B1F,0x891E); (0x1B20,0x8925); (0x1B21,0x892A); (0x1B22,0x892B); (0x1B23,0x8941); (0x1B24,0x8944); (0x1B25,0x893B);
  (0x1B26,0x8936); (0x1B27,0x8938); (0x1B28,0x894C); (0x1B29,0x891D); (0x1B2A,0x8960); (0x1B2B,0x895E); (0x1B2C,0x8966); (0x1B2D,0x8964);
  (0x1B2E,0x896D); (0x1B2F,0x896A); (0x1B30,0x896F); (0x1B31,0x8974); (0x1B32,0x8977); (0x1B33,0x897E); (0x1B34,0x8983); (0x1B35,0x8988);
  (0x1B36,0x898A); (0x1B37,0x8993); (0x1B38,0x8998); (0x1B39,0x89A1); (0x1B3A,0x89A9); (0x1B3B,0x89A6); (0x1B3C,0x89AC); (0x1B3D,0x89AF);
  (0x1B3E,0x89B2); (0x1B3F,0x89BA); (0x1B40,0x89BD); (0x1B41,0x89BF); (0x1B42,0x89C0); (0x1B43,0x89DA); (0x1B44,0x89DC); (0x1B45,0x89DD);
  (0x1B46,0x89E7); (0x1B47,0x89F4); (0x1B48,0x89F8); (0x1B49,0x8A03); (0x1B4A,0x8A16); (0x1B4B,0x8A10); (0x1B4C,0x8A0C); (0x1B4D,0x8A1B)
].
(* encoding_tables/whatwg/index-jis0208.txt (pointer, code point), entries 6144..6399 *)
Definition jis0208_index_24 : list (N * N) := [
  (0x1B4E,0x8A1D); (0x1B4F,0x8A25); (0x1B50,0x8A36); (0x1B51,0x8A41); (0x1B52,0x8A5B); (0x1B53,0x8A52); (0x1B54,0x8A46); (0x1B55,0x8A48);
  (0x1B56,0x8A7C); (0x1B57,0x8A6D); (0x1B58,0x8A6C); (0x1B59,0x8A62); (0x1B5A,0x8A85); (0x1B5B,0x8A82); (0x1B5C,0x8A84); (0x1B5D,0x8AA8);
  (0x1B5E,0x8AA1); (0x1B5F,0x8A91); (0x1B60,0x8AA5); (0x1B61,0x8AA6); (0x1B62,0x8A9A); (0x1B63,0x8AA3); (0x1B64,0x8AC4); (0x1B65,0x8ACD);
  (0x1B66,0x8AC2); (0x1B67,0x8ADA); (0x1B68,0x8AEB); (0x1B69,0x8AF3); (0x1B6A,0x8AE7); (0x1B6B,0x8AE4); (0x1B6C,0x8AF1); (0x1B6D,0x8B14);
  (0x1B6E,0x8AE0); (0x1B6F,0x8AE2); (0x1B70,0x8AF7); (0x1B71,0x8ADE); (0x1B72,0x8ADB); (0x1B73,0x8B0C); (0x1B74,0x8B07); (0x1B75,0x8B1A);
  (0x1B76,0x8AE1); (0x1B77,0x8B16); (0x1B78,0x8B10); (0x1B79,0x8B17); (0x1B7A,0x8B20); (0x1B7B,0x8B33); (0x1B7C,0x97AB); (0x1B7D,0x8B26);
  (0x1B7E,0x8B2B); (0x1B7F,0x8B3E); (0x1B80,0x8B28); (0x1B81,0x8B41); (0x1B82,0x8B4C); (0x1B83,0x8B4F); (0x1B84,0x8B4E); (0x1B85,0x8B49);
  (0x1B86,0x8B56); (0x1B87,0x8B5B); (0x1B88,0x8B5A); (0x1B89,0x8B6B); (0x1B8A,0x8B5F); (0x1B8B,0x8B6C); (0x1B8C,0x8B6F); (0x1B8D,0x8B74);
  (0x1B8E,0x8B7D); (0x1B8F,0x8B80); (0x1B90,0x8B8C); (0x1B91,0x8B8E); (0x1B92,0x8B92); (0x1B93,0x8B93); (0x1B94,0x8B96); (0x1B95,0x8B99);
  (0x1B96,0x8B9A); (0x1B97,0x8C3A); (0x1B98,0x8C41); (0x1B99,0x8C3F); (0x1B9A,0x8C48); (0x1B9B,0x8C4C); (0x1B9C,0x8C4E); (0x1B9D,0x8C50);
  (0x1B9E,0x8C55); (0x1B9F,0x8C62); (0x1BA0,0x8C6C); (0x1BA1,0x8C78); (0x1BA2,0x8C7A); (0x1BA3,0x8C82); (0x1BA4,0x8C89); (0x1BA5,0x8C85);
  (0x1BA6,0x8C8A); (0x1BA7,0x8C8D); (0x1BA8,0x8C8E); (0x1BA9,0x8C94); (0x1BAA,0x8C7C); (0x1BAB,0x8C98); (0x1BAC,0x621D); (0x1BAD,0x8CAD);
  (0x1BAE,0x8CAA); (0x1BAF,0x8CBD); (0x1BB0,0x8CB2); (0x1BB1,0x8CB3); (0x1BB2,0x8CAE); (0x1BB3,0x8CB6); (0x1BB4,0x8CC8); (0x1BB5,0x8CC1);
  (0x1BB6,0x8CE4); (0x1BB7,0x8CE3); (0x1BB8,0x8CDA); (0x1BB9,0x8CFD); (0x1BBA,0x8CFA); (0x1BBB,0x8CFB); (0x1BBC,0x8D04); (0x1BBD,0x8D05);
  (0x1BBE,0x8D0A); (0x1BBF,0x8D07); (0x1BC0,0x8D0F); (0x1BC1,0x8D0D); (0x1BC2,0x8D10); (0x1BC3,0x9F4E); (0x1BC4,0x8D13); (0x1BC5,0x8CCD);
  (0x1BC6,0x8D14); (0x1BC7,0x8D16); (0x1BC8,0x8D67); (0x1BC9,0x8D6D); (0x1BCA,0x8D71); (0x1BCB,0x8D73); (0x1BCC,0x8D81); (0x1BCD,0x8D99);
  (0x1BCE,0x8DC2); (0x1BCF,0x8DBE); (0x1BD0,0x8DBA); (0x1BD1,0x8DCF); (0x1BD2,0x8DDA); (0x1BD3,0x8DD6); (0x1BD4,0x8DCC); (0x1BD5,0x8DDB);
  (0x1BD6,0x8DCB); (0x1BD7,0x8DEA); (0x1BD8,0x8DEB); (0x1BD9,0x8DDF); (0x1BDA,0x8DE3); (0x1BDB,0x8DFC); (0x1BDC,0x8E08); (0x1BDD,0x8E09);
  (0x1BDE,0x8DFF); (0x1BDF,0x8E1D); (0x1BE0,0x8E1E); (0x1BE1,0x8E10); (0x1BE2,0x8E1F); (0x1BE3,0x8E42); (0x1BE4,0x8E35); (0x1BE5,0x8E30);
  (0x1BE6,0x8E34); (0x1BE7,0x8E4A); (0x1BE8,0x8E47); (0x1BE9,0x8E49); (0x1BEA,0x8E4C); (0x1BEB,0x8E50); (0x1BEC,0x8E48); (0x1BED,0x8E59);
  (0x1BEE,0x8E64); (0x1BEF,0x8E60); (0x1BF0,0x8E2A); (0x1BF1,0x8E63); (0x1BF2,0x8E55); (0x1BF3,0x8E76); (0x1BF4,0x8E72); (0x1BF5,0x8E7C);
  (0x1BF6,0x8E81); (0x1BF7,0x8E87); (0x1BF8,0x8E85); (0x1BF9,0x8E84); (0x1BFA,0x8E8B); (0x1BFB,0x8E8A); (0x1BFC,0x8E93); (0x1BFD,0x8E91);
  (0x1BFE,0x8E94); (0x1BFF,0x8E99); (0x1C00,0x8EAA); (0x1C01,0x8EA1); (0x1C02,0x8EAC); (0x1C03,0x8EB0); (0x1C04,0x8EC6); (0x1C05,0x8EB1);
  (0x1C06,0x8EBE); (0x1C07,0x8EC5); (0x1C08,0x8EC8); (0x1C09,0x8ECB); (0x1C0A,0x8EDB); (0x1C0B,0x8EE3); (0x1C0C,0x8EFC); (0x1C0D,0x8EFB);
  (0x1C0E,0x8EEB); (0x1C0F,0x8EFE); (0x1C10,0x8F0A); (0x1C11,0x8F05); (0x1C12,0x8F15); (0x1C13,0x8F12); (0x1C14,0x8F19); (0x1C15,0x8F13);
  (0x1C16,0x8F1C); (0x1C17,0x8F1F); (0x1C18,0x8F1B); (0x1C19,0x8F0C); (0x1C1A,0x8F26); (0x1C1B,0x8F33); (0x1C1C,0x8F3B); (0x1C1D,0x8F39);
  (0x1C1E,0x8F45); (0x1C1F,0x8F42); (0x1C20,0x8F3E); (0x1C21,0x8F4C); (0x1C22,0x8F49); (0x1C23,0x8F46); (0x1C24,0x8F4E); (0x1C25,0x8F57);
  (0x1C26,0x8F5C); (0x1C27,0x8F62); (0x1C28,0x8F63); (0x1C29,0x8F64); (0x1C2A,0x8F9C); (0x1C2B,0x8F9F); (0x1C2C,0x8FA3); (0x1C2D,0x8FAD);
  (0x1C2E,0x8FAF); (0x1C2F,0x8FB7); (0x1C30,0x8FDA); (0x1C31,0x8FE5); (0x1C32,0x8FE2); (0x1C33,0x8FEA); (0x1C34,0x8FEF); (0x1C35,0x9087);
  (0x1C36,0x8FF4); (0x1C37,0x9005); (0x1C38,0x8FF9); (0x1C39,0x8FFA); (0x1C3A,0x9011); (0x1C3B,0x9015); (0x1C3C,0x9021); (0x1C3D,0x900D);
  (0x1C3E,0x901E); (0x1C3F,0x9016); (0x1C40,0x900B); (0x1C41,0x9027); (0x1C42,0x9036); (0x1C43,0x9035); (0x1C44,0x9039); (0x1C45,0x8FF8);
  (0x1C46,0x904F); (0x1C47,0x9050); (0x1C48,0x9051); (0x1C49,0x9052); (0x1C4A,0x900E); (0x1C4B,0x9049); (0x1C4C,0x903E); (0x1C4D,0x9056)
].
(* encoding_tables/whatwg/index-jis0208.txt (pointer, code point), entries 6400..6655 *)
Definition jis0208_index_25 : list (N * N) := [
  (0x1C4E,0x9058); (0x1C4F,0x905E); (0x1C50,0x9068); (0x1C51,0x906F); (0x1C52,0x9076); (0x1C53,0x96A8); (0x1C54,0x9072); (0x1C55,0x9082);
  (0x1C56,0x907D); (0x1C57,0x9081); (0x1C58,0x9080); (0x1C59,0x908A); (0x1C5A,0x9089); (0x1C5B,0x908F); (0x1C5C,0x90A8); (0x1C5D,0x90AF);
  (0x1C5E,0x90B1); (0x1C5F,0x90B5); (0x1C60,0x90E2); (0x1C61,0x90E4); (0x1C62,0x6248); (0x1C63,0x90DB); (0x1C64,0x9102); (0x1C65,0x9112);
  (0x1C66,0x9119); (0x1C67,0x9132); (0x1C68,0x9130); (0x1C69,0x914A); (0x1C6A,0x9156); (0x1C6B,0x9158); (0x1C6C,0x9163); (0x1C6D,0x9165);
  (0x1C6E,0x9169); (0x1C6F,0x9173); (0x1C70,0x9172); (0x1C71,0x918B); (0x1C72,0x9189); (0x1C73,0x9182); (0x1C74,0x91A2); (0x1C75,0x91AB);
  (0x1C76,0x91AF); (0x1C77,0x91AA); (0x1C78,0x91B5); (0x1C79,0x91B4); (0x1C7A,0x91BA); (0x1C7B,0x91C0); (0x1C7C,0x91C1); (0x1C7D,0x91C9);
  (0x1C7E,0x91CB); (0x1C7F,0x91D0); (0x1C80,0x91D6); (0x1C81,0x91DF); (0x1C82,0x91E1); (0x1C83,0x91DB); (0x1C84,0x91FC); (0x1C85,0x91F5);
  (0x1C86,0x91F6); (0x1C87,0x921E); (0x1C88,0x91FF); (0x1C89,0x9214); (0x1C8A,0x922C); (0x1C8B,0x9215); (0x1C8C,0x9211); (0x1C8D,0x925E);
  (0x1C8E,0x9257); (0x1C8F,0x9245); (0x1C90,0x9249); (0x1C91,0x9264); (0x1C92,0x9248); (0x1C93,0x9295); (0x1C94,0x923F); (0x1C95,0x924B);
  (0x1C96,0x9250); (0x1C97,0x929C); (0x1C98,0x9296); (0x1C99,0x9293); (0x1C9A,0x929B); (0x1C9B,0x925A); (0x1C9C,0x92CF); (0x1C9D,0x92B9);
  (0x1C9E,0x92B7); (0x1C9F,0x92E9); (0x1CA0,0x930F); (0x1CA1,0x92FA); (0x1CA2,0x9344); (0x1CA3,0x932E); (0x1CA4,0x9319); (0x1CA5,0x9322);
  (0x1CA6,0x931A); (0x1CA7,0x9323); (0x1CA8,0x933A); (0x1CA9,0x9335); (0x1CAA,0x933B); (0x1CAB,0x935C); (0x1CAC,0x9360); (0x1CAD,0x937C);
  (0x1CAE,0x936E); (0x1CAF,0x9356); (0x1CB0,0x93B0); (0x1CB1,0x93AC); (0x1CB2,0x93AD); (0x1CB3,0x9394); (0x1CB4,0x93B9); (0x1CB5,0x93D6);
  (0x1CB6,0x93D7); (0x1CB7,0x93E8); (0x1CB8,0x93E5); (0x1CB9,0x93D8); (0x1CBA,0x93C3); (0x1CBB,0x93DD); (0x1CBC,0x93D0); (0x1CBD,0x93C8);
  (0x1CBE,0x93E4); (0x1CBF,0x941A); (0x1CC0,0x9414); (0x1CC1,0x9413); (0x1CC2,0x9403); (0x1CC3,0x9407); (0x1CC4,0x9410); (0x1CC5,0x9436);
  (0x1CC6,0x942B); (0x1CC7,0x9435); (0x1CC8,0x9421); (0x1CC9,0x943A); (0x1CCA,0x9441); (0x1CCB,0x9452); (0x1CCC,0x9444); (0x1CCD,0x945B);
  (0x1CCE,0x9460); (0x1CCF,0x9462); (0x1CD0,0x945E); (0x1CD1,0x946A); (0x1CD2,0x9229); (0x1CD3,0x9470); (0x1CD4,0x9475); (0x1CD5,0x9477);
  (0x1CD6,0x947D); (0x1CD7,0x945A); (0x1CD8,0x947C); (0x1CD9,0x947E); (0x1CDA,0x9481); (0x1CDB,0x947F); (0x1CDC,0x9582); (0x1CDD,0x9587);
  (0x1CDE,0x958A); (0x1CDF,0x9594); (0x1CE0,0x9596); (0x1CE1,0x9598); (0x1CE2,0x9599); (0x1CE3,0x95A0); (0x1CE4,0x95A8); (0x1CE5,0x95A7);
  (0x1CE6,0x95AD); (0x1CE7,0x95BC); (0x1CE8,0x95BB); (0x1CE9,0x95B9); (0x1CEA,0x95BE); (0x1CEB,0x95CA); (0x1CEC,0x6FF6); (0x1CED,0x95C3);
  (0x1CEE,0x95CD); (0x1CEF,0x95CC); (0x1CF0,0x95D5); (0x1CF1,0x95D4); (0x1CF2,0x95D6); (0x1CF3,0x95DC); (0x1CF4,0x95E1); (0x1CF5,0x95E5);
  (0x1CF6,0x95E2); (0x1CF7,0x9621); (0x1CF8,0x9628); (0x1CF9,0x962E); (0x1CFA,0x962F); (0x1CFB,0x9642); (0x1CFC,0x964C); (0x1CFD,0x964F);
  (0x1CFE,0x964B); (0x1CFF,0x9677); (0x1D00,0x965C); (0x1D01,0x965E); (0x1D02,0x965D); (0x1D03,0x965F); (0x1D04,0x9666); (0x1D05,0x9672);
  (0x1D06,0x966C); (0x1D07,0x968D); (0x1D08,0x9698); (0x1D09,0x9695); (0x1D0A,0x9697); (0x1D0B,0x96AA); (0x1D0C,0x96A7); (0x1D0D,0x96B1);
  (0x1D0E,0x96B2); (0x1D0F,0x96B0); (0x1D10,0x96B4); (0x1D11,0x96B6); (0x1D12,0x96B8); (0x1D13,0x96B9); (0x1D14,0x96CE); (0x1D15,0x96CB);
  (0x1D16,0x96C9); (0x1D17,0x96CD); (0x1D18,0x894D); (0x1D19,0x96DC); (0x1D1A,0x970D); (0x1D1B,0x96D5); (0x1D1C,0x96F9); (0x1D1D,0x9704);
  (0x1D1E,0x9706); (0x1D1F,0x9708); (0x1D20,0x9713); (0x1D21,0x970E); (0x1D22,0x9711); (0x1D23,0x970F); (0x1D24,0x9716); (0x1D25,0x9719);
  (0x1D26,0x9724); (0x1D27,0x972A); (0x1D28,0x9730); (0x1D29,0x9739); (0x1D2A,0x973D); (0x1D2B,0x973E); (0x1D2C,0x9744); (0x1D2D,0x9746);
  (0x1D2E,0x9748); (0x1D2F,0x9742); (0x1D30,0x9749); (0x1D31,0x975C); (0x1D32,0x9760); (0x1D33,0x9764); (0x1D34,0x9766); (0x1D35,0x9768);
  (0x1D36,0x52D2); (0x1D37,0x976B); (0x1D38,0x9771); (0x1D39,0x9779); (0x1D3A,0x9785); (0x1D3B,0x977C); (0x1D3C,0x9781); (0x1D3D,0x977A);
  (0x1D3E,0x9786); (0x1D3F,0x978B); (0x1D40,0x978F); (0x1D41,0x9790); (0x1D42,0x979C); (0x1D43,0x97A8); (0x1D44,0x97A6); (0x1D45,0x97A3);
  (0x1D46,0x97B3); (0x1D47,0x97B4); (0x1D48,0x97C3); (0x1D49,0x97C6); (0x1D4A,0x97C8); (0x1D4B,0x97CB); (0x1D4C,0x97DC); (0x1D4D,0x97ED)
].
(* encoding_tables/whatwg/index-jis0208.txt (pointer, code point), entries 6656..6911 *)
Definition jis0208_index_26 : list (N * N) := [
  (0x1D4E,0x9F4F); (0x1D4F,0x97F2); (0x1D50,0x7ADF); (0x1D51,0x97F6); (0x1D52,0x97F5); (0x1D53,0x980F); (0x1D54,0x980C); (0x1D55,0x9838);
  (0x1D56,0x9824); (0x1D57,0x9821); (0x1D58,0x9837); (0x1D59,0x983D); (0x1D5A,0x9846); (0x1D5B,0x984F); (0x1D5C,0x984B); (0x1D5D,0x986B);
  (0x1D5E,0x986F); (0x1D5F,0x9870); (0x1D60,0x9871); (0x1D61,0x9874); (0x1D62,0x9873); (0x1D63,0x98AA); (0x1D64,0x98AF); (0x1D65,0x98B1);
  (0x1D66,0x98B6); (0x1D67,0x98C4); (0x1D68,0x98C3); (0x1D69,0x98C6); (0x1D6A,0x98E9); (0x1D6B,0x98EB); (0x1D6C,0x9903); (0x1D6D,0x9909);
  (0x1D6E,0x9912); (0x1D6F,0x9914); (0x1D70,0x9918); (0x1D71,0x9921); (0x1D72,0x991D); (0x1D73,0x991E); (0x1D74,0x9924); (0x1D75,0x9920);
  (0x1D76,0x992C); (0x1D77,0x992E); (0x1D78,0x993D); (0x1D79,0x993E); (0x1D7A,0x9942); (0x1D7B,0x9949); (0x1D7C,0x9945); (0x1D7D,0x9950);
  (0x1D7E,0x994B); (0x1D7F,0x9951); (0x1D80,0x9952); (0x1D81,0x994C); (0x1D82,0x9955); (0x1D83,0x9997); (0x1D84,0x9998); (0x1D85,0x99A5);
  (0x1D86,0x99AD); (0x1D87,0x99AE); (0x1D88,0x99BC); (0x1D89,0x99DF); (0x1D8A,0x99DB); (0x1D8B,0x99DD); (0x1D8C,0x99D8); (0x1D8D,0x99D1);
  (0x1D8E,0x99ED); (0x1D8F,0x99EE); (0x1D90,0x99F1); (0x1D91,0x99F2); (0x1D92,0x99FB); (0x1D93,0x99F8); (0x1D94,0x9A01); (0x1D95,0x9A0F);
  (0x1D96,0x9A05); (0x1D97,0x99E2); (0x1D98,0x9A19); (0x1D99,0x9A2B); (0x1D9A,0x9A37); (0x1D9B,0x9A45); (0x1D9C,0x9A42); (0x1D9D,0x9A40);
  (0x1D9E,0x9A43); (0x1D9F,0x9A3E); (0x1DA0,0x9A55); (0x1DA1,0x9A4D); (0x1DA2,0x9A5B); (0x1DA3,0x9A57); (0x1DA4,0x9A5F); (0x1DA5,0x9A62);
  (0x1DA6,0x9A65); (0x1DA7,0x9A64); (0x1DA8,0x9A69); (0x1DA9,0x9A6B); (0x1DAA,0x9A6A); (0x1DAB,0x9AAD); (0x1DAC,0x9AB0); (0x1DAD,0x9ABC);
  (0x1DAE,0x9AC0); (0x1DAF,0x9ACF); (0x1DB0,0x9AD1); (0x1DB1,0x9AD3); (0x1DB2,0x9AD4); (0x1DB3,0x9ADE); (0x1DB4,0x9ADF); (0x1DB5,0x9AE2);
  (0x1DB6,0x9AE3); (0x1DB7,0x9AE6); (0x1DB8,0x9AEF); (0x1DB9,0x9AEB); (0x1DBA,0x9AEE); (0x1DBB,0x9AF4); (0x1DBC,0x9AF1); (0x1DBD,0x9AF7);
  (0x1DBE,0x9AFB); (0x1DBF,0x9B06); (0x1DC0,0x9B18); (0x1DC1,0x9B1A); (0x1DC2,0x9B1F); (0x1DC3,0x9B22); (0x1DC4,0x9B23); (0x1DC5,0x9B25);
  (0x1DC6,0x9B27); (0x1DC7,0x9B28); (0x1DC8,0x9B29); (0x1DC9,0x9B2A); (0x1DCA,0x9B2E); (0x1DCB,0x9B2F); (0x1DCC,0x9B32); (0x1DCD,0x9B44);
  (0x1DCE,0x9B43); (0x1DCF,0x9B4F); (0x1DD0,0x9B4D); (0x1DD1,0x9B4E); (0x1DD2,0x9B51); (0x1DD3,0x9B58); (0x1DD4,0x9B74); (0x1DD5,0x9B93);
  (0x1DD6,0x9B83); (0x1DD7,0x9B91); (0x1DD8,0x9B96); (0x1DD9,0x9B97); (0x1DDA,0x9B9F); (0x1DDB,0x9BA0); (0x1DDC,0x9BA8); (0x1DDD,0x9BB4);
  (0x1DDE,0x9BC0); (0x1DDF,0x9BCA); (0x1DE0,0x9BB9); (0x1DE1,0x9BC6); (0x1DE2,0x9BCF); (0x1DE3,0x9BD1); (0x1DE4,0x9BD2); (0x1DE5,0x9BE3);
  (0x1DE6,0x9BE2); (0x1DE7,0x9BE4); (0x1DE8,0x9BD4); (0x1DE9,0x9BE1); (0x1DEA,0x9C3A); (0x1DEB,0x9BF2); (0x1DEC,0x9BF1); (0x1DED,0x9BF0);
  (0x1DEE,0x9C15); (0x1DEF,0x9C14); (0x1DF0,0x9C09); (0x1DF1,0x9C13); (0x1DF2,0x9C0C); (0x1DF3,0x9C06); (0x1DF4,0x9C08); (0x1DF5,0x9C12);
  (0x1DF6,0x9C0A); (0x1DF7,0x9C04); (0x1DF8,0x9C2E); (0x1DF9,0x9C1B); (0x1DFA,0x9C25); (0x1DFB,0x9C24); (0x1DFC,0x9C21); (0x1DFD,0x9C30);
  (0x1DFE,0x9C47); (0x1DFF,0x9C32); (0x1E00,0x9C46); (0x1E01,0x9C3E); (0x1E02,0x9C5A); (0x1E03,0x9C60); (0x1E04,0x9C67); (0x1E05,0x9C76);
  (0x1E06,0x9C78); (0x1E07,0x9CE7); (0x1E08,0x9CEC); (0x1E09,0x9CF0); (0x1E0A,0x9D09); (0x1E0B,0x9D08); (0x1E0C,0x9CEB); (0x1E0D,0x9D03);
  (0x1E0E,0x9D06); (0x1E0F,0x9D2A); (0x1E10,0x9D26); (0x1E11,0x9DAF); (0x1E12,0x9D23); (0x1E13,0x9D1F); (0x1E14,0x9D44); (0x1E15,0x9D15);
  (0x1E16,0x9D12); (0x1E17,0x9D41); (0x1E18,0x9D3F); (0x1E19,0x9D3E); (0x1E1A,0x9D46); (0x1E1B,0x9D48); (0x1E1C,0x9D5D); (0x1E1D,0x9D5E);
  (0x1E1E,0x9D64); (0x1E1F,0x9D51); (0x1E20,0x9D50); (0x1E21,0x9D59); (0x1E22,0x9D72); (0x1E23,0x9D89); (0x1E24,0x9D87); (0x1E25,0x9DAB);
  (0x1E26,0x9D6F); (0x1E27,0x9D7A); (0x1E28,0x9D9A); (0x1E29,0x9DA4); (0x1E2A,0x9DA9); (0x1E2B,0x9DB2); (0x1E2C,0x9DC4); (0x1E2D,0x9DC1);
  (0x1E2E,0x9DBB); (0x1E2F,0x9DB8); (0x1E30,0x9DBA); (0x1E31,0x9DC6); (0x1E32,0x9DCF); (0x1E33,0x9DC2); (0x1E34,0x9DD9); (0x1E35,0x9DD3);
  (0x1E36,0x9DF8); (0x1E37,0x9DE6); (0x1E38,0x9DED); (0x1E39,0x9DEF); (0x1E3A,0x9DFD); (0x1E3B,0x9E1A); (0x1E3C,0x9E1B); (0x1E3D,0x9E1E);
  (0x1E3E,0x9E75); (0x1E3F,0x9E79); (0x1E40,0x9E7D); (0x1E41,0x9E81); (0x1E42,0x9E88); (0x1E43,0x9E8B); (0x1E44,0x9E8C); (0x1E45,0x9E92);
  (0x1E46,0x9E95); (0x1E47,0x9E91); (0x1E48,0x9E9D); (0x1E49,0x9EA5); (0x1E4A,0x9EA9); (0x1E4B,0x9EB8); (0x1E4C,0x9EAA); (0x1E4D,0x9EAD)
].
(* encoding_tables/whatwg/index-jis0208.txt (pointer, code point), entries 6912..7167 *)
Definition jis0208_index_27 : list (N * N) := [
  (0x1E4E,0x9761); (0x1E4F,0x9ECC); (0x1E50,0x9ECE); (0x1E51,0x9ECF); (0x1E52,0x9ED0); (0x1E53,0x9ED4); (0x1E54,0x9EDC); (0x1E55,0x9EDE);
  (0x1E56,0x9EDD); (0x1E57,0x9EE0); (0x1E58,0x9EE5); (0x1E59,0x9EE8); (0x1E5A,0x9EEF); (0x1E5B,0x9EF4); (0x1E5C,0x9EF6); (0x1E5D,0x9EF7);
  (0x1E5E,0x9EF9); (0x1E5F,0x9EFB); (0x1E60,0x9EFC); (0x1E61,0x9EFD); (0x1E62,0x9F07); (0x1E63,0x9F08); (0x1E64,0x76B7); (0x1E65,0x9F15);
  (0x1E66,0x9F21); (0x1E67,0x9F2C); (0x1E68,0x9F3E); (0x1E69,0x9F4A); (0x1E6A,0x9F52); (0x1E6B,0x9F54); (0x1E6C,0x9F63); (0x1E6D,0x9F5F);
  (0x1E6E,0x9F60); (0x1E6F,0x9F61); (0x1E70,0x9F66); (0x1E71,0x9F67); (0x1E72,0x9F6C); (0x1E73,0x9F6A); (0x1E74,0x9F77); (0x1E75,0x9F72);
  (0x1E76,0x9F76); (0x1E77,0x9F95); (0x1E78,0x9F9C); (0x1E79,0x9FA0); (0x1E7A,0x582F); (0x1E7B,0x69C7); (0x1E7C,0x9059); (0x1E7D,0x7464);
  (0x1E7E,0x51DC); (0x1E7F,0x7199); (0x2050,0x7E8A); (0x2051,0x891C); (0x2052,0x9348); (0x2053,0x9288); (0x2054,0x84DC); (0x2055,0x4FC9);
  (0x2056,0x70BB); (0x2057,0x6631); (0x2058,0x68C8); (0x2059,0x92F9); (0x205A,0x66FB); (0x205B,0x5F45); (0x205C,0x4E28); (0x205D,0x4EE1);
  (0x205E,0x4EFC); (0x205F,0x4F00); (0x2060,0x4F03); (0x2061,0x4F39); (0x2062,0x4F56); (0x2063,0x4F92); (0x2064,0x4F8A); (0x2065,0x4F9A);
  (0x2066,0x4F94); (0x2067,0x4FCD); (0x2068,0x5040); (0x2069,0x5022); (0x206A,0x4FFF); (0x206B,0x501E); (0x206C,0x5046); (0x206D,0x5070);
  (0x206E,0x5042); (0x206F,0x5094); (0x2070,0x50F4); (0x2071,0x50D8); (0x2072,0x514A); (0x2073,0x5164); (0x2074,0x519D); (0x2075,0x51BE);
  (0x2076,0x51EC); (0x2077,0x5215); (0x2078,0x529C); (0x2079,0x52A6); (0x207A,0x52C0); (0x207B,0x52DB); (0x207C,0x5300); (0x207D,0x5307);
  (0x207E,0x5324); (0x207F,0x5372); (0x2080,0x5393); (0x2081,0x53B2); (0x2082,0x53DD); (0x2083,0xFA0E); (0x2084,0x549C); (0x2085,0x548A);
  (0x2086,0x54A9); (0x2087,0x54FF); (0x2088,0x5586); (0x2089,0x5759); (0x208A,0x5765); (0x208B,0x57AC); (0x208C,0x57C8); (0x208D,0x57C7);
  (0x208E,0xFA0F); (0x208F,0xFA10); (0x2090,0x589E); (0x2091,0x58B2); (0x2092,0x590B); (0x2093,0x5953); (0x2094,0x595B); (0x2095,0x595D);
  (0x2096,0x5963); (0x2097,0x59A4); (0x2098,0x59BA); (0x2099,0x5B56); (0x209A,0x5BC0); (0x209B,0x752F); (0x209C,0x5BD8); (0x209D,0x5BEC);
  (0x209E,0x5C1E); (0x209F,0x5CA6); (0x20A0,0x5CBA); (0x20A1,0x5CF5); (0x20A2,0x5D27); (0x20A3,0x5D53); (0x20A4,0xFA11); (0x20A5,0x5D42);
  (0x20A6,0x5D6D); (0x20A7,0x5DB8); (0x20A8,0x5DB9); (0x20A9,0x5DD0); (0x20AA,0x5F21); (0x20AB,0x5F34); (0x20AC,0x5F67); (0x20AD,0x5FB7);
  (0x20AE,0x5FDE); (0x20AF,0x605D); (0x20B0,0x6085); (0x20B1,0x608A); (0x20B2,0x60DE); (0x20B3,0x60D5); (0x20B4,0x6120); (0x20B5,0x60F2);
  (0x20B6,0x6111); (0x20B7,0x6137); (0x20B8,0x6130); (0x20B9,0x6198); (0x20BA,0x6213); (0x20BB,0x62A6); (0x20BC,0x63F5); (0x20BD,0x6460);
  (0x20BE,0x649D); (0x20BF,0x64CE); (0x20C0,0x654E); (0x20C1,0x6600); (0x20C2,0x6615); (0x20C3,0x663B); (0x20C4,0x6609); (0x20C5,0x662E);
  (0x20C6,0x661E); (0x20C7,0x6624); (0x20C8,0x6665); (0x20C9,0x6657); (0x20CA,0x6659); (0x20CB,0xFA12); (0x20CC,0x6673); (0x20CD,0x6699);
  (0x20CE,0x66A0); (0x20CF,0x66B2); (0x20D0,0x66BF); (0x20D1,0x66FA); (0x20D2,0x670E); (0x20D3,0xF929); (0x20D4,0x6766); (0x20D5,0x67BB);
  (0x20D6,0x6852); (0x20D7,0x67C0); (0x20D8,0x6801); (0x20D9,0x6844); (0x20DA,0x68CF); (0x20DB,0xFA13); (0x20DC,0x6968); (0x20DD,0xFA14);
  (0x20DE,0x6998); (0x20DF,0x69E2); (0x20E0,0x6A30); (0x20E1,0x6A6B); (0x20E2,0x6A46); (0x20E3,0x6A73); (0x20E4,0x6A7E); (0x20E5,0x6AE2);
  (0x20E6,0x6AE4); (0x20E7,0x6BD6); (0x20E8,0x6C3F); (0x20E9,0x6C5C); (0x20EA,0x6C86); (0x20EB,0x6C6F); (0x20EC,0x6CDA); (0x20ED,0x6D04);
  (0x20EE,0x6D87); (0x20EF,0x6D6F); (0x20F0,0x6D96); (0x20F1,0x6DAC); (0x20F2,0x6DCF); (0x20F3,0x6DF8); (0x20F4,0x6DF2); (0x20F5,0x6DFC);
  (0x20F6,0x6E39); (0x20F7,0x6E5C); (0x20F8,0x6E27); (0x20F9,0x6E3C); (0x20FA,0x6EBF); (0x20FB,0x6F88); (0x20FC,0x6FB5); (0x20FD,0x6FF5);
  (0x20FE,0x7005); (0x20FF,0x7007); (0x2100,0x7028); (0x2101,0x7085); (0x2102,0x70AB); (0x2103,0x710F); (0x2104,0x7104); (0x2105,0x715C);
  (0x2106,0x7146); (0x2107,0x7147); (0x2108,0xFA15); (0x2109,0x71C1); (0x210A,0x71FE); (0x210B,0x72B1); (0x210C,0x72BE); (0x210D,0x7324);
  (0x210E,0xFA16); (0x210F,0x7377); (0x2110,0x73BD); (0x2111,0x73C9); (0x2112,0x73D6); (0x2113,0x73E3); (0x2114,0x73D2); (0x2115,0x7407);
  (0x2116,0x73F5); (0x2117,0x7426); (0x2118,0x742A); (0x2119,0x7429); (0x211A,0x742E); (0x211B,0x7462); (0x211C,0x7489); (0x211D,0x749F)
].
(* encoding_tables/whatwg/index-jis0208.txt (pointer, code point), entries 7168..7423 *)
Definition jis0208_index_28 : list (N * N) := [
  (0x211E,0x7501); (0x211F,0x756F); (0x2120,0x7682); (0x2121,0x769C); (0x2122,0x769E); (0x2123,0x769B); (0x2124,0x76A6); (0x2125,0xFA17);
  (0x2126,0x7746); (0x2127,0x52AF); (0x2128,0x7821); (0x2129,0x784E); (0x212A,0x7864); (0x212B,0x787A); (0x212C,0x7930); (0x212D,0xFA18);
  (0x212E,0xFA19); (0x212F,0xFA1A); (0x2130,0x7994); (0x2131,0xFA1B); (0x2132,0x799B); (0x2133,0x7AD1); (0x2134,0x7AE7); (0x2135,0xFA1C);
  (0x2136,0x7AEB); (0x2137,0x7B9E); (0x2138,0xFA1D); (0x2139,0x7D48); (0x213A,0x7D5C); (0x213B,0x7DB7); (0x213C,0x7DA0); (0x213D,0x7DD6);
  (0x213E,0x7E52); (0x213F,0x7F47); (0x2140,0x7FA1); (0x2141,0xFA1E); (0x2142,0x8301); (0x2143,0x8362); (0x2144,0x837F); (0x2145,0x83C7);
  (0x2146,0x83F6); (0x2147,0x8448); (0x2148,0x84B4); (0x2149,0x8553); (0x214A,0x8559); (0x214B,0x856B); (0x214C,0xFA1F); (0x214D,0x85B0);
  (0x214E,0xFA20); (0x214F,0xFA21); (0x2150,0x8807); (0x2151,0x88F5); (0x2152,0x8A12); (0x2153,0x8A37); (0x2154,0x8A79); (0x2155,0x8AA7);
  (0x2156,0x8ABE); (0x2157,0x8ADF); (0x2158,0xFA22); (0x2159,0x8AF6); (0x215A,0x8B53); (0x215B,0x8B7F); (0x215C,0x8CF0); (0x215D,0x8CF4);
  (0x215E,0x8D12); (0x215F,0x8D76); (0x2160,0xFA23); (0x2161,0x8ECF); (0x2162,0xFA24); (0x2163,0xFA25); (0x2164,0x9067); (0x2165,0x90DE);
  (0x2166,0xFA26); (0x2167,0x9115); (0x2168,0x9127); (0x2169,0x91DA); (0x216A,0x91D7); (0x216B,0x91DE); (0x216C,0x91ED); (0x216D,0x91EE);
  (0x216E,0x91E4); (0x216F,0x91E5); (0x2170,0x9206); (0x2171,0x9210); (0x2172,0x920A); (0x2173,0x923A); (0x2174,0x9240); (0x2175,0x923C);
  (0x2176,0x924E); (0x2177,0x9259); (0x2178,0x9251); (0x2179,0x9239); (0x217A,0x9267); (0x217B,0x92A7); (0x217C,0x9277); (0x217D,0x9278);
  (0x217E,0x92E7); (0x217F,0x92D7); (0x2180,0x92D9); (0x2181,0x92D0); (0x2182,0xFA27); (0x2183,0x92D5); (0x2184,0x92E0); (0x2185,0x92D3);
  (0x2186,0x9325); (0x2187,0x9321); (0x2188,0x92FB); (0x2189,0xFA28); (0x218A,0x931E); (0x218B,0x92FF); (0x218C,0x931D); (0x218D,0x9302);
  (0x218E,0x9370); (0x218F,0x9357); (0x2190,0x93A4); (0x2191,0x93C6); (0x2192,0x93DE); (0x2193,0x93F8); (0x2194,0x9431); (0x2195,0x9445);
  (0x2196,0x9448); (0x2197,0x9592); (0x2198,0xF9DC); (0x2199,0xFA29); (0x219A,0x969D); (0x219B,0x96AF); (0x219C,0x9733); (0x219D,0x973B);
  (0x219E,0x9743); (0x219F,0x974D); (0x21A0,0x974F); (0x21A1,0x9751); (0x21A2,0x9755); (0x21A3,0x9857); (0x21A4,0x9865); (0x21A5,0xFA2A);
  (0x21A6,0xFA2B); (0x21A7,0x9927); (0x21A8,0xFA2C); (0x21A9,0x999E); (0x21AA,0x9A4E); (0x21AB,0x9AD9); (0x21AC,0x9ADC); (0x21AD,0x9B75);
  (0x21AE,0x9B72); (0x21AF,0x9B8F); (0x21B0,0x9BB1); (0x21B1,0x9BBB); (0x21B2,0x9C00); (0x21B3,0x9D70); (0x21B4,0x9D6B); (0x21B5,0xFA2D);
  (0x21B6,0x9E19); (0x21B7,0x9ED1); (0x21BA,0x2170); (0x21BB,0x2171); (0x21BC,0x2172); (0x21BD,0x2173); (0x21BE,0x2174); (0x21BF,0x2175);
  (0x21C0,0x2176); (0x21C1,0x2177); (0x21C2,0x2178); (0x21C3,0x2179); (0x21C4,0xFFE2); (0x21C5,0xFFE4); (0x21C6,0xFF07); (0x21C7,0xFF02);
  (0x29DC,0x2170); (0x29DD,0x2171); (0x29DE,0x2172); (0x29DF,0x2173); (0x29E0,0x2174); (0x29E1,0x2175); (0x29E2,0x2176); (0x29E3,0x2177);
  (0x29E4,0x2178); (0x29E5,0x2179); (0x29E6,0x2160); (0x29E7,0x2161); (0x29E8,0x2162); (0x29E9,0x2163); (0x29EA,0x2164); (0x29EB,0x2165);
  (0x29EC,0x2166); (0x29ED,0x2167); (0x29EE,0x2168); (0x29EF,0x2169); (0x29F0,0xFFE2); (0x29F1,0xFFE4); (0x29F2,0xFF07); (0x29F3,0xFF02);
  (0x29F4,0x3231); (0x29F5,0x2116); (0x29F6,0x2121); (0x29F7,0x2235); (0x29F8,0x7E8A); (0x29F9,0x891C); (0x29FA,0x9348); (0x29FB,0x9288);
  (0x29FC,0x84DC); (0x29FD,0x4FC9); (0x29FE,0x70BB); (0x29FF,0x6631); (0x2A00,0x68C8); (0x2A01,0x92F9); (0x2A02,0x66FB); (0x2A03,0x5F45);
  (0x2A04,0x4E28); (0x2A05,0x4EE1); (0x2A06,0x4EFC); (0x2A07,0x4F00); (0x2A08,0x4F03); (0x2A09,0x4F39); (0x2A0A,0x4F56); (0x2A0B,0x4F92);
  (0x2A0C,0x4F8A); (0x2A0D,0x4F9A); (0x2A0E,0x4F94); (0x2A0F,0x4FCD); (0x2A10,0x5040); (0x2A11,0x5022); (0x2A12,0x4FFF); (0x2A13,0x501E);
  (0x2A14,0x5046); (0x2A15,0x5070); (0x2A16,0x5042); (0x2A17,0x5094); (0x2A18,0x50F4); (0x2A19,0x50D8); (0x2A1A,0x514A); (0x2A1B,0x5164);
  (0x2A1C,0x519D); (0x2A1D,0x51BE); (0x2A1E,0x51EC); (0x2A1F,0x5215); (0x2A20,0x529C); (0x2A21,0x52A6); (0x2A22,0x52C0); (0x2A23,0x52DB);
  (0x2A24,0x5300); (0x2A25,0x5307); (0x2A26,0x5324); (0x2A27,0x5372); (0x2A28,0x5393); (0x2A29,0x53B2); (0x2A2A,0x53DD); (0x2A2B,0xFA0E);
  (0x2A2C,0x549C); (0x2A2D,0x548A); (0x2A2E,0x54A9); (0x2A2F,0x54FF); (0x2A30,0x5586); (0x2A31,0x5759); (0x2A32,0x5765); (0x2A33,0x57AC)
].
(* encoding_tables/whatwg/index-jis0208.txt (pointer, code point), entries 7424..7679 *)
Definition jis0208_index_29 : list (N * N) := [
  (0x2A34,0x57C8); (0x2A35,0x57C7); (0x2A36,0xFA0F); (0x2A37,0xFA10); (0x2A38,0x589E); (0x2A39,0x58B2); (0x2A3A,0x590B); (0x2A3B,0x5953);
  (0x2A3C,0x595B); (0x2A3D,0x595D); (0x2A3E,0x5963); (0x2A3F,0x59A4); (0x2A40,0x59BA); (0x2A41,0x5B56); (0x2A42,0x5BC0); (0x2A43,0x752F);
  (0x2A44,0x5BD8); (0x2A45,0x5BEC); (0x2A46,0x5C1E); (0x2A47,0x5CA6); (0x2A48,0x5CBA); (0x2A49,0x5CF5); (0x2A4A,0x5D27); (0x2A4B,0x5D53);
  (0x2A4C,0xFA11); (0x2A4D,0x5D42); (0x2A4E,0x5D6D); (0x2A4F,0x5DB8); (0x2A50,0x5DB9); (0x2A51,0x5DD0); (0x2A52,0x5F21); (0x2A53,0x5F34);
  (0x2A54,0x5F67); (0x2A55,0x5FB7); (0x2A56,0x5FDE); (0x2A57,0x605D); (0x2A58,0x6085); (0x2A59,0x608A); (0x2A5A,0x60DE); (0x2A5B,0x60D5);
  (0x2A5C,0x6120); (0x2A5D,0x60F2); (0x2A5E,0x6111); (0x2A5F,0x6137); (0x2A60,0x6130); (0x2A61,0x6198); (0x2A62,0x6213); (0x2A63,0x62A6);
  (0x2A64,0x63F5); (0x2A65,0x6460); (0x2A66,0x649D); (0x2A67,0x64CE); (0x2A68,0x654E); (0x2A69,0x6600); (0x2A6A,0x6615); (0x2A6B,0x663B);
  (0x2A6C,0x6609); (0x2A6D,0x662E); (0x2A6E,0x661E); (0x2A6F,0x6624); (0x2A70,0x6665); (0x2A71,0x6657); (0x2A72,0x6659); (0x2A73,0xFA12);
  (0x2A74,0x6673); (0x2A75,0x6699); (0x2A76,0x66A0); (0x2A77,0x66B2); (0x2A78,0x66BF); (0x2A79,0x66FA); (0x2A7A,0x670E); (0x2A7B,0xF929);
  (0x2A7C,0x6766); (0x2A7D,0x67BB); (0x2A7E,0x6852); (0x2A7F,0x67C0); (0x2A80,0x6801); (0x2A81,0x6844); (0x2A82,0x68CF); (0x2A83,0xFA13);
  (0x2A84,0x6968); (0x2A85,0xFA14); (0x2A86,0x6998); (0x2A87,0x69E2); (0x2A88,0x6A30); (0x2A89,0x6A6B); (0x2A8A,0x6A46); (0x2A8B,0x6A73);
  (0x2A8C,0x6A7E); (0x2A8D,0x6AE2); (0x2A8E,0x6AE4); (0x2A8F,0x6BD6); (0x2A90,0x6C3F); (0x2A91,0x6C5C); (0x2A92,0x6C86); (0x2A93,0x6C6F);
  (0x2A94,0x6CDA); (0x2A95,0x6D04); (0x2A96,0x6D87); (0x2A97,0x6D6F); (0x2A98,0x6D96); (0x2A99,0x6DAC); (0x2A9A,0x6DCF); (0x2A9B,0x6DF8);
  (0x2A9C,0x6DF2); (0x2A9D,0x6DFC); (0x2A9E,0x6E39); (0x2A9F,0x6E5C); (0x2AA0,0x6E27); (0x2AA1,0x6E3C); (0x2AA2,0x6EBF); (0x2AA3,0x6F88);
  (0x2AA4,0x6FB5); (0x2AA5,0x6FF5); (0x2AA6,0x7005); (0x2AA7,0x7007); (0x2AA8,0x7028); (0x2AA9,0x7085); (0x2AAA,0x70AB); (0x2AAB,0x710F);
  (0x2AAC,0x7104); (0x2AAD,0x715C); (0x2AAE,0x7146); (0x2AAF,0x7147); (0x2AB0,0xFA15); (0x2AB1,0x71C1); (0x2AB2,0x71FE); (0x2AB3,0x72B1);
  (0x2AB4,0x72BE); (0x2AB5,0x7324); (0x2AB6,0xFA16); (0x2AB7,0x7377); (0x2AB8,0x73BD); (0x2AB9,0x73C9); (0x2ABA,0x73D6); (0x2ABB,0x73E3);
  (0x2ABC,0x73D2); (0x2ABD,0x7407); (0x2ABE,0x73F5); (0x2ABF,0x7426); (0x2AC0,0x742A); (0x2AC1,0x7429); (0x2AC2,0x742E); (0x2AC3,0x7462);
  (0x2AC4,0x7489); (0x2AC5,0x749F); (0x2AC6,0x7501); (0x2AC7,0x756F); (0x2AC8,0x7682); (0x2AC9,0x769C); (0x2ACA,0x769E); (0x2ACB,0x769B);
  (0x2ACC,0x76A6); (0x2ACD,0xFA17); (0x2ACE,0x7746); (0x2ACF,0x52AF); (0x2AD0,0x7821); (0x2AD1,0x784E); (0x2AD2,0x7864); (0x2AD3,0x787A);
  (0x2AD4,0x7930); (0x2AD5,0xFA18); (0x2AD6,0xFA19); (0x2AD7,0xFA1A); (0x2AD8,0x7994); (0x2AD9,0xFA1B); (0x2ADA,0x799B); (0x2ADB,0x7AD1);
  (0x2ADC,0x7AE7); (0x2ADD,0xFA1C); (0x2ADE,0x7AEB); (0x2ADF,0x7B9E); (0x2AE0,0xFA1D); (0x2AE1,0x7D48); (0x2AE2,0x7D5C); (0x2AE3,0x7DB7);
  (0x2AE4,0x7DA0); (0x2AE5,0x7DD6); (0x2AE6,0x7E52); (0x2AE7,0x7F47); (0x2AE8,0x7FA1); (0x2AE9,0xFA1E); (0x2AEA,0x8301); (0x2AEB,0x8362);
  (0x2AEC,0x837F); (0x2AED,0x83C7); (0x2AEE,0x83F6); (0x2AEF,0x8448); (0x2AF0,0x84B4); (0x2AF1,0x8553); (0x2AF2,0x8559); (0x2AF3,0x856B);
  (0x2AF4,0xFA1F); (0x2AF5,0x85B0); (0x2AF6,0xFA20); (0x2AF7,0xFA21); (0x2AF8,0x8807); (0x2AF9,0x88F5); (0x2AFA,0x8A12); (0x2AFB,0x8A37);
  (0x2AFC,0x8A79); (0x2AFD,0x8AA7); (0x2AFE,0x8ABE); (0x2AFF,0x8ADF); (0x2B00,0xFA22); (0x2B01,0x8AF6); (0x2B02,0x8B53); (0x2B03,0x8B7F);
  (0x2B04,0x8CF0); (0x2B05,0x8CF4); (0x2B06,0x8D12); (0x2B07,0x8D76); (0x2B08,0xFA23); (0x2B09,0x8ECF); (0x2B0A,0xFA24); (0x2B0B,0xFA25);
  (0x2B0C,0x9067); (0x2B0D,0x90DE); (0x2B0E,0xFA26); (0x2B0F,0x9115); (0x2B10,0x9127); (0x2B11,0x91DA); (0x2B12,0x91D7); (0x2B13,0x91DE);
  (0x2B14,0x91ED); (0x2B15,0x91EE); (0x2B16,0x91E4); (0x2B17,0x91E5); (0x2B18,0x9206); (0x2B19,0x9210); (0x2B1A,0x920A); (0x2B1B,0x923A);
  (0x2B1C,0x9240); (0x2B1D,0x923C); (0x2B1E,0x924E); (0x2B1F,0x9259); (0x2B20,0x9251); (0x2B21,0x9239); (0x2B22,0x9267); (0x2B23,0x92A7);
  (0x2B24,0x9277); (0x2B25,0x9278); (0x2B26,0x92E7); (0x2B27,0x92D7); (0x2B28,0x92D9); (0x2B29,0x92D0); (0x2B2A,0xFA27); (0x2B2B,0x92D5);
  (0x2B2C,0x92E0); (0x2B2D,0x92D3); (0x2B2E,0x9325); (0x2B2F,0x9321); (0x2B30,0x92FB); (0x2B31,0xFA28); (0x2B32,0x931E); (0x2B33,0x92FF)
].
(* encoding_tables/whatwg/index-jis0208.txt (pointer, code point), entries 7680..7723 *)
Definition jis0208_index_30 : list (N * N) := [
  (0x2B34,0x931D); (0x2B35,0x9302); (0x2B36,0x9370); (0x2B37,0x9357); (0x2B38,0x93A4); (0x2B39,0x93C6); (0x2B3A,0x93DE); (0x2B3B,0x93F8);
  (0x2B3C,0x9431); (0x2B3D,0x9445); (0x2B3E,0x9448); (0x2B3F,0x9592); (0x2B40,0xF9DC); (0x2B41,0xFA29); (0x2B42,0x969D); (0x2B43,0x96AF);
  (0x2B44,0x9733); (0x2B45,0x973B); (0x2B46,0x9743); (0x2B47,0x974D); (0x2B48,0x974F); (0x2B49,0x9751); (0x2B4A,0x9755); (0x2B4B,0x9857);
  (0x2B4C,0x9865); (0x2B4D,0xFA2A); (0x2B4E,0xFA2B); (0x2B4F,0x9927); (0x2B50,0xFA2C); (0x2B51,0x999E); (0x2B52,0x9A4E); (0x2B53,0x9AD9);
  (0x2B54,0x9ADC); (0x2B55,0x9B75); (0x2B56,0x9B72); (0x2B57,0x9B8F); (0x2B58,0x9BB1); (0x2B59,0x9BBB); (0x2B5A,0x9C00); (0x2B5B,0x9D70);
  (0x2B5C,0x9D6B); (0x2B5D,0xFA2D); (0x2B5E,0x9E19); (0x2B5F,0x9ED1)
].
(* encoding_tables/whatwg/index-jis0208.txt (pointer, code point): the whole table *)
Definition jis0208_index : list (N * N) :=
  jis0208_index_0 ++
  jis0208_index_1 ++
  jis0208_index_2 ++
  jis0208_index_3 ++
  jis0208_index_4 ++
  jis0208_index_5 ++
  jis0208_index_6 ++
  jis0208_index_7 ++
  jis0208_index_8 ++
  jis0208_index_9 ++
  jis0208_index_10 ++
  jis0208_index_11 ++
  jis0208_index_12 ++
  jis0208_index_13 ++
  jis0208_index_14 ++
  jis0208_index_15 ++
  jis0208_index_16 ++
  jis0208_index_17 ++
  jis0208_index_18 ++
  jis0208_index_19 ++
  jis0208_index_20 ++
  jis0208_index_21 ++
  jis0208_index_22 ++
  jis0208_index_23 ++
  jis0208_index_24 ++
  jis0208_index_25 ++
  jis0208_index_26 ++
  jis0208_index_27 ++
  jis0208_index_28 ++
  jis0208_index_29 ++
  jis0208_index_30.

