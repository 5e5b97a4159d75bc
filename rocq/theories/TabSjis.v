(* Generated by tools/gen_tables.py; do not edit. *)
From Coq Require Import NArith List.
Import ListNotations.
Local Open Scope N_scope.

(* src/generated/whatwg/shiftjis_whatwg_tables.rs.inc:4-1393 DECODE_TABLE, entries 0..255 *)
Definition sjis_decode_table_0 : list N := [
  0x3000; 0x3001; 0x3002; 0xFF0C; 0xFF0E; 0x30FB; 0xFF1A; 0xFF1B;
  0xFF1F; 0xFF01; 0x309B; 0x309C; 0xB4; 0xFF40; 0xA8; 0xFF3E;
  0xFFE3; 0xFF3F; 0x30FD; 0x30FE; 0x309D; 0x309E; 0x3003; 0x4EDD;
  0x3005; 0x3006; 0x3007; 0x30FC; 0x2015; 0x2010; 0xFF0F; 0xFF3C;
  0xFF5E; 0x2225; 0xFF5C; 0x2026; 0x2025; 0x2018; 0x2019; 0x201C;
  0x201D; 0xFF08; 0xFF09; 0x3014; 0x3015; 0xFF3B; 0xFF3D; 0xFF5B;
  0xFF5D; 0x3008; 0x3009; 0x300A; 0x300B; 0x300C; 0x300D; 0x300E;
  0x300F; 0x3010; 0x3011; 0xFF0B; 0xFF0D; 0xB1; 0xD7; 0xF7;
  0xFF1D; 0x2260; 0xFF1C; 0xFF1E; 0x2266; 0x2267; 0x221E; 0x2234;
  0x2642; 0x2640; 0xB0; 0x2032; 0x2033; 0x2103; 0xFFE5; 0xFF04;
  0xFFE0; 0xFFE1; 0xFF05; 0xFF03; 0xFF06; 0xFF0A; 0xFF20; 0xA7;
  0x2606; 0x2605; 0x25CB; 0x25CF; 0x25CE; 0x25C7; 0x25C6; 0x25A1;
  0x25A0; 0x25B3; 0x25B2; 0x25BD; 0x25BC; 0x203B; 0x3012; 0x2192;
  0x2190; 0x2191; 0x2193; 0x3013; 0xFFFD; 0xFFFD; 0xFFFD; 0xFFFD;
  0xFFFD; 0xFFFD; 0xFFFD; 0xFFFD; 0xFFFD; 0xFFFD; 0xFFFD; 0x2208;
  0x220B; 0x2286; 0x2287; 0x2282; 0x2283; 0x222A; 0x2229; 0xFFFD;
  0xFFFD; 0xFFFD; 0xFFFD; 0xFFFD; 0xFFFD; 0xFFFD; 0xFFFD; 0x2227;
  0x2228; 0xFFE2; 0x21D2; 0x21D4; 0x2200; 0x2203; 0xFFFD; 0xFFFD;
  0xFFFD; 0xFFFD; 0xFFFD; 0xFFFD; 0xFFFD; 0xFFFD; 0xFFFD; 0xFFFD;
  0xFFFD; 0x2220; 0x22A5; 0x2312; 0x2202; 0x2207; 0x2261; 0x2252;
  0x226A; 0x226B; 0x221A; 0x223D; 0x221D; 0x2235; 0x222B; 0x222C;
  0xFFFD; 0xFFFD; 0xFFFD; 0xFFFD; 0xFFFD; 0xFFFD; 0xFFFD; 0x212B;
  0x2030; 0x266F; 0x266D; 0x266A; 0x2020; 0x2021; 0xB6; 0xFFFD;
  0xFFFD; 0xFFFD; 0xFFFD; 0x25EF; 0xFFFD; 0xFFFD; 0xFFFD; 0xFFFD;
  0xFFFD; 0xFFFD; 0xFFFD; 0xFFFD; 0xFFFD; 0xFFFD; 0xFFFD; 0xFFFD;
  0xFFFD; 0xFFFD; 0xFFFD; 0xFF10; 0xFF11; 0xFF12; 0xFF13; 0xFF14;
  0xFF15; 0xFF16; 0xFF17; 0xFF18; 0xFF19; 0xFFFD; 0xFFFD; 0xFFFD;
  0xFFFD; 0xFFFD; 0xFFFD; 0xFFFD; 0xFF21; 0xFF22; 0xFF23; 0xFF24;
  0xFF25; 0xFF26; 0xFF27; 0xFF28; 0xFF29; 0xFF2A; 0xFF2B; 0xFF2C;
  0xFF2D; 0xFF2E; 0xFF2F; 0xFF30; 0xFF31; 0xFF32; 0xFF33; 0xFF34;
  0xFF35; 0xFF36; 0xFF37; 0xFF38; 0xFF39; 0xFF3A; 0xFFFD; 0xFFFD;
  0xFFFD; 0xFFFD; 0xFFFD; 0xFFFD; 0xFF41; 0xFF42; 0xFF43; 0xFF44
].
(* src/generated/whatwg/shiftjis_whatwg_tables.rs.inc:4-1393 DECODE_TABLE, entries 256..511 *)
Definition sjis_decode_table_1 : list N := [
  0xFF45; 0xFF46; 0xFF47; 0xFF48; 0xFF49; 0xFF4A; 0xFF4B; 0xFF4C;
  0xFF4D; 0xFF4E; 0xFF4F; 0xFF50; 0xFF51; 0xFF52; 0xFF53; 0xFF54;
  0xFF55; 0xFF56; 0xFF57; 0xFF58; 0xFF59; 0xFF5A; 0xFFFD; 0xFFFD;
  0xFFFD; 0xFFFD; 0x3041; 0x3042; 0x3043; 0x3044; 0x3045; 0x3046;
  0x3047; 0x3048; 0x3049; 0x304A; 0x304B; 0x304C; 0x304D; 0x304E;
  0x304F; 0x3050; 0x3051; 0x3052; 0x3053; 0x3054; 0x3055; 0x3056;
  0x3057; 0x3058; 0x3059; 0x305A; 0x305B; 0x305C; 0x305D; 0x305E;
  0x305F; 0x3060; 0x3061; 0x3062; 0x3063; 0x3064; 0x3065; 0x3066;
  0x3067; 0x3068; 0x3069; 0x306A; 0x306B; 0x306C; 0x306D; 0x306E;
  0x306F; 0x3070; 0x3071; 0x3072; 0x3073; 0x3074; 0x3075; 0x3076;
  0x3077; 0x3078; 0x3079; 0x307A; 0x307B; 0x307C; 0x307D; 0x307E;
  0x307F; 0x3080; 0x3081; 0x3082; 0x3083; 0x3084; 0x3085; 0x3086;
  0x3087; 0x3088; 0x3089; 0x308A; 0x308B; 0x308C; 0x308D; 0x308E;
  0x308F; 0x3090; 0x3091; 0x3092; 0x3093; 0xFFFD; 0xFFFD; 0xFFFD;
  0xFFFD; 0xFFFD; 0xFFFD; 0xFFFD; 0xFFFD; 0xFFFD; 0xFFFD; 0xFFFD;
  0x30A1; 0x30A2; 0x30A3; 0x30A4; 0x30A5; 0x30A6; 0x30A7; 0x30A8;
  0x30A9; 0x30AA; 0x30AB; 0x30AC; 0x30AD; 0x30AE; 0x30AF; 0x30B0;
  0x30B1; 0x30B2; 0x30B3; 0x30B4; 0x30B5; 0x30B6; 0x30B7; 0x30B8;
  0x30B9; 0x30BA; 0x30BB; 0x30BC; 0x30BD; 0x30BE; 0x30BF; 0x30C0;
  0x30C1; 0x30C2; 0x30C3; 0x30C4; 0x30C5; 0x30C6; 0x30C7; 0x30C8;
  0x30C9; 0x30CA; 0x30CB; 0x30CC; 0x30CD; 0x30CE; 0x30CF; 0x30D0;
  0x30D1; 0x30D2; 0x30D3; 0x30D4; 0x30D5; 0x30D6; 0x30D7; 0x30D8;
  0x30D9; 0x30DA; 0x30DB; 0x30DC; 0x30DD; 0x30DE; 0x30DF; 0x30E0;
  0x30E1; 0x30E2; 0x30E3; 0x30E4; 0x30E5; 0x30E6; 0x30E7; 0x30E8;
  0x30E9; 0x30EA; 0x30EB; 0x30EC; 0x30ED; 0x30EE; 0x30EF; 0x30F0;
  0x30F1; 0x30F2; 0x30F3; 0x30F4; 0x30F5; 0x30F6; 0xFFFD; 0xFFFD;
  0xFFFD; 0xFFFD; 0xFFFD; 0xFFFD; 0xFFFD; 0xFFFD; 0x391; 0x392;
  0x393; 0x394; 0x395; 0x396; 0x397; 0x398; 0x399; 0x39A;
  0x39B; 0x39C; 0x39D; 0x39E; 0x39F; 0x3A0; 0x3A1; 0x3A3;
  0x3A4; 0x3A5; 0x3A6; 0x3A7; 0x3A8; 0x3A9; 0xFFFD; 0xFFFD;
  0xFFFD; 0xFFFD; 0xFFFD; 0xFFFD; 0xFFFD; 0xFFFD; 0x3B1; 0x3B2;
  0x3B3; 0x3B4; 0x3B5; 0x3B6; 0x3B7; 0x3B8; 0x3B9; 0x3BA
].
(* src/generated/whatwg/shiftjis_whatwg_tables.rs.inc:4-1393 DECODE_TABLE, entries 512..767 *)
Definition sjis_decode_table_2 : list N := [
  0x3BB; 0x3BC; 0x3BD; 0x3BE; 0x3BF; 0x3C0; 0x3C1; 0x3C3;
  0x3C4; 0x3C5; 0x3C6; 0x3C7; 0x3C8; 0x3C9; 0xFFFD; 0xFFFD;
  0xFFFD; 0xFFFD; 0xFFFD; 0xFFFD; 0xFFFD; 0xFFFD; 0xFFFD; 0xFFFD;
  0xFFFD; 0xFFFD; 0xFFFD; 0xFFFD; 0xFFFD; 0xFFFD; 0xFFFD; 0xFFFD;
  0xFFFD; 0xFFFD; 0xFFFD; 0xFFFD; 0xFFFD; 0xFFFD; 0xFFFD; 0xFFFD;
  0xFFFD; 0xFFFD; 0xFFFD; 0xFFFD; 0xFFFD; 0xFFFD; 0xFFFD; 0xFFFD;
  0xFFFD; 0xFFFD; 0xFFFD; 0xFFFD; 0x410; 0x411; 0x412; 0x413;
  0x414; 0x415; 0x401; 0x416; 0x417; 0x418; 0x419; 0x41A;
  0x41B; 0x41C; 0x41D; 0x41E; 0x41F; 0x420; 0x421; 0x422;
  0x423; 0x424; 0x425; 0x426; 0x427; 0x428; 0x429; 0x42A;
  0x42B; 0x42C; 0x42D; 0x42E; 0x42F; 0xFFFD; 0xFFFD; 0xFFFD;
  0xFFFD; 0xFFFD; 0xFFFD; 0xFFFD; 0xFFFD; 0xFFFD; 0xFFFD; 0xFFFD;
  0xFFFD; 0xFFFD; 0xFFFD; 0xFFFD; 0x430; 0x431; 0x432; 0x433;
  0x434; 0x435; 0x451; 0x436; 0x437; 0x438; 0x439; 0x43A;
  0x43B; 0x43C; 0x43D; 0x43E; 0x43F; 0x440; 0x441; 0x442;
  0x443; 0x444; 0x445; 0x446; 0x447; 0x448; 0x449; 0x44A;
  0x44B; 0x44C; 0x44D; 0x44E; 0x44F; 0xFFFD; 0xFFFD; 0xFFFD;
  0xFFFD; 0xFFFD; 0xFFFD; 0xFFFD; 0xFFFD; 0xFFFD; 0xFFFD; 0xFFFD;
  0xFFFD; 0xFFFD; 0x2500; 0x2502; 0x250C; 0x2510; 0x2518; 0x2514;
  0x251C; 0x252C; 0x2524; 0x2534; 0x253C; 0x2501; 0x2503; 0x250F;
  0x2513; 0x251B; 0x2517; 0x2523; 0x2533; 0x252B; 0x253B; 0x254B;
  0x2520; 0x252F; 0x2528; 0x2537; 0x253F; 0x251D; 0x2530; 0x2525;
  0x2538; 0x2542; 0xFFFD; 0xFFFD; 0xFFFD; 0xFFFD; 0xFFFD; 0xFFFD;
  0xFFFD; 0xFFFD; 0xFFFD; 0xFFFD; 0xFFFD; 0xFFFD; 0xFFFD; 0xFFFD;
  0xFFFD; 0xFFFD; 0xFFFD; 0xFFFD; 0xFFFD; 0xFFFD; 0xFFFD; 0xFFFD;
  0xFFFD; 0xFFFD; 0xFFFD; 0xFFFD; 0xFFFD; 0xFFFD; 0xFFFD; 0xFFFD;
  0xFFFD; 0xFFFD; 0xFFFD; 0xFFFD; 0xFFFD; 0xFFFD; 0xFFFD; 0xFFFD;
  0xFFFD; 0xFFFD; 0xFFFD; 0xFFFD; 0xFFFD; 0xFFFD; 0xFFFD; 0xFFFD;
  0xFFFD; 0xFFFD; 0xFFFD; 0xFFFD; 0xFFFD; 0xFFFD; 0xFFFD; 0xFFFD;
  0xFFFD; 0xFFFD; 0xFFFD; 0xFFFD; 0xFFFD; 0xFFFD; 0xFFFD; 0xFFFD;
  0xFFFD; 0xFFFD; 0xFFFD; 0xFFFD; 0xFFFD; 0xFFFD; 0xFFFD; 0xFFFD;
  0xFFFD; 0xFFFD; 0xFFFD; 0xFFFD; 0xFFFD; 0xFFFD; 0xFFFD; 0xFFFD
].
(* src/generated/whatwg/shiftjis_whatwg_tables.rs.inc:4-1393 DECODE_TABLE, entries 768..1023 *)
Definition sjis_decode_table_3 : list N := [
  0xFFFD; 0xFFFD; 0xFFFD; 0xFFFD; 0xFFFD; 0xFFFD; 0xFFFD; 0xFFFD;
  0xFFFD; 0xFFFD; 0xFFFD; 0xFFFD; 0xFFFD; 0xFFFD; 0xFFFD; 0xFFFD;
  0xFFFD; 0xFFFD; 0xFFFD; 0xFFFD; 0xFFFD; 0xFFFD; 0xFFFD; 0xFFFD;
  0xFFFD; 0xFFFD; 0xFFFD; 0xFFFD; 0xFFFD; 0xFFFD; 0xFFFD; 0xFFFD;
  0xFFFD; 0xFFFD; 0xFFFD; 0xFFFD; 0xFFFD; 0xFFFD; 0xFFFD; 0xFFFD;
  0xFFFD; 0xFFFD; 0xFFFD; 0xFFFD; 0xFFFD; 0xFFFD; 0xFFFD; 0xFFFD;
  0xFFFD; 0xFFFD; 0xFFFD; 0xFFFD; 0xFFFD; 0xFFFD; 0xFFFD; 0xFFFD;
  0xFFFD; 0xFFFD; 0xFFFD; 0xFFFD; 0xFFFD; 0xFFFD; 0xFFFD; 0xFFFD;
  0xFFFD; 0xFFFD; 0xFFFD; 0xFFFD; 0xFFFD; 0xFFFD; 0xFFFD; 0xFFFD;
  0xFFFD; 0xFFFD; 0xFFFD; 0xFFFD; 0xFFFD; 0xFFFD; 0xFFFD; 0xFFFD;
  0xFFFD; 0xFFFD; 0xFFFD; 0xFFFD; 0xFFFD; 0xFFFD; 0xFFFD; 0xFFFD;
  0xFFFD; 0xFFFD; 0xFFFD; 0xFFFD; 0xFFFD; 0xFFFD; 0xFFFD; 0xFFFD;
  0xFFFD; 0xFFFD; 0xFFFD; 0xFFFD; 0xFFFD; 0xFFFD; 0xFFFD; 0xFFFD;
  0xFFFD; 0xFFFD; 0xFFFD; 0xFFFD; 0xFFFD; 0xFFFD; 0xFFFD; 0xFFFD;
  0xFFFD; 0xFFFD; 0xFFFD; 0xFFFD; 0xFFFD; 0xFFFD; 0xFFFD; 0xFFFD;
  0xFFFD; 0xFFFD; 0xFFFD; 0xFFFD; 0xFFFD; 0xFFFD; 0xFFFD; 0xFFFD;
  0xFFFD; 0xFFFD; 0xFFFD; 0xFFFD; 0xFFFD; 0xFFFD; 0xFFFD; 0xFFFD;
  0xFFFD; 0xFFFD; 0xFFFD; 0xFFFD; 0xFFFD; 0xFFFD; 0xFFFD; 0xFFFD;
  0xFFFD; 0xFFFD; 0xFFFD; 0xFFFD; 0xFFFD; 0xFFFD; 0xFFFD; 0xFFFD;
  0xFFFD; 0xFFFD; 0xFFFD; 0xFFFD; 0xFFFD; 0xFFFD; 0xFFFD; 0xFFFD;
  0xFFFD; 0xFFFD; 0xFFFD; 0xFFFD; 0xFFFD; 0xFFFD; 0xFFFD; 0xFFFD;
  0xFFFD; 0xFFFD; 0xFFFD; 0xFFFD; 0xFFFD; 0xFFFD; 0xFFFD; 0xFFFD;
  0xFFFD; 0xFFFD; 0xFFFD; 0xFFFD; 0xFFFD; 0xFFFD; 0xFFFD; 0xFFFD;
  0xFFFD; 0xFFFD; 0xFFFD; 0xFFFD; 0xFFFD; 0xFFFD; 0xFFFD; 0xFFFD;
  0xFFFD; 0xFFFD; 0xFFFD; 0xFFFD; 0xFFFD; 0xFFFD; 0xFFFD; 0xFFFD;
  0xFFFD; 0xFFFD; 0xFFFD; 0xFFFD; 0xFFFD; 0xFFFD; 0xFFFD; 0xFFFD;
  0xFFFD; 0xFFFD; 0xFFFD; 0xFFFD; 0xFFFD; 0xFFFD; 0xFFFD; 0xFFFD;
  0xFFFD; 0xFFFD; 0xFFFD; 0xFFFD; 0xFFFD; 0xFFFD; 0xFFFD; 0xFFFD;
  0xFFFD; 0xFFFD; 0xFFFD; 0xFFFD; 0xFFFD; 0xFFFD; 0xFFFD; 0xFFFD;
  0xFFFD; 0xFFFD; 0xFFFD; 0xFFFD; 0xFFFD; 0xFFFD; 0xFFFD; 0xFFFD;
  0xFFFD; 0xFFFD; 0xFFFD; 0xFFFD; 0xFFFD; 0xFFFD; 0xFFFD; 0xFFFD;
  0xFFFD; 0xFFFD; 0xFFFD; 0xFFFD; 0xFFFD; 0xFFFD; 0xFFFD; 0xFFFD
].
(* src/generated/whatwg/shiftjis_whatwg_tables.rs.inc:4-1393 DECODE_TABLE, entries 1024..1279 *)
Definition sjis_decode_table_4 : list N := [
  0xFFFD; 0xFFFD; 0xFFFD; 0xFFFD; 0xFFFD; 0xFFFD; 0xFFFD; 0xFFFD;
  0xFFFD; 0xFFFD; 0xFFFD; 0xFFFD; 0xFFFD; 0xFFFD; 0xFFFD; 0xFFFD;
  0xFFFD; 0xFFFD; 0xFFFD; 0xFFFD; 0xFFFD; 0xFFFD; 0xFFFD; 0xFFFD;
  0xFFFD; 0xFFFD; 0xFFFD; 0xFFFD; 0xFFFD; 0xFFFD; 0xFFFD; 0xFFFD;
  0xFFFD; 0xFFFD; 0xFFFD; 0xFFFD; 0xFFFD; 0xFFFD; 0xFFFD; 0xFFFD;
  0xFFFD; 0xFFFD; 0xFFFD; 0xFFFD; 0xFFFD; 0xFFFD; 0xFFFD; 0xFFFD;
  0xFFFD; 0xFFFD; 0xFFFD; 0xFFFD; 0xFFFD; 0xFFFD; 0xFFFD; 0xFFFD;
  0xFFFD; 0xFFFD; 0xFFFD; 0xFFFD; 0xFFFD; 0xFFFD; 0xFFFD; 0xFFFD;
  0xFFFD; 0xFFFD; 0xFFFD; 0xFFFD; 0xFFFD; 0xFFFD; 0xFFFD; 0xFFFD;
  0xFFFD; 0xFFFD; 0xFFFD; 0xFFFD; 0xFFFD; 0xFFFD; 0xFFFD; 0xFFFD;
  0xFFFD; 0xFFFD; 0xFFFD; 0xFFFD; 0xFFFD; 0xFFFD; 0xFFFD; 0xFFFD;
  0xFFFD; 0xFFFD; 0xFFFD; 0xFFFD; 0xFFFD; 0xFFFD; 0xFFFD; 0xFFFD;
  0xFFFD; 0xFFFD; 0xFFFD; 0xFFFD; 0xFFFD; 0xFFFD; 0xFFFD; 0xFFFD;
  0x2460; 0x2461; 0x2462; 0x2463; 0x2464; 0x2465; 0x2466; 0x2467;
  0x2468; 0x2469; 0x246A; 0x246B; 0x246C; 0x246D; 0x246E; 0x246F;
  0x2470; 0x2471; 0x2472; 0x2473; 0x2160; 0x2161; 0x2162; 0x2163;
  0x2164; 0x2165; 0x2166; 0x2167; 0x2168; 0x2169; 0xFFFD; 0x3349;
  0x3314; 0x3322; 0x334D; 0x3318; 0x3327; 0x3303; 0x3336; 0x3351;
  0x3357; 0x330D; 0x3326; 0x3323; 0x332B; 0x334A; 0x333B; 0x339C;
  0x339D; 0x339E; 0x338E; 0x338F; 0x33C4; 0x33A1; 0xFFFD; 0xFFFD;
  0xFFFD; 0xFFFD; 0xFFFD; 0xFFFD; 0xFFFD; 0xFFFD; 0x337B; 0x301D;
  0x301F; 0x2116; 0x33CD; 0x2121; 0x32A4; 0x32A5; 0x32A6; 0x32A7;
  0x32A8; 0x3231; 0x3232; 0x3239; 0x337E; 0x337D; 0x337C; 0x2252;
  0x2261; 0x222B; 0x222E; 0x2211; 0x221A; 0x22A5; 0x2220; 0x221F;
  0x22BF; 0x2235; 0x2229; 0x222A; 0xFFFD; 0xFFFD; 0xFFFD; 0xFFFD;
  0xFFFD; 0xFFFD; 0xFFFD; 0xFFFD; 0xFFFD; 0xFFFD; 0xFFFD; 0xFFFD;
  0xFFFD; 0xFFFD; 0xFFFD; 0xFFFD; 0xFFFD; 0xFFFD; 0xFFFD; 0xFFFD;
  0xFFFD; 0xFFFD; 0xFFFD; 0xFFFD; 0xFFFD; 0xFFFD; 0xFFFD; 0xFFFD;
  0xFFFD; 0xFFFD; 0xFFFD; 0xFFFD; 0xFFFD; 0xFFFD; 0xFFFD; 0xFFFD;
  0xFFFD; 0xFFFD; 0xFFFD; 0xFFFD; 0xFFFD; 0xFFFD; 0xFFFD; 0xFFFD;
  0xFFFD; 0xFFFD; 0xFFFD; 0xFFFD; 0xFFFD; 0xFFFD; 0xFFFD; 0xFFFD;
  0xFFFD; 0xFFFD; 0xFFFD; 0xFFFD; 0xFFFD; 0xFFFD; 0xFFFD; 0xFFFD
].
(* src/generated/whatwg/shiftjis_whatwg_tables.rs.inc:4-1393 DECODE_TABLE, entries 1280..1535 *)
Definition sjis_decode_table_5 : list N := [
  0xFFFD; 0xFFFD; 0xFFFD; 0xFFFD; 0xFFFD; 0xFFFD; 0xFFFD; 0xFFFD;
  0xFFFD; 0xFFFD; 0xFFFD; 0xFFFD; 0xFFFD; 0xFFFD; 0xFFFD; 0xFFFD;
  0xFFFD; 0xFFFD; 0xFFFD; 0xFFFD; 0xFFFD; 0xFFFD; 0xFFFD; 0xFFFD;
  0xFFFD; 0xFFFD; 0xFFFD; 0xFFFD; 0xFFFD; 0xFFFD; 0xFFFD; 0xFFFD;
  0xFFFD; 0xFFFD; 0xFFFD; 0xFFFD; 0xFFFD; 0xFFFD; 0xFFFD; 0xFFFD;
  0xFFFD; 0xFFFD; 0xFFFD; 0xFFFD; 0xFFFD; 0xFFFD; 0xFFFD; 0xFFFD;
  0xFFFD; 0xFFFD; 0xFFFD; 0xFFFD; 0xFFFD; 0xFFFD; 0xFFFD; 0xFFFD;
  0xFFFD; 0xFFFD; 0xFFFD; 0xFFFD; 0xFFFD; 0xFFFD; 0xFFFD; 0xFFFD;
  0xFFFD; 0xFFFD; 0xFFFD; 0xFFFD; 0xFFFD; 0xFFFD; 0xFFFD; 0xFFFD;
  0xFFFD; 0xFFFD; 0xFFFD; 0xFFFD; 0xFFFD; 0xFFFD; 0xFFFD; 0xFFFD;
  0xFFFD; 0xFFFD; 0xFFFD; 0xFFFD; 0xFFFD; 0xFFFD; 0xFFFD; 0xFFFD;
  0xFFFD; 0xFFFD; 0xFFFD; 0xFFFD; 0xFFFD; 0xFFFD; 0xFFFD; 0xFFFD;
  0xFFFD; 0xFFFD; 0xFFFD; 0xFFFD; 0xFFFD; 0xFFFD; 0xFFFD; 0xFFFD;
  0xFFFD; 0xFFFD; 0xFFFD; 0xFFFD; 0xFFFD; 0xFFFD; 0xFFFD; 0xFFFD;
  0xFFFD; 0xFFFD; 0xFFFD; 0xFFFD; 0xFFFD; 0xFFFD; 0xFFFD; 0xFFFD;
  0xFFFD; 0xFFFD; 0xFFFD; 0xFFFD; 0xFFFD; 0xFFFD; 0xFFFD; 0xFFFD;
  0xFFFD; 0xFFFD; 0x4E9C; 0x5516; 0x5A03; 0x963F; 0x54C0; 0x611B;
  0x6328; 0x59F6; 0x9022; 0x8475; 0x831C; 0x7A50; 0x60AA; 0x63E1;
  0x6E25; 0x65ED; 0x8466; 0x82A6; 0x9BF5; 0x6893; 0x5727; 0x65A1;
  0x6271; 0x5B9B; 0x59D0; 0x867B; 0x98F4; 0x7D62; 0x7DBE; 0x9B8E;
  0x6216; 0x7C9F; 0x88B7; 0x5B89; 0x5EB5; 0x6309; 0x6697; 0x6848;
  0x95C7; 0x978D; 0x674F; 0x4EE5; 0x4F0A; 0x4F4D; 0x4F9D; 0x5049;
  0x56F2; 0x5937; 0x59D4; 0x5A01; 0x5C09; 0x60DF; 0x610F; 0x6170;
  0x6613; 0x6905; 0x70BA; 0x754F; 0x7570; 0x79FB; 0x7DAD; 0x7DEF;
  0x80C3; 0x840E; 0x8863; 0x8B02; 0x9055; 0x907A; 0x533B; 0x4E95;
  0x4EA5; 0x57DF; 0x80B2; 0x90C1; 0x78EF; 0x4E00; 0x58F1; 0x6EA2;
  0x9038; 0x7A32; 0x8328; 0x828B; 0x9C2F; 0x5141; 0x5370; 0x54BD;
  0x54E1; 0x56E0; 0x59FB; 0x5F15; 0x98F2; 0x6DEB; 0x80E4; 0x852D;
  0x9662; 0x9670; 0x96A0; 0x97FB; 0x540B; 0x53F3; 0x5B87; 0x70CF;
  0x7FBD; 0x8FC2; 0x96E8; 0x536F; 0x9D5C; 0x7ABA; 0x4E11; 0x7893;
  0x81FC; 0x6E26; 0x5618; 0x5504; 0x6B1D; 0x851A; 0x9C3B; 0x59E5;
  0x53A9; 0x6D66; 0x74DC; 0x958F; 0x5642; 0x4E91; 0x904B; 0x96F2
].
(* src/generated/whatwg/shiftjis_whatwg_tables.rs.inc:4-1393 DECODE_TABLE, entries 1536..1791 *)
Definition sjis_decode_table_6 : list N := [
  0x834F; 0x990C; 0x53E1; 0x55B6; 0x5B30; 0x5F71; 0x6620; 0x66F3;
  0x6804; 0x6C38; 0x6CF3; 0x6D29; 0x745B; 0x76C8; 0x7A4E; 0x9834;
  0x82F1; 0x885B; 0x8A60; 0x92ED; 0x6DB2; 0x75AB; 0x76CA; 0x99C5;
  0x60A6; 0x8B01; 0x8D8A; 0x95B2; 0x698E; 0x53AD; 0x5186; 0x5712;
  0x5830; 0x5944; 0x5BB4; 0x5EF6; 0x6028; 0x63A9; 0x63F4; 0x6CBF;
  0x6F14; 0x708E; 0x7114; 0x7159; 0x71D5; 0x733F; 0x7E01; 0x8276;
  0x82D1; 0x8597; 0x9060; 0x925B; 0x9D1B; 0x5869; 0x65BC; 0x6C5A;
  0x7525; 0x51F9; 0x592E; 0x5965; 0x5F80; 0x5FDC; 0x62BC; 0x65FA;
  0x6A2A; 0x6B27; 0x6BB4; 0x738B; 0x7FC1; 0x8956; 0x9D2C; 0x9D0E;
  0x9EC4; 0x5CA1; 0x6C96; 0x837B; 0x5104; 0x5C4B; 0x61B6; 0x81C6;
  0x6876; 0x7261; 0x4E59; 0x4FFA; 0x5378; 0x6069; 0x6E29; 0x7A4F;
  0x97F3; 0x4E0B; 0x5316; 0x4EEE; 0x4F55; 0x4F3D; 0x4FA1; 0x4F73;
  0x52A0; 0x53EF; 0x5609; 0x590F; 0x5AC1; 0x5BB6; 0x5BE1; 0x79D1;
  0x6687; 0x679C; 0x67B6; 0x6B4C; 0x6CB3; 0x706B; 0x73C2; 0x798D;
  0x79BE; 0x7A3C; 0x7B87; 0x82B1; 0x82DB; 0x8304; 0x8377; 0x83EF;
  0x83D3; 0x8766; 0x8AB2; 0x5629; 0x8CA8; 0x8FE6; 0x904E; 0x971E;
  0x868A; 0x4FC4; 0x5CE8; 0x6211; 0x7259; 0x753B; 0x81E5; 0x82BD;
  0x86FE; 0x8CC0; 0x96C5; 0x9913; 0x99D5; 0x4ECB; 0x4F1A; 0x89E3;
  0x56DE; 0x584A; 0x58CA; 0x5EFB; 0x5FEB; 0x602A; 0x6094; 0x6062;
  0x61D0; 0x6212; 0x62D0; 0x6539; 0x9B41; 0x6666; 0x68B0; 0x6D77;
  0x7070; 0x754C; 0x7686; 0x7D75; 0x82A5; 0x87F9; 0x958B; 0x968E;
  0x8C9D; 0x51F1; 0x52BE; 0x5916; 0x54B3; 0x5BB3; 0x5D16; 0x6168;
  0x6982; 0x6DAF; 0x788D; 0x84CB; 0x8857; 0x8A72; 0x93A7; 0x9AB8;
  0x6D6C; 0x99A8; 0x86D9; 0x57A3; 0x67FF; 0x86CE; 0x920E; 0x5283;
  0x5687; 0x5404; 0x5ED3; 0x62E1; 0x64B9; 0x683C; 0x6838; 0x6BBB;
  0x7372; 0x78BA; 0x7A6B; 0x899A; 0x89D2; 0x8D6B; 0x8F03; 0x90ED;
  0x95A3; 0x9694; 0x9769; 0x5B66; 0x5CB3; 0x697D; 0x984D; 0x984E;
  0x639B; 0x7B20; 0x6A2B; 0x6A7F; 0x68B6; 0x9C0D; 0x6F5F; 0x5272;
  0x559D; 0x6070; 0x62EC; 0x6D3B; 0x6E07; 0x6ED1; 0x845B; 0x8910;
  0x8F44; 0x4E14; 0x9C39; 0x53F6; 0x691B; 0x6A3A; 0x9784; 0x682A;
  0x515C; 0x7AC3; 0x84B2; 0x91DC; 0x938C; 0x565B; 0x9D28; 0x6822;
  0x8305; 0x8431; 0x7CA5; 0x5208; 0x82C5; 0x74E6; 0x4E7E; 0x4F83
].
(* src/generated/whatwg/shiftjis_whatwg_tables.rs.inc:4-1393 DECODE_TABLE, entries 1792..2047 *)
Definition sjis_decode_table_7 : list N := [
  0x51A0; 0x5BD2; 0x520A; 0x52D8; 0x52E7; 0x5DFB; 0x559A; 0x582A;
  0x59E6; 0x5B8C; 0x5B98; 0x5BDB; 0x5E72; 0x5E79; 0x60A3; 0x611F;
  0x6163; 0x61BE; 0x63DB; 0x6562; 0x67D1; 0x6853; 0x68FA; 0x6B3E;
  0x6B53; 0x6C57; 0x6F22; 0x6F97; 0x6F45; 0x74B0; 0x7518; 0x76E3;
  0x770B; 0x7AFF; 0x7BA1; 0x7C21; 0x7DE9; 0x7F36; 0x7FF0; 0x809D;
  0x8266; 0x839E; 0x89B3; 0x8ACC; 0x8CAB; 0x9084; 0x9451; 0x9593;
  0x9591; 0x95A2; 0x9665; 0x97D3; 0x9928; 0x8218; 0x4E38; 0x542B;
  0x5CB8; 0x5DCC; 0x73A9; 0x764C; 0x773C; 0x5CA9; 0x7FEB; 0x8D0B;
  0x96C1; 0x9811; 0x9854; 0x9858; 0x4F01; 0x4F0E; 0x5371; 0x559C;
  0x5668; 0x57FA; 0x5947; 0x5B09; 0x5BC4; 0x5C90; 0x5E0C; 0x5E7E;
  0x5FCC; 0x63EE; 0x673A; 0x65D7; 0x65E2; 0x671F; 0x68CB; 0x68C4;
  0x6A5F; 0x5E30; 0x6BC5; 0x6C17; 0x6C7D; 0x757F; 0x7948; 0x5B63;
  0x7A00; 0x7D00; 0x5FBD; 0x898F; 0x8A18; 0x8CB4; 0x8D77; 0x8ECC;
  0x8F1D; 0x98E2; 0x9A0E; 0x9B3C; 0x4E80; 0x507D; 0x5100; 0x5993;
  0x5B9C; 0x622F; 0x6280; 0x64EC; 0x6B3A; 0x72A0; 0x7591; 0x7947;
  0x7FA9; 0x87FB; 0x8ABC; 0x8B70; 0x63AC; 0x83CA; 0x97A0; 0x5409;
  0x5403; 0x55AB; 0x6854; 0x6A58; 0x8A70; 0x7827; 0x6775; 0x9ECD;
  0x5374; 0x5BA2; 0x811A; 0x8650; 0x9006; 0x4E18; 0x4E45; 0x4EC7;
  0x4F11; 0x53CA; 0x5438; 0x5BAE; 0x5F13; 0x6025; 0x6551; 0x673D;
  0x6C42; 0x6C72; 0x6CE3; 0x7078; 0x7403; 0x7A76; 0x7AAE; 0x7B08;
  0x7D1A; 0x7CFE; 0x7D66; 0x65E7; 0x725B; 0x53BB; 0x5C45; 0x5DE8;
  0x62D2; 0x62E0; 0x6319; 0x6E20; 0x865A; 0x8A31; 0x8DDD; 0x92F8;
  0x6F01; 0x79A6; 0x9B5A; 0x4EA8; 0x4EAB; 0x4EAC; 0x4F9B; 0x4FA0;
  0x50D1; 0x5147; 0x7AF6; 0x5171; 0x51F6; 0x5354; 0x5321; 0x537F;
  0x53EB; 0x55AC; 0x5883; 0x5CE1; 0x5F37; 0x5F4A; 0x602F; 0x6050;
  0x606D; 0x631F; 0x6559; 0x6A4B; 0x6CC1; 0x72C2; 0x72ED; 0x77EF;
  0x80F8; 0x8105; 0x8208; 0x854E; 0x90F7; 0x93E1; 0x97FF; 0x9957;
  0x9A5A; 0x4EF0; 0x51DD; 0x5C2D; 0x6681; 0x696D; 0x5C40; 0x66F2;
  0x6975; 0x7389; 0x6850; 0x7C81; 0x50C5; 0x52E4; 0x5747; 0x5DFE;
  0x9326; 0x65A4; 0x6B23; 0x6B3D; 0x7434; 0x7981; 0x79BD; 0x7B4B;
  0x7DCA; 0x82B9; 0x83CC; 0x887F; 0x895F; 0x8B39; 0x8FD1; 0x91D1;
  0x541F; 0x9280; 0x4E5D; 0x5036; 0x53E5; 0x533A; 0x72D7; 0x7396
].
(* src/generated/whatwg/shiftjis_whatwg_tables.rs.inc:4-1393 DECODE_TABLE, entries 2048..2303 *)
Definition sjis_decode_table_8 : list N := [
  0x77E9; 0x82E6; 0x8EAF; 0x99C6; 0x99C8; 0x99D2; 0x5177; 0x611A;
  0x865E; 0x55B0; 0x7A7A; 0x5076; 0x5BD3; 0x9047; 0x9685; 0x4E32;
  0x6ADB; 0x91E7; 0x5C51; 0x5C48; 0x6398; 0x7A9F; 0x6C93; 0x9774;
  0x8F61; 0x7AAA; 0x718A; 0x9688; 0x7C82; 0x6817; 0x7E70; 0x6851;
  0x936C; 0x52F2; 0x541B; 0x85AB; 0x8A13; 0x7FA4; 0x8ECD; 0x90E1;
  0x5366; 0x8888; 0x7941; 0x4FC2; 0x50BE; 0x5211; 0x5144; 0x5553;
  0x572D; 0x73EA; 0x578B; 0x5951; 0x5F62; 0x5F84; 0x6075; 0x6176;
  0x6167; 0x61A9; 0x63B2; 0x643A; 0x656C; 0x666F; 0x6842; 0x6E13;
  0x7566; 0x7A3D; 0x7CFB; 0x7D4C; 0x7D99; 0x7E4B; 0x7F6B; 0x830E;
  0x834A; 0x86CD; 0x8A08; 0x8A63; 0x8B66; 0x8EFD; 0x981A; 0x9D8F;
  0x82B8; 0x8FCE; 0x9BE8; 0x5287; 0x621F; 0x6483; 0x6FC0; 0x9699;
  0x6841; 0x5091; 0x6B20; 0x6C7A; 0x6F54; 0x7A74; 0x7D50; 0x8840;
  0x8A23; 0x6708; 0x4EF6; 0x5039; 0x5026; 0x5065; 0x517C; 0x5238;
  0x5263; 0x55A7; 0x570F; 0x5805; 0x5ACC; 0x5EFA; 0x61B2; 0x61F8;
  0x62F3; 0x6372; 0x691C; 0x6A29; 0x727D; 0x72AC; 0x732E; 0x7814;
  0x786F; 0x7D79; 0x770C; 0x80A9; 0x898B; 0x8B19; 0x8CE2; 0x8ED2;
  0x9063; 0x9375; 0x967A; 0x9855; 0x9A13; 0x9E78; 0x5143; 0x539F;
  0x53B3; 0x5E7B; 0x5F26; 0x6E1B; 0x6E90; 0x7384; 0x73FE; 0x7D43;
  0x8237; 0x8A00; 0x8AFA; 0x9650; 0x4E4E; 0x500B; 0x53E4; 0x547C;
  0x56FA; 0x59D1; 0x5B64; 0x5DF1; 0x5EAB; 0x5F27; 0x6238; 0x6545;
  0x67AF; 0x6E56; 0x72D0; 0x7CCA; 0x88B4; 0x80A1; 0x80E1; 0x83F0;
  0x864E; 0x8A87; 0x8DE8; 0x9237; 0x96C7; 0x9867; 0x9F13; 0x4E94;
  0x4E92; 0x4F0D; 0x5348; 0x5449; 0x543E; 0x5A2F; 0x5F8C; 0x5FA1;
  0x609F; 0x68A7; 0x6A8E; 0x745A; 0x7881; 0x8A9E; 0x8AA4; 0x8B77;
  0x9190; 0x4E5E; 0x9BC9; 0x4EA4; 0x4F7C; 0x4FAF; 0x5019; 0x5016;
  0x5149; 0x516C; 0x529F; 0x52B9; 0x52FE; 0x539A; 0x53E3; 0x5411;
  0x540E; 0x5589; 0x5751; 0x57A2; 0x597D; 0x5B54; 0x5B5D; 0x5B8F;
  0x5DE5; 0x5DE7; 0x5DF7; 0x5E78; 0x5E83; 0x5E9A; 0x5EB7; 0x5F18;
  0x6052; 0x614C; 0x6297; 0x62D8; 0x63A7; 0x653B; 0x6602; 0x6643;
  0x66F4; 0x676D; 0x6821; 0x6897; 0x69CB; 0x6C5F; 0x6D2A; 0x6D69;
  0x6E2F; 0x6E9D; 0x7532; 0x7687; 0x786C; 0x7A3F; 0x7CE0; 0x7D05;
  0x7D18; 0x7D5E; 0x7DB1; 0x8015; 0x8003; 0x80AF; 0x80B1; 0x8154
].
(* src/generated/whatwg/shiftjis_whatwg_tables.rs.inc:4-1393 DECODE_TABLE, entries 2304..2559 *)
Definition sjis_decode_table_9 : list N := [
  0x818F; 0x822A; 0x8352; 0x884C; 0x8861; 0x8B1B; 0x8CA2; 0x8CFC;
  0x90CA; 0x9175; 0x9271; 0x783F; 0x92FC; 0x95A4; 0x964D; 0x9805;
  0x9999; 0x9AD8; 0x9D3B; 0x525B; 0x52AB; 0x53F7; 0x5408; 0x58D5;
  0x62F7; 0x6FE0; 0x8C6A; 0x8F5F; 0x9EB9; 0x514B; 0x523B; 0x544A;
  0x56FD; 0x7A40; 0x9177; 0x9D60; 0x9ED2; 0x7344; 0x6F09; 0x8170;
  0x7511; 0x5FFD; 0x60DA; 0x9AA8; 0x72DB; 0x8FBC; 0x6B64; 0x9803;
  0x4ECA; 0x56F0; 0x5764; 0x58BE; 0x5A5A; 0x6068; 0x61C7; 0x660F;
  0x6606; 0x6839; 0x68B1; 0x6DF7; 0x75D5; 0x7D3A; 0x826E; 0x9B42;
  0x4E9B; 0x4F50; 0x53C9; 0x5506; 0x5D6F; 0x5DE6; 0x5DEE; 0x67FB;
  0x6C99; 0x7473; 0x7802; 0x8A50; 0x9396; 0x88DF; 0x5750; 0x5EA7;
  0x632B; 0x50B5; 0x50AC; 0x518D; 0x6700; 0x54C9; 0x585E; 0x59BB;
  0x5BB0; 0x5F69; 0x624D; 0x63A1; 0x683D; 0x6B73; 0x6E08; 0x707D;
  0x91C7; 0x7280; 0x7815; 0x7826; 0x796D; 0x658E; 0x7D30; 0x83DC;
  0x88C1; 0x8F09; 0x969B; 0x5264; 0x5728; 0x6750; 0x7F6A; 0x8CA1;
  0x51B4; 0x5742; 0x962A; 0x583A; 0x698A; 0x80B4; 0x54B2; 0x5D0E;
  0x57FC; 0x7895; 0x9DFA; 0x4F5C; 0x524A; 0x548B; 0x643E; 0x6628;
  0x6714; 0x67F5; 0x7A84; 0x7B56; 0x7D22; 0x932F; 0x685C; 0x9BAD;
  0x7B39; 0x5319; 0x518A; 0x5237; 0x5BDF; 0x62F6; 0x64AE; 0x64E6;
  0x672D; 0x6BBA; 0x85A9; 0x96D1; 0x7690; 0x9BD6; 0x634C; 0x9306;
  0x9BAB; 0x76BF; 0x6652; 0x4E09; 0x5098; 0x53C2; 0x5C71; 0x60E8;
  0x6492; 0x6563; 0x685F; 0x71E6; 0x73CA; 0x7523; 0x7B97; 0x7E82;
  0x8695; 0x8B83; 0x8CDB; 0x9178; 0x9910; 0x65AC; 0x66AB; 0x6B8B;
  0x4ED5; 0x4ED4; 0x4F3A; 0x4F7F; 0x523A; 0x53F8; 0x53F2; 0x55E3;
  0x56DB; 0x58EB; 0x59CB; 0x59C9; 0x59FF; 0x5B50; 0x5C4D; 0x5E02;
  0x5E2B; 0x5FD7; 0x601D; 0x6307; 0x652F; 0x5B5C; 0x65AF; 0x65BD;
  0x65E8; 0x679D; 0x6B62; 0x6B7B; 0x6C0F; 0x7345; 0x7949; 0x79C1;
  0x7CF8; 0x7D19; 0x7D2B; 0x80A2; 0x8102; 0x81F3; 0x8996; 0x8A5E;
  0x8A69; 0x8A66; 0x8A8C; 0x8AEE; 0x8CC7; 0x8CDC; 0x96CC; 0x98FC;
  0x6B6F; 0x4E8B; 0x4F3C; 0x4F8D; 0x5150; 0x5B57; 0x5BFA; 0x6148;
  0x6301; 0x6642; 0x6B21; 0x6ECB; 0x6CBB; 0x723E; 0x74BD; 0x75D4;
  0x78C1; 0x793A; 0x800C; 0x8033; 0x81EA; 0x8494; 0x8F9E; 0x6C50;
  0x9E7F; 0x5F0F; 0x8B58; 0x9D2B; 0x7AFA; 0x8EF8; 0x5B8D; 0x96EB
].
(* src/generated/whatwg/shiftjis_whatwg_tables.rs.inc:4-1393 DECODE_TABLE, entries 2560..2815 *)
Definition sjis_decode_table_10 : list N := [
  0x4E03; 0x53F1; 0x57F7; 0x5931; 0x5AC9; 0x5BA4; 0x6089; 0x6E7F;
  0x6F06; 0x75BE; 0x8CEA; 0x5B9F; 0x8500; 0x7BE0; 0x5072; 0x67F4;
  0x829D; 0x5C61; 0x854A; 0x7E1E; 0x820E; 0x5199; 0x5C04; 0x6368;
  0x8D66; 0x659C; 0x716E; 0x793E; 0x7D17; 0x8005; 0x8B1D; 0x8ECA;
  0x906E; 0x86C7; 0x90AA; 0x501F; 0x52FA; 0x5C3A; 0x6753; 0x707C;
  0x7235; 0x914C; 0x91C8; 0x932B; 0x82E5; 0x5BC2; 0x5F31; 0x60F9;
  0x4E3B; 0x53D6; 0x5B88; 0x624B; 0x6731; 0x6B8A; 0x72E9; 0x73E0;
  0x7A2E; 0x816B; 0x8DA3; 0x9152; 0x9996; 0x5112; 0x53D7; 0x546A;
  0x5BFF; 0x6388; 0x6A39; 0x7DAC; 0x9700; 0x56DA; 0x53CE; 0x5468;
  0x5B97; 0x5C31; 0x5DDE; 0x4FEE; 0x6101; 0x62FE; 0x6D32; 0x79C0;
  0x79CB; 0x7D42; 0x7E4D; 0x7FD2; 0x81ED; 0x821F; 0x8490; 0x8846;
  0x8972; 0x8B90; 0x8E74; 0x8F2F; 0x9031; 0x914B; 0x916C; 0x96C6;
  0x919C; 0x4EC0; 0x4F4F; 0x5145; 0x5341; 0x5F93; 0x620E; 0x67D4;
  0x6C41; 0x6E0B; 0x7363; 0x7E26; 0x91CD; 0x9283; 0x53D4; 0x5919;
  0x5BBF; 0x6DD1; 0x795D; 0x7E2E; 0x7C9B; 0x587E; 0x719F; 0x51FA;
  0x8853; 0x8FF0; 0x4FCA; 0x5CFB; 0x6625; 0x77AC; 0x7AE3; 0x821C;
  0x99FF; 0x51C6; 0x5FAA; 0x65EC; 0x696F; 0x6B89; 0x6DF3; 0x6E96;
  0x6F64; 0x76FE; 0x7D14; 0x5DE1; 0x9075; 0x9187; 0x9806; 0x51E6;
  0x521D; 0x6240; 0x6691; 0x66D9; 0x6E1A; 0x5EB6; 0x7DD2; 0x7F72;
  0x66F8; 0x85AF; 0x85F7; 0x8AF8; 0x52A9; 0x53D9; 0x5973; 0x5E8F;
  0x5F90; 0x6055; 0x92E4; 0x9664; 0x50B7; 0x511F; 0x52DD; 0x5320;
  0x5347; 0x53EC; 0x54E8; 0x5546; 0x5531; 0x5617; 0x5968; 0x59BE;
  0x5A3C; 0x5BB5; 0x5C06; 0x5C0F; 0x5C11; 0x5C1A; 0x5E84; 0x5E8A;
  0x5EE0; 0x5F70; 0x627F; 0x6284; 0x62DB; 0x638C; 0x6377; 0x6607;
  0x660C; 0x662D; 0x6676; 0x677E; 0x68A2; 0x6A1F; 0x6A35; 0x6CBC;
  0x6D88; 0x6E09; 0x6E58; 0x713C; 0x7126; 0x7167; 0x75C7; 0x7701;
  0x785D; 0x7901; 0x7965; 0x79F0; 0x7AE0; 0x7B11; 0x7CA7; 0x7D39;
  0x8096; 0x83D6; 0x848B; 0x8549; 0x885D; 0x88F3; 0x8A1F; 0x8A3C;
  0x8A54; 0x8A73; 0x8C61; 0x8CDE; 0x91A4; 0x9266; 0x937E; 0x9418;
  0x969C; 0x9798; 0x4E0A; 0x4E08; 0x4E1E; 0x4E57; 0x5197; 0x5270;
  0x57CE; 0x5834; 0x58CC; 0x5B22; 0x5E38; 0x60C5; 0x64FE; 0x6761;
  0x6756; 0x6D44; 0x72B6; 0x7573; 0x7A63; 0x84B8; 0x8B72; 0x91B8
].
(* src/generated/whatwg/shiftjis_whatwg_tables.rs.inc:4-1393 DECODE_TABLE, entries 2816..3071 *)
Definition sjis_decode_table_11 : list N := [
  0x9320; 0x5631; 0x57F4; 0x98FE; 0x62ED; 0x690D; 0x6B96; 0x71ED;
  0x7E54; 0x8077; 0x8272; 0x89E6; 0x98DF; 0x8755; 0x8FB1; 0x5C3B;
  0x4F38; 0x4FE1; 0x4FB5; 0x5507; 0x5A20; 0x5BDD; 0x5BE9; 0x5FC3;
  0x614E; 0x632F; 0x65B0; 0x664B; 0x68EE; 0x699B; 0x6D78; 0x6DF1;
  0x7533; 0x75B9; 0x771F; 0x795E; 0x79E6; 0x7D33; 0x81E3; 0x82AF;
  0x85AA; 0x89AA; 0x8A3A; 0x8EAB; 0x8F9B; 0x9032; 0x91DD; 0x9707;
  0x4EBA; 0x4EC1; 0x5203; 0x5875; 0x58EC; 0x5C0B; 0x751A; 0x5C3D;
  0x814E; 0x8A0A; 0x8FC5; 0x9663; 0x976D; 0x7B25; 0x8ACF; 0x9808;
  0x9162; 0x56F3; 0x53A8; 0x9017; 0x5439; 0x5782; 0x5E25; 0x63A8;
  0x6C34; 0x708A; 0x7761; 0x7C8B; 0x7FE0; 0x8870; 0x9042; 0x9154;
  0x9310; 0x9318; 0x968F; 0x745E; 0x9AC4; 0x5D07; 0x5D69; 0x6570;
  0x67A2; 0x8DA8; 0x96DB; 0x636E; 0x6749; 0x6919; 0x83C5; 0x9817;
  0x96C0; 0x88FE; 0x6F84; 0x647A; 0x5BF8; 0x4E16; 0x702C; 0x755D;
  0x662F; 0x51C4; 0x5236; 0x52E2; 0x59D3; 0x5F81; 0x6027; 0x6210;
  0x653F; 0x6574; 0x661F; 0x6674; 0x68F2; 0x6816; 0x6B63; 0x6E05;
  0x7272; 0x751F; 0x76DB; 0x7CBE; 0x8056; 0x58F0; 0x88FD; 0x897F;
  0x8AA0; 0x8A93; 0x8ACB; 0x901D; 0x9192; 0x9752; 0x9759; 0x6589;
  0x7A0E; 0x8106; 0x96BB; 0x5E2D; 0x60DC; 0x621A; 0x65A5; 0x6614;
  0x6790; 0x77F3; 0x7A4D; 0x7C4D; 0x7E3E; 0x810A; 0x8CAC; 0x8D64;
  0x8DE1; 0x8E5F; 0x78A9; 0x5207; 0x62D9; 0x63A5; 0x6442; 0x6298;
  0x8A2D; 0x7A83; 0x7BC0; 0x8AAC; 0x96EA; 0x7D76; 0x820C; 0x8749;
  0x4ED9; 0x5148; 0x5343; 0x5360; 0x5BA3; 0x5C02; 0x5C16; 0x5DDD;
  0x6226; 0x6247; 0x64B0; 0x6813; 0x6834; 0x6CC9; 0x6D45; 0x6D17;
  0x67D3; 0x6F5C; 0x714E; 0x717D; 0x65CB; 0x7A7F; 0x7BAD; 0x7DDA;
  0x7E4A; 0x7FA8; 0x817A; 0x821B; 0x8239; 0x85A6; 0x8A6E; 0x8CCE;
  0x8DF5; 0x9078; 0x9077; 0x92AD; 0x9291; 0x9583; 0x9BAE; 0x524D;
  0x5584; 0x6F38; 0x7136; 0x5168; 0x7985; 0x7E55; 0x81B3; 0x7CCE;
  0x564C; 0x5851; 0x5CA8; 0x63AA; 0x66FE; 0x66FD; 0x695A; 0x72D9;
  0x758F; 0x758E; 0x790E; 0x7956; 0x79DF; 0x7C97; 0x7D20; 0x7D44;
  0x8607; 0x8A34; 0x963B; 0x9061; 0x9F20; 0x50E7; 0x5275; 0x53CC;
  0x53E2; 0x5009; 0x55AA; 0x58EE; 0x594F; 0x723D; 0x5B8B; 0x5C64;
  0x531D; 0x60E3; 0x60F3; 0x635C; 0x6383; 0x633F; 0x63BB; 0x64CD
].
(* src/generated/whatwg/shiftjis_whatwg_tables.rs.inc:4-1393 DECODE_TABLE, entries 3072..3327 *)
Definition sjis_decode_table_12 : list N := [
  0x65E9; 0x66F9; 0x5DE3; 0x69CD; 0x69FD; 0x6F15; 0x71E5; 0x4E89;
  0x75E9; 0x76F8; 0x7A93; 0x7CDF; 0x7DCF; 0x7D9C; 0x8061; 0x8349;
  0x8358; 0x846C; 0x84BC; 0x85FB; 0x88C5; 0x8D70; 0x9001; 0x906D;
  0x9397; 0x971C; 0x9A12; 0x50CF; 0x5897; 0x618E; 0x81D3; 0x8535;
  0x8D08; 0x9020; 0x4FC3; 0x5074; 0x5247; 0x5373; 0x606F; 0x6349;
  0x675F; 0x6E2C; 0x8DB3; 0x901F; 0x4FD7; 0x5C5E; 0x8CCA; 0x65CF;
  0x7D9A; 0x5352; 0x8896; 0x5176; 0x63C3; 0x5B58; 0x5B6B; 0x5C0A;
  0x640D; 0x6751; 0x905C; 0x4ED6; 0x591A; 0x592A; 0x6C70; 0x8A51;
  0x553E; 0x5815; 0x59A5; 0x60F0; 0x6253; 0x67C1; 0x8235; 0x6955;
  0x9640; 0x99C4; 0x9A28; 0x4F53; 0x5806; 0x5BFE; 0x8010; 0x5CB1;
  0x5E2F; 0x5F85; 0x6020; 0x614B; 0x6234; 0x66FF; 0x6CF0; 0x6EDE;
  0x80CE; 0x817F; 0x82D4; 0x888B; 0x8CB8; 0x9000; 0x902E; 0x968A;
  0x9EDB; 0x9BDB; 0x4EE3; 0x53F0; 0x5927; 0x7B2C; 0x918D; 0x984C;
  0x9DF9; 0x6EDD; 0x7027; 0x5353; 0x5544; 0x5B85; 0x6258; 0x629E;
  0x62D3; 0x6CA2; 0x6FEF; 0x7422; 0x8A17; 0x9438; 0x6FC1; 0x8AFE;
  0x8338; 0x51E7; 0x86F8; 0x53EA; 0x53E9; 0x4F46; 0x9054; 0x8FB0;
  0x596A; 0x8131; 0x5DFD; 0x7AEA; 0x8FBF; 0x68DA; 0x8C37; 0x72F8;
  0x9C48; 0x6A3D; 0x8AB0; 0x4E39; 0x5358; 0x5606; 0x5766; 0x62C5;
  0x63A2; 0x65E6; 0x6B4E; 0x6DE1; 0x6E5B; 0x70AD; 0x77ED; 0x7AEF;
  0x7BAA; 0x7DBB; 0x803D; 0x80C6; 0x86CB; 0x8A95; 0x935B; 0x56E3;
  0x58C7; 0x5F3E; 0x65AD; 0x6696; 0x6A80; 0x6BB5; 0x7537; 0x8AC7;
  0x5024; 0x77E5; 0x5730; 0x5F1B; 0x6065; 0x667A; 0x6C60; 0x75F4;
  0x7A1A; 0x7F6E; 0x81F4; 0x8718; 0x9045; 0x99B3; 0x7BC9; 0x755C;
  0x7AF9; 0x7B51; 0x84C4; 0x9010; 0x79E9; 0x7A92; 0x8336; 0x5AE1;
  0x7740; 0x4E2D; 0x4EF2; 0x5B99; 0x5FE0; 0x62BD; 0x663C; 0x67F1;
  0x6CE8; 0x866B; 0x8877; 0x8A3B; 0x914E; 0x92F3; 0x99D0; 0x6A17;
  0x7026; 0x732A; 0x82E7; 0x8457; 0x8CAF; 0x4E01; 0x5146; 0x51CB;
  0x558B; 0x5BF5; 0x5E16; 0x5E33; 0x5E81; 0x5F14; 0x5F35; 0x5F6B;
  0x5FB4; 0x61F2; 0x6311; 0x66A2; 0x671D; 0x6F6E; 0x7252; 0x753A;
  0x773A; 0x8074; 0x8139; 0x8178; 0x8776; 0x8ABF; 0x8ADC; 0x8D85;
  0x8DF3; 0x929A; 0x9577; 0x9802; 0x9CE5; 0x52C5; 0x6357; 0x76F4;
  0x6715; 0x6C88; 0x73CD; 0x8CC3; 0x93AE; 0x9673; 0x6D25; 0x589C
].
(* src/generated/whatwg/shiftjis_whatwg_tables.rs.inc:4-1393 DECODE_TABLE, entries 3328..3583 *)
Definition sjis_decode_table_13 : list N := [
  0x690E; 0x69CC; 0x8FFD; 0x939A; 0x75DB; 0x901A; 0x585A; 0x6802;
  0x63B4; 0x69FB; 0x4F43; 0x6F2C; 0x67D8; 0x8FBB; 0x8526; 0x7DB4;
  0x9354; 0x693F; 0x6F70; 0x576A; 0x58F7; 0x5B2C; 0x7D2C; 0x722A;
  0x540A; 0x91E3; 0x9DB4; 0x4EAD; 0x4F4E; 0x505C; 0x5075; 0x5243;
  0x8C9E; 0x5448; 0x5824; 0x5B9A; 0x5E1D; 0x5E95; 0x5EAD; 0x5EF7;
  0x5F1F; 0x608C; 0x62B5; 0x633A; 0x63D0; 0x68AF; 0x6C40; 0x7887;
  0x798E; 0x7A0B; 0x7DE0; 0x8247; 0x8A02; 0x8AE6; 0x8E44; 0x9013;
  0x90B8; 0x912D; 0x91D8; 0x9F0E; 0x6CE5; 0x6458; 0x64E2; 0x6575;
  0x6EF4; 0x7684; 0x7B1B; 0x9069; 0x93D1; 0x6EBA; 0x54F2; 0x5FB9;
  0x64A4; 0x8F4D; 0x8FED; 0x9244; 0x5178; 0x586B; 0x5929; 0x5C55;
  0x5E97; 0x6DFB; 0x7E8F; 0x751C; 0x8CBC; 0x8EE2; 0x985B; 0x70B9;
  0x4F1D; 0x6BBF; 0x6FB1; 0x7530; 0x96FB; 0x514E; 0x5410; 0x5835;
  0x5857; 0x59AC; 0x5C60; 0x5F92; 0x6597; 0x675C; 0x6E21; 0x767B;
  0x83DF; 0x8CED; 0x9014; 0x90FD; 0x934D; 0x7825; 0x783A; 0x52AA;
  0x5EA6; 0x571F; 0x5974; 0x6012; 0x5012; 0x515A; 0x51AC; 0x51CD;
  0x5200; 0x5510; 0x5854; 0x5858; 0x5957; 0x5B95; 0x5CF6; 0x5D8B;
  0x60BC; 0x6295; 0x642D; 0x6771; 0x6843; 0x68BC; 0x68DF; 0x76D7;
  0x6DD8; 0x6E6F; 0x6D9B; 0x706F; 0x71C8; 0x5F53; 0x75D8; 0x7977;
  0x7B49; 0x7B54; 0x7B52; 0x7CD6; 0x7D71; 0x5230; 0x8463; 0x8569;
  0x85E4; 0x8A0E; 0x8B04; 0x8C46; 0x8E0F; 0x9003; 0x900F; 0x9419;
  0x9676; 0x982D; 0x9A30; 0x95D8; 0x50CD; 0x52D5; 0x540C; 0x5802;
  0x5C0E; 0x61A7; 0x649E; 0x6D1E; 0x77B3; 0x7AE5; 0x80F4; 0x8404;
  0x9053; 0x9285; 0x5CE0; 0x9D07; 0x533F; 0x5F97; 0x5FB3; 0x6D9C;
  0x7279; 0x7763; 0x79BF; 0x7BE4; 0x6BD2; 0x72EC; 0x8AAD; 0x6803;
  0x6A61; 0x51F8; 0x7A81; 0x6934; 0x5C4A; 0x9CF6; 0x82EB; 0x5BC5;
  0x9149; 0x701E; 0x5678; 0x5C6F; 0x60C7; 0x6566; 0x6C8C; 0x8C5A;
  0x9041; 0x9813; 0x5451; 0x66C7; 0x920D; 0x5948; 0x90A3; 0x5185;
  0x4E4D; 0x51EA; 0x8599; 0x8B0E; 0x7058; 0x637A; 0x934B; 0x6962;
  0x99B4; 0x7E04; 0x7577; 0x5357; 0x6960; 0x8EDF; 0x96E3; 0x6C5D;
  0x4E8C; 0x5C3C; 0x5F10; 0x8FE9; 0x5302; 0x8CD1; 0x8089; 0x8679;
  0x5EFF; 0x65E5; 0x4E73; 0x5165; 0x5982; 0x5C3F; 0x97EE; 0x4EFB;
  0x598A; 0x5FCD; 0x8A8D; 0x6FE1; 0x79B0; 0x7962; 0x5BE7; 0x8471
].
(* src/generated/whatwg/shiftjis_whatwg_tables.rs.inc:4-1393 DECODE_TABLE, entries 3584..3839 *)
Definition sjis_decode_table_14 : list N := [
  0x732B; 0x71B1; 0x5E74; 0x5FF5; 0x637B; 0x649A; 0x71C3; 0x7C98;
  0x4E43; 0x5EFC; 0x4E4B; 0x57DC; 0x56A2; 0x60A9; 0x6FC3; 0x7D0D;
  0x80FD; 0x8133; 0x81BF; 0x8FB2; 0x8997; 0x86A4; 0x5DF4; 0x628A;
  0x64AD; 0x8987; 0x6777; 0x6CE2; 0x6D3E; 0x7436; 0x7834; 0x5A46;
  0x7F75; 0x82AD; 0x99AC; 0x4FF3; 0x5EC3; 0x62DD; 0x6392; 0x6557;
  0x676F; 0x76C3; 0x724C; 0x80CC; 0x80BA; 0x8F29; 0x914D; 0x500D;
  0x57F9; 0x5A92; 0x6885; 0x6973; 0x7164; 0x72FD; 0x8CB7; 0x58F2;
  0x8CE0; 0x966A; 0x9019; 0x877F; 0x79E4; 0x77E7; 0x8429; 0x4F2F;
  0x5265; 0x535A; 0x62CD; 0x67CF; 0x6CCA; 0x767D; 0x7B94; 0x7C95;
  0x8236; 0x8584; 0x8FEB; 0x66DD; 0x6F20; 0x7206; 0x7E1B; 0x83AB;
  0x99C1; 0x9EA6; 0x51FD; 0x7BB1; 0x7872; 0x7BB8; 0x8087; 0x7B48;
  0x6AE8; 0x5E61; 0x808C; 0x7551; 0x7560; 0x516B; 0x9262; 0x6E8C;
  0x767A; 0x9197; 0x9AEA; 0x4F10; 0x7F70; 0x629C; 0x7B4F; 0x95A5;
  0x9CE9; 0x567A; 0x5859; 0x86E4; 0x96BC; 0x4F34; 0x5224; 0x534A;
  0x53CD; 0x53DB; 0x5E06; 0x642C; 0x6591; 0x677F; 0x6C3E; 0x6C4E;
  0x7248; 0x72AF; 0x73ED; 0x7554; 0x7E41; 0x822C; 0x85E9; 0x8CA9;
  0x7BC4; 0x91C6; 0x7169; 0x9812; 0x98EF; 0x633D; 0x6669; 0x756A;
  0x76E4; 0x78D0; 0x8543; 0x86EE; 0x532A; 0x5351; 0x5426; 0x5983;
  0x5E87; 0x5F7C; 0x60B2; 0x6249; 0x6279; 0x62AB; 0x6590; 0x6BD4;
  0x6CCC; 0x75B2; 0x76AE; 0x7891; 0x79D8; 0x7DCB; 0x7F77; 0x80A5;
  0x88AB; 0x8AB9; 0x8CBB; 0x907F; 0x975E; 0x98DB; 0x6A0B; 0x7C38;
  0x5099; 0x5C3E; 0x5FAE; 0x6787; 0x6BD8; 0x7435; 0x7709; 0x7F8E;
  0x9F3B; 0x67CA; 0x7A17; 0x5339; 0x758B; 0x9AED; 0x5F66; 0x819D;
  0x83F1; 0x8098; 0x5F3C; 0x5FC5; 0x7562; 0x7B46; 0x903C; 0x6867;
  0x59EB; 0x5A9B; 0x7D10; 0x767E; 0x8B2C; 0x4FF5; 0x5F6A; 0x6A19;
  0x6C37; 0x6F02; 0x74E2; 0x7968; 0x8868; 0x8A55; 0x8C79; 0x5EDF;
  0x63CF; 0x75C5; 0x79D2; 0x82D7; 0x9328; 0x92F2; 0x849C; 0x86ED;
  0x9C2D; 0x54C1; 0x5F6C; 0x658C; 0x6D5C; 0x7015; 0x8CA7; 0x8CD3;
  0x983B; 0x654F; 0x74F6; 0x4E0D; 0x4ED8; 0x57E0; 0x592B; 0x5A66;
  0x5BCC; 0x51A8; 0x5E03; 0x5E9C; 0x6016; 0x6276; 0x6577; 0x65A7;
  0x666E; 0x6D6E; 0x7236; 0x7B26; 0x8150; 0x819A; 0x8299; 0x8B5C;
  0x8CA0; 0x8CE6; 0x8D74; 0x961C; 0x9644; 0x4FAE; 0x64AB; 0x6B66
].
(* src/generated/whatwg/shiftjis_whatwg_tables.rs.inc:4-1393 DECODE_TABLE, entries 3840..4095 *)
Definition sjis_decode_table_15 : list N := [
  0x821E; 0x8461; 0x856A; 0x90E8; 0x5C01; 0x6953; 0x98A8; 0x847A;
  0x8557; 0x4F0F; 0x526F; 0x5FA9; 0x5E45; 0x670D; 0x798F; 0x8179;
  0x8907; 0x8986; 0x6DF5; 0x5F17; 0x6255; 0x6CB8; 0x4ECF; 0x7269;
  0x9B92; 0x5206; 0x543B; 0x5674; 0x58B3; 0x61A4; 0x626E; 0x711A;
  0x596E; 0x7C89; 0x7CDE; 0x7D1B; 0x96F0; 0x6587; 0x805E; 0x4E19;
  0x4F75; 0x5175; 0x5840; 0x5E63; 0x5E73; 0x5F0A; 0x67C4; 0x4E26;
  0x853D; 0x9589; 0x965B; 0x7C73; 0x9801; 0x50FB; 0x58C1; 0x7656;
  0x78A7; 0x5225; 0x77A5; 0x8511; 0x7B86; 0x504F; 0x5909; 0x7247;
  0x7BC7; 0x7DE8; 0x8FBA; 0x8FD4; 0x904D; 0x4FBF; 0x52C9; 0x5A29;
  0x5F01; 0x97AD; 0x4FDD; 0x8217; 0x92EA; 0x5703; 0x6355; 0x6B69;
  0x752B; 0x88DC; 0x8F14; 0x7A42; 0x52DF; 0x5893; 0x6155; 0x620A;
  0x66AE; 0x6BCD; 0x7C3F; 0x83E9; 0x5023; 0x4FF8; 0x5305; 0x5446;
  0x5831; 0x5949; 0x5B9D; 0x5CF0; 0x5CEF; 0x5D29; 0x5E96; 0x62B1;
  0x6367; 0x653E; 0x65B9; 0x670B; 0x6CD5; 0x6CE1; 0x70F9; 0x7832;
  0x7E2B; 0x80DE; 0x82B3; 0x840C; 0x84EC; 0x8702; 0x8912; 0x8A2A;
  0x8C4A; 0x90A6; 0x92D2; 0x98FD; 0x9CF3; 0x9D6C; 0x4E4F; 0x4EA1;
  0x508D; 0x5256; 0x574A; 0x59A8; 0x5E3D; 0x5FD8; 0x5FD9; 0x623F;
  0x66B4; 0x671B; 0x67D0; 0x68D2; 0x5192; 0x7D21; 0x80AA; 0x81A8;
  0x8B00; 0x8C8C; 0x8CBF; 0x927E; 0x9632; 0x5420; 0x982C; 0x5317;
  0x50D5; 0x535C; 0x58A8; 0x64B2; 0x6734; 0x7267; 0x7766; 0x7A46;
  0x91E6; 0x52C3; 0x6CA1; 0x6B86; 0x5800; 0x5E4C; 0x5954; 0x672C;
  0x7FFB; 0x51E1; 0x76C6; 0x6469; 0x78E8; 0x9B54; 0x9EBB; 0x57CB;
  0x59B9; 0x6627; 0x679A; 0x6BCE; 0x54E9; 0x69D9; 0x5E55; 0x819C;
  0x6795; 0x9BAA; 0x67FE; 0x9C52; 0x685D; 0x4EA6; 0x4FE3; 0x53C8;
  0x62B9; 0x672B; 0x6CAB; 0x8FC4; 0x4FAD; 0x7E6D; 0x9EBF; 0x4E07;
  0x6162; 0x6E80; 0x6F2B; 0x8513; 0x5473; 0x672A; 0x9B45; 0x5DF3;
  0x7B95; 0x5CAC; 0x5BC6; 0x871C; 0x6E4A; 0x84D1; 0x7A14; 0x8108;
  0x5999; 0x7C8D; 0x6C11; 0x7720; 0x52D9; 0x5922; 0x7121; 0x725F;
  0x77DB; 0x9727; 0x9D61; 0x690B; 0x5A7F; 0x5A18; 0x51A5; 0x540D;
  0x547D; 0x660E; 0x76DF; 0x8FF7; 0x9298; 0x9CF4; 0x59EA; 0x725D;
  0x6EC5; 0x514D; 0x68C9; 0x7DBF; 0x7DEC; 0x9762; 0x9EBA; 0x6478;
  0x6A21; 0x8302; 0x5984; 0x5B5F; 0x6BDB; 0x731B; 0x76F2; 0x7DB2
].
(* src/generated/whatwg/shiftjis_whatwg_tables.rs.inc:4-1393 DECODE_TABLE, entries 4096..4351 *)
Definition sjis_decode_table_16 : list N := [
  0x8017; 0x8499; 0x5132; 0x6728; 0x9ED9; 0x76EE; 0x6762; 0x52FF;
  0x9905; 0x5C24; 0x623B; 0x7C7E; 0x8CB0; 0x554F; 0x60B6; 0x7D0B;
  0x9580; 0x5301; 0x4E5F; 0x51B6; 0x591C; 0x723A; 0x8036; 0x91CE;
  0x5F25; 0x77E2; 0x5384; 0x5F79; 0x7D04; 0x85AC; 0x8A33; 0x8E8D;
  0x9756; 0x67F3; 0x85AE; 0x9453; 0x6109; 0x6108; 0x6CB9; 0x7652;
  0x8AED; 0x8F38; 0x552F; 0x4F51; 0x512A; 0x52C7; 0x53CB; 0x5BA5;
  0x5E7D; 0x60A0; 0x6182; 0x63D6; 0x6709; 0x67DA; 0x6E67; 0x6D8C;
  0x7336; 0x7337; 0x7531; 0x7950; 0x88D5; 0x8A98; 0x904A; 0x9091;
  0x90F5; 0x96C4; 0x878D; 0x5915; 0x4E88; 0x4F59; 0x4E0E; 0x8A89;
  0x8F3F; 0x9810; 0x50AD; 0x5E7C; 0x5996; 0x5BB9; 0x5EB8; 0x63DA;
  0x63FA; 0x64C1; 0x66DC; 0x694A; 0x69D8; 0x6D0B; 0x6EB6; 0x7194;
  0x7528; 0x7AAF; 0x7F8A; 0x8000; 0x8449; 0x84C9; 0x8981; 0x8B21;
  0x8E0A; 0x9065; 0x967D; 0x990A; 0x617E; 0x6291; 0x6B32; 0x6C83;
  0x6D74; 0x7FCC; 0x7FFC; 0x6DC0; 0x7F85; 0x87BA; 0x88F8; 0x6765;
  0x83B1; 0x983C; 0x96F7; 0x6D1B; 0x7D61; 0x843D; 0x916A; 0x4E71;
  0x5375; 0x5D50; 0x6B04; 0x6FEB; 0x85CD; 0x862D; 0x89A7; 0x5229;
  0x540F; 0x5C65; 0x674E; 0x68A8; 0x7406; 0x7483; 0x75E2; 0x88CF;
  0x88E1; 0x91CC; 0x96E2; 0x9678; 0x5F8B; 0x7387; 0x7ACB; 0x844E;
  0x63A0; 0x7565; 0x5289; 0x6D41; 0x6E9C; 0x7409; 0x7559; 0x786B;
  0x7C92; 0x9686; 0x7ADC; 0x9F8D; 0x4FB6; 0x616E; 0x65C5; 0x865C;
  0x4E86; 0x4EAE; 0x50DA; 0x4E21; 0x51CC; 0x5BEE; 0x6599; 0x6881;
  0x6DBC; 0x731F; 0x7642; 0x77AD; 0x7A1C; 0x7CE7; 0x826F; 0x8AD2;
  0x907C; 0x91CF; 0x9675; 0x9818; 0x529B; 0x7DD1; 0x502B; 0x5398;
  0x6797; 0x6DCB; 0x71D0; 0x7433; 0x81E8; 0x8F2A; 0x96A3; 0x9C57;
  0x9E9F; 0x7460; 0x5841; 0x6D99; 0x7D2F; 0x985E; 0x4EE4; 0x4F36;
  0x4F8B; 0x51B7; 0x52B1; 0x5DBA; 0x601C; 0x73B2; 0x793C; 0x82D3;
  0x9234; 0x96B7; 0x96F6; 0x970A; 0x9E97; 0x9F62; 0x66A6; 0x6B74;
  0x5217; 0x52A3; 0x70C8; 0x88C2; 0x5EC9; 0x604B; 0x6190; 0x6F23;
  0x7149; 0x7C3E; 0x7DF4; 0x806F; 0x84EE; 0x9023; 0x932C; 0x5442;
  0x9B6F; 0x6AD3; 0x7089; 0x8CC2; 0x8DEF; 0x9732; 0x52B4; 0x5A41;
  0x5ECA; 0x5F04; 0x6717; 0x697C; 0x6994; 0x6D6A; 0x6F0F; 0x7262;
  0x72FC; 0x7BED; 0x8001; 0x807E; 0x874B; 0x90CE; 0x516D; 0x9E93
].
(* src/generated/whatwg/shiftjis_whatwg_tables.rs.inc:4-1393 DECODE_TABLE, entries 4352..4607 *)
Definition sjis_decode_table_17 : list N := [
  0x7984; 0x808B; 0x9332; 0x8AD6; 0x502D; 0x548C; 0x8A71; 0x6B6A;
  0x8CC4; 0x8107; 0x60D1; 0x67A0; 0x9DF2; 0x4E99; 0x4E98; 0x9C10;
  0x8A6B; 0x85C1; 0x8568; 0x6900; 0x6E7E; 0x7897; 0x8155; 0xFFFD;
  0xFFFD; 0xFFFD; 0xFFFD; 0xFFFD; 0xFFFD; 0xFFFD; 0xFFFD; 0xFFFD;
  0xFFFD; 0xFFFD; 0xFFFD; 0xFFFD; 0xFFFD; 0xFFFD; 0xFFFD; 0xFFFD;
  0xFFFD; 0xFFFD; 0xFFFD; 0xFFFD; 0xFFFD; 0xFFFD; 0xFFFD; 0xFFFD;
  0xFFFD; 0xFFFD; 0xFFFD; 0xFFFD; 0xFFFD; 0xFFFD; 0xFFFD; 0xFFFD;
  0xFFFD; 0xFFFD; 0xFFFD; 0xFFFD; 0xFFFD; 0xFFFD; 0xFFFD; 0xFFFD;
  0xFFFD; 0xFFFD; 0x5F0C; 0x4E10; 0x4E15; 0x4E2A; 0x4E31; 0x4E36;
  0x4E3C; 0x4E3F; 0x4E42; 0x4E56; 0x4E58; 0x4E82; 0x4E85; 0x8C6B;
  0x4E8A; 0x8212; 0x5F0D; 0x4E8E; 0x4E9E; 0x4E9F; 0x4EA0; 0x4EA2;
  0x4EB0; 0x4EB3; 0x4EB6; 0x4ECE; 0x4ECD; 0x4EC4; 0x4EC6; 0x4EC2;
  0x4ED7; 0x4EDE; 0x4EED; 0x4EDF; 0x4EF7; 0x4F09; 0x4F5A; 0x4F30;
  0x4F5B; 0x4F5D; 0x4F57; 0x4F47; 0x4F76; 0x4F88; 0x4F8F; 0x4F98;
  0x4F7B; 0x4F69; 0x4F70; 0x4F91; 0x4F6F; 0x4F86; 0x4F96; 0x5118;
  0x4FD4; 0x4FDF; 0x4FCE; 0x4FD8; 0x4FDB; 0x4FD1; 0x4FDA; 0x4FD0;
  0x4FE4; 0x4FE5; 0x501A; 0x5028; 0x5014; 0x502A; 0x5025; 0x5005;
  0x4F1C; 0x4FF6; 0x5021; 0x5029; 0x502C; 0x4FFE; 0x4FEF; 0x5011;
  0x5006; 0x5043; 0x5047; 0x6703; 0x5055; 0x5050; 0x5048; 0x505A;
  0x5056; 0x506C; 0x5078; 0x5080; 0x509A; 0x5085; 0x50B4; 0x50B2;
  0x50C9; 0x50CA; 0x50B3; 0x50C2; 0x50D6; 0x50DE; 0x50E5; 0x50ED;
  0x50E3; 0x50EE; 0x50F9; 0x50F5; 0x5109; 0x5101; 0x5102; 0x5116;
  0x5115; 0x5114; 0x511A; 0x5121; 0x513A; 0x5137; 0x513C; 0x513B;
  0x513F; 0x5140; 0x5152; 0x514C; 0x5154; 0x5162; 0x7AF8; 0x5169;
  0x516A; 0x516E; 0x5180; 0x5182; 0x56D8; 0x518C; 0x5189; 0x518F;
  0x5191; 0x5193; 0x5195; 0x5196; 0x51A4; 0x51A6; 0x51A2; 0x51A9;
  0x51AA; 0x51AB; 0x51B3; 0x51B1; 0x51B2; 0x51B0; 0x51B5; 0x51BD;
  0x51C5; 0x51C9; 0x51DB; 0x51E0; 0x8655; 0x51E9; 0x51ED; 0x51F0;
  0x51F5; 0x51FE; 0x5204; 0x520B; 0x5214; 0x520E; 0x5227; 0x522A;
  0x522E; 0x5233; 0x5239; 0x524F; 0x5244; 0x524B; 0x524C; 0x525E;
  0x5254; 0x526A; 0x5274; 0x5269; 0x5273; 0x527F; 0x527D; 0x528D;
  0x5294; 0x5292; 0x5271; 0x5288; 0x5291; 0x8FA8; 0x8FA7; 0x52AC
].
(* src/generated/whatwg/shiftjis_whatwg_tables.rs.inc:4-1393 DECODE_TABLE, entries 4608..4863 *)
Definition sjis_decode_table_18 : list N := [
  0x52AD; 0x52BC; 0x52B5; 0x52C1; 0x52CD; 0x52D7; 0x52DE; 0x52E3;
  0x52E6; 0x98ED; 0x52E0; 0x52F3; 0x52F5; 0x52F8; 0x52F9; 0x5306;
  0x5308; 0x7538; 0x530D; 0x5310; 0x530F; 0x5315; 0x531A; 0x5323;
  0x532F; 0x5331; 0x5333; 0x5338; 0x5340; 0x5346; 0x5345; 0x4E17;
  0x5349; 0x534D; 0x51D6; 0x535E; 0x5369; 0x536E; 0x5918; 0x537B;
  0x5377; 0x5382; 0x5396; 0x53A0; 0x53A6; 0x53A5; 0x53AE; 0x53B0;
  0x53B6; 0x53C3; 0x7C12; 0x96D9; 0x53DF; 0x66FC; 0x71EE; 0x53EE;
  0x53E8; 0x53ED; 0x53FA; 0x5401; 0x543D; 0x5440; 0x542C; 0x542D;
  0x543C; 0x542E; 0x5436; 0x5429; 0x541D; 0x544E; 0x548F; 0x5475;
  0x548E; 0x545F; 0x5471; 0x5477; 0x5470; 0x5492; 0x547B; 0x5480;
  0x5476; 0x5484; 0x5490; 0x5486; 0x54C7; 0x54A2; 0x54B8; 0x54A5;
  0x54AC; 0x54C4; 0x54C8; 0x54A8; 0x54AB; 0x54C2; 0x54A4; 0x54BE;
  0x54BC; 0x54D8; 0x54E5; 0x54E6; 0x550F; 0x5514; 0x54FD; 0x54EE;
  0x54ED; 0x54FA; 0x54E2; 0x5539; 0x5540; 0x5563; 0x554C; 0x552E;
  0x555C; 0x5545; 0x5556; 0x5557; 0x5538; 0x5533; 0x555D; 0x5599;
  0x5580; 0x54AF; 0x558A; 0x559F; 0x557B; 0x557E; 0x5598; 0x559E;
  0x55AE; 0x557C; 0x5583; 0x55A9; 0x5587; 0x55A8; 0x55DA; 0x55C5;
  0x55DF; 0x55C4; 0x55DC; 0x55E4; 0x55D4; 0x5614; 0x55F7; 0x5616;
  0x55FE; 0x55FD; 0x561B; 0x55F9; 0x564E; 0x5650; 0x71DF; 0x5634;
  0x5636; 0x5632; 0x5638; 0x566B; 0x5664; 0x562F; 0x566C; 0x566A;
  0x5686; 0x5680; 0x568A; 0x56A0; 0x5694; 0x568F; 0x56A5; 0x56AE;
  0x56B6; 0x56B4; 0x56C2; 0x56BC; 0x56C1; 0x56C3; 0x56C0; 0x56C8;
  0x56CE; 0x56D1; 0x56D3; 0x56D7; 0x56EE; 0x56F9; 0x5700; 0x56FF;
  0x5704; 0x5709; 0x5708; 0x570B; 0x570D; 0x5713; 0x5718; 0x5716;
  0x55C7; 0x571C; 0x5726; 0x5737; 0x5738; 0x574E; 0x573B; 0x5740;
  0x574F; 0x5769; 0x57C0; 0x5788; 0x5761; 0x577F; 0x5789; 0x5793;
  0x57A0; 0x57B3; 0x57A4; 0x57AA; 0x57B0; 0x57C3; 0x57C6; 0x57D4;
  0x57D2; 0x57D3; 0x580A; 0x57D6; 0x57E3; 0x580B; 0x5819; 0x581D;
  0x5872; 0x5821; 0x5862; 0x584B; 0x5870; 0x6BC0; 0x5852; 0x583D;
  0x5879; 0x5885; 0x58B9; 0x589F; 0x58AB; 0x58BA; 0x58DE; 0x58BB;
  0x58B8; 0x58AE; 0x58C5; 0x58D3; 0x58D1; 0x58D7; 0x58D9; 0x58D8;
  0x58E5; 0x58DC; 0x58E4; 0x58DF; 0x58EF; 0x58FA; 0x58F9; 0x58FB
].
(* src/generated/whatwg/shiftjis_whatwg_tables.rs.inc:4-1393 DECODE_TABLE, entries 4864..5119 *)
Definition sjis_decode_table_19 : list N := [
  0x58FC; 0x58FD; 0x5902; 0x590A; 0x5910; 0x591B; 0x68A6; 0x5925;
  0x592C; 0x592D; 0x5932; 0x5938; 0x593E; 0x7AD2; 0x5955; 0x5950;
  0x594E; 0x595A; 0x5958; 0x5962; 0x5960; 0x5967; 0x596C; 0x5969;
  0x5978; 0x5981; 0x599D; 0x4F5E; 0x4FAB; 0x59A3; 0x59B2; 0x59C6;
  0x59E8; 0x59DC; 0x598D; 0x59D9; 0x59DA; 0x5A25; 0x5A1F; 0x5A11;
  0x5A1C; 0x5A09; 0x5A1A; 0x5A40; 0x5A6C; 0x5A49; 0x5A35; 0x5A36;
  0x5A62; 0x5A6A; 0x5A9A; 0x5ABC; 0x5ABE; 0x5ACB; 0x5AC2; 0x5ABD;
  0x5AE3; 0x5AD7; 0x5AE6; 0x5AE9; 0x5AD6; 0x5AFA; 0x5AFB; 0x5B0C;
  0x5B0B; 0x5B16; 0x5B32; 0x5AD0; 0x5B2A; 0x5B36; 0x5B3E; 0x5B43;
  0x5B45; 0x5B40; 0x5B51; 0x5B55; 0x5B5A; 0x5B5B; 0x5B65; 0x5B69;
  0x5B70; 0x5B73; 0x5B75; 0x5B78; 0x6588; 0x5B7A; 0x5B80; 0x5B83;
  0x5BA6; 0x5BB8; 0x5BC3; 0x5BC7; 0x5BC9; 0x5BD4; 0x5BD0; 0x5BE4;
  0x5BE6; 0x5BE2; 0x5BDE; 0x5BE5; 0x5BEB; 0x5BF0; 0x5BF6; 0x5BF3;
  0x5C05; 0x5C07; 0x5C08; 0x5C0D; 0x5C13; 0x5C20; 0x5C22; 0x5C28;
  0x5C38; 0x5C39; 0x5C41; 0x5C46; 0x5C4E; 0x5C53; 0x5C50; 0x5C4F;
  0x5B71; 0x5C6C; 0x5C6E; 0x4E62; 0x5C76; 0x5C79; 0x5C8C; 0x5C91;
  0x5C94; 0x599B; 0x5CAB; 0x5CBB; 0x5CB6; 0x5CBC; 0x5CB7; 0x5CC5;
  0x5CBE; 0x5CC7; 0x5CD9; 0x5CE9; 0x5CFD; 0x5CFA; 0x5CED; 0x5D8C;
  0x5CEA; 0x5D0B; 0x5D15; 0x5D17; 0x5D5C; 0x5D1F; 0x5D1B; 0x5D11;
  0x5D14; 0x5D22; 0x5D1A; 0x5D19; 0x5D18; 0x5D4C; 0x5D52; 0x5D4E;
  0x5D4B; 0x5D6C; 0x5D73; 0x5D76; 0x5D87; 0x5D84; 0x5D82; 0x5DA2;
  0x5D9D; 0x5DAC; 0x5DAE; 0x5DBD; 0x5D90; 0x5DB7; 0x5DBC; 0x5DC9;
  0x5DCD; 0x5DD3; 0x5DD2; 0x5DD6; 0x5DDB; 0x5DEB; 0x5DF2; 0x5DF5;
  0x5E0B; 0x5E1A; 0x5E19; 0x5E11; 0x5E1B; 0x5E36; 0x5E37; 0x5E44;
  0x5E43; 0x5E40; 0x5E4E; 0x5E57; 0x5E54; 0x5E5F; 0x5E62; 0x5E64;
  0x5E47; 0x5E75; 0x5E76; 0x5E7A; 0x9EBC; 0x5E7F; 0x5EA0; 0x5EC1;
  0x5EC2; 0x5EC8; 0x5ED0; 0x5ECF; 0x5ED6; 0x5EE3; 0x5EDD; 0x5EDA;
  0x5EDB; 0x5EE2; 0x5EE1; 0x5EE8; 0x5EE9; 0x5EEC; 0x5EF1; 0x5EF3;
  0x5EF0; 0x5EF4; 0x5EF8; 0x5EFE; 0x5F03; 0x5F09; 0x5F5D; 0x5F5C;
  0x5F0B; 0x5F11; 0x5F16; 0x5F29; 0x5F2D; 0x5F38; 0x5F41; 0x5F48;
  0x5F4C; 0x5F4E; 0x5F2F; 0x5F51; 0x5F56; 0x5F57; 0x5F59; 0x5F61;
  0x5F6D; 0x5F73; 0x5F77; 0x5F83; 0x5F82; 0x5F7F; 0x5F8A; 0x5F88
].
(* src/generated/whatwg/shiftjis_whatwg_tables.rs.inc:4-1393 DECODE_TABLE, entries 5120..5375 *)
Definition sjis_decode_table_20 : list N := [
  0x5F91; 0x5F87; 0x5F9E; 0x5F99; 0x5F98; 0x5FA0; 0x5FA8; 0x5FAD;
  0x5FBC; 0x5FD6; 0x5FFB; 0x5FE4; 0x5FF8; 0x5FF1; 0x5FDD; 0x60B3;
  0x5FFF; 0x6021; 0x6060; 0x6019; 0x6010; 0x6029; 0x600E; 0x6031;
  0x601B; 0x6015; 0x602B; 0x6026; 0x600F; 0x603A; 0x605A; 0x6041;
  0x606A; 0x6077; 0x605F; 0x604A; 0x6046; 0x604D; 0x6063; 0x6043;
  0x6064; 0x6042; 0x606C; 0x606B; 0x6059; 0x6081; 0x608D; 0x60E7;
  0x6083; 0x609A; 0x6084; 0x609B; 0x6096; 0x6097; 0x6092; 0x60A7;
  0x608B; 0x60E1; 0x60B8; 0x60E0; 0x60D3; 0x60B4; 0x5FF0; 0x60BD;
  0x60C6; 0x60B5; 0x60D8; 0x614D; 0x6115; 0x6106; 0x60F6; 0x60F7;
  0x6100; 0x60F4; 0x60FA; 0x6103; 0x6121; 0x60FB; 0x60F1; 0x610D;
  0x610E; 0x6147; 0x613E; 0x6128; 0x6127; 0x614A; 0x613F; 0x613C;
  0x612C; 0x6134; 0x613D; 0x6142; 0x6144; 0x6173; 0x6177; 0x6158;
  0x6159; 0x615A; 0x616B; 0x6174; 0x616F; 0x6165; 0x6171; 0x615F;
  0x615D; 0x6153; 0x6175; 0x6199; 0x6196; 0x6187; 0x61AC; 0x6194;
  0x619A; 0x618A; 0x6191; 0x61AB; 0x61AE; 0x61CC; 0x61CA; 0x61C9;
  0x61F7; 0x61C8; 0x61C3; 0x61C6; 0x61BA; 0x61CB; 0x7F79; 0x61CD;
  0x61E6; 0x61E3; 0x61F6; 0x61FA; 0x61F4; 0x61FF; 0x61FD; 0x61FC;
  0x61FE; 0x6200; 0x6208; 0x6209; 0x620D; 0x620C; 0x6214; 0x621B;
  0x621E; 0x6221; 0x622A; 0x622E; 0x6230; 0x6232; 0x6233; 0x6241;
  0x624E; 0x625E; 0x6263; 0x625B; 0x6260; 0x6268; 0x627C; 0x6282;
  0x6289; 0x627E; 0x6292; 0x6293; 0x6296; 0x62D4; 0x6283; 0x6294;
  0x62D7; 0x62D1; 0x62BB; 0x62CF; 0x62FF; 0x62C6; 0x64D4; 0x62C8;
  0x62DC; 0x62CC; 0x62CA; 0x62C2; 0x62C7; 0x629B; 0x62C9; 0x630C;
  0x62EE; 0x62F1; 0x6327; 0x6302; 0x6308; 0x62EF; 0x62F5; 0x6350;
  0x633E; 0x634D; 0x641C; 0x634F; 0x6396; 0x638E; 0x6380; 0x63AB;
  0x6376; 0x63A3; 0x638F; 0x6389; 0x639F; 0x63B5; 0x636B; 0x6369;
  0x63BE; 0x63E9; 0x63C0; 0x63C6; 0x63E3; 0x63C9; 0x63D2; 0x63F6;
  0x63C4; 0x6416; 0x6434; 0x6406; 0x6413; 0x6426; 0x6436; 0x651D;
  0x6417; 0x6428; 0x640F; 0x6467; 0x646F; 0x6476; 0x644E; 0x652A;
  0x6495; 0x6493; 0x64A5; 0x64A9; 0x6488; 0x64BC; 0x64DA; 0x64D2;
  0x64C5; 0x64C7; 0x64BB; 0x64D8; 0x64C2; 0x64F1; 0x64E7; 0x8209;
  0x64E0; 0x64E1; 0x62AC; 0x64E3; 0x64EF; 0x652C; 0x64F6; 0x64F4
].
(* src/generated/whatwg/shiftjis_whatwg_tables.rs.inc:4-1393 DECODE_TABLE, entries 5376..5631 *)
Definition sjis_decode_table_21 : list N := [
  0x64F2; 0x64FA; 0x6500; 0x64FD; 0x6518; 0x651C; 0x6505; 0x6524;
  0x6523; 0x652B; 0x6534; 0x6535; 0x6537; 0x6536; 0x6538; 0x754B;
  0x6548; 0x6556; 0x6555; 0x654D; 0x6558; 0x655E; 0x655D; 0x6572;
  0x6578; 0x6582; 0x6583; 0x8B8A; 0x659B; 0x659F; 0x65AB; 0x65B7;
  0x65C3; 0x65C6; 0x65C1; 0x65C4; 0x65CC; 0x65D2; 0x65DB; 0x65D9;
  0x65E0; 0x65E1; 0x65F1; 0x6772; 0x660A; 0x6603; 0x65FB; 0x6773;
  0x6635; 0x6636; 0x6634; 0x661C; 0x664F; 0x6644; 0x6649; 0x6641;
  0x665E; 0x665D; 0x6664; 0x6667; 0x6668; 0x665F; 0x6662; 0x6670;
  0x6683; 0x6688; 0x668E; 0x6689; 0x6684; 0x6698; 0x669D; 0x66C1;
  0x66B9; 0x66C9; 0x66BE; 0x66BC; 0x66C4; 0x66B8; 0x66D6; 0x66DA;
  0x66E0; 0x663F; 0x66E6; 0x66E9; 0x66F0; 0x66F5; 0x66F7; 0x670F;
  0x6716; 0x671E; 0x6726; 0x6727; 0x9738; 0x672E; 0x673F; 0x6736;
  0x6741; 0x6738; 0x6737; 0x6746; 0x675E; 0x6760; 0x6759; 0x6763;
  0x6764; 0x6789; 0x6770; 0x67A9; 0x677C; 0x676A; 0x678C; 0x678B;
  0x67A6; 0x67A1; 0x6785; 0x67B7; 0x67EF; 0x67B4; 0x67EC; 0x67B3;
  0x67E9; 0x67B8; 0x67E4; 0x67DE; 0x67DD; 0x67E2; 0x67EE; 0x67B9;
  0x67CE; 0x67C6; 0x67E7; 0x6A9C; 0x681E; 0x6846; 0x6829; 0x6840;
  0x684D; 0x6832; 0x684E; 0x68B3; 0x682B; 0x6859; 0x6863; 0x6877;
  0x687F; 0x689F; 0x688F; 0x68AD; 0x6894; 0x689D; 0x689B; 0x6883;
  0x6AAE; 0x68B9; 0x6874; 0x68B5; 0x68A0; 0x68BA; 0x690F; 0x688D;
  0x687E; 0x6901; 0x68CA; 0x6908; 0x68D8; 0x6922; 0x6926; 0x68E1;
  0x690C; 0x68CD; 0x68D4; 0x68E7; 0x68D5; 0x6936; 0x6912; 0x6904;
  0x68D7; 0x68E3; 0x6925; 0x68F9; 0x68E0; 0x68EF; 0x6928; 0x692A;
  0x691A; 0x6923; 0x6921; 0x68C6; 0x6979; 0x6977; 0x695C; 0x6978;
  0x696B; 0x6954; 0x697E; 0x696E; 0x6939; 0x6974; 0x693D; 0x6959;
  0x6930; 0x6961; 0x695E; 0x695D; 0x6981; 0x696A; 0x69B2; 0x69AE;
  0x69D0; 0x69BF; 0x69C1; 0x69D3; 0x69BE; 0x69CE; 0x5BE8; 0x69CA;
  0x69DD; 0x69BB; 0x69C3; 0x69A7; 0x6A2E; 0x6991; 0x69A0; 0x699C;
  0x6995; 0x69B4; 0x69DE; 0x69E8; 0x6A02; 0x6A1B; 0x69FF; 0x6B0A;
  0x69F9; 0x69F2; 0x69E7; 0x6A05; 0x69B1; 0x6A1E; 0x69ED; 0x6A14;
  0x69EB; 0x6A0A; 0x6A12; 0x6AC1; 0x6A23; 0x6A13; 0x6A44; 0x6A0C;
  0x6A72; 0x6A36; 0x6A78; 0x6A47; 0x6A62; 0x6A59; 0x6A66; 0x6A48
].
(* src/generated/whatwg/shiftjis_whatwg_tables.rs.inc:4-1393 DECODE_TABLE, entries 5632..5887 *)
Definition sjis_decode_table_22 : list N := [
  0x6A38; 0x6A22; 0x6A90; 0x6A8D; 0x6AA0; 0x6A84; 0x6AA2; 0x6AA3;
  0x6A97; 0x8617; 0x6ABB; 0x6AC3; 0x6AC2; 0x6AB8; 0x6AB3; 0x6AAC;
  0x6ADE; 0x6AD1; 0x6ADF; 0x6AAA; 0x6ADA; 0x6AEA; 0x6AFB; 0x6B05;
  0x8616; 0x6AFA; 0x6B12; 0x6B16; 0x9B31; 0x6B1F; 0x6B38; 0x6B37;
  0x76DC; 0x6B39; 0x98EE; 0x6B47; 0x6B43; 0x6B49; 0x6B50; 0x6B59;
  0x6B54; 0x6B5B; 0x6B5F; 0x6B61; 0x6B78; 0x6B79; 0x6B7F; 0x6B80;
  0x6B84; 0x6B83; 0x6B8D; 0x6B98; 0x6B95; 0x6B9E; 0x6BA4; 0x6BAA;
  0x6BAB; 0x6BAF; 0x6BB2; 0x6BB1; 0x6BB3; 0x6BB7; 0x6BBC; 0x6BC6;
  0x6BCB; 0x6BD3; 0x6BDF; 0x6BEC; 0x6BEB; 0x6BF3; 0x6BEF; 0x9EBE;
  0x6C08; 0x6C13; 0x6C14; 0x6C1B; 0x6C24; 0x6C23; 0x6C5E; 0x6C55;
  0x6C62; 0x6C6A; 0x6C82; 0x6C8D; 0x6C9A; 0x6C81; 0x6C9B; 0x6C7E;
  0x6C68; 0x6C73; 0x6C92; 0x6C90; 0x6CC4; 0x6CF1; 0x6CD3; 0x6CBD;
  0x6CD7; 0x6CC5; 0x6CDD; 0x6CAE; 0x6CB1; 0x6CBE; 0x6CBA; 0x6CDB;
  0x6CEF; 0x6CD9; 0x6CEA; 0x6D1F; 0x884D; 0x6D36; 0x6D2B; 0x6D3D;
  0x6D38; 0x6D19; 0x6D35; 0x6D33; 0x6D12; 0x6D0C; 0x6D63; 0x6D93;
  0x6D64; 0x6D5A; 0x6D79; 0x6D59; 0x6D8E; 0x6D95; 0x6FE4; 0x6D85;
  0x6DF9; 0x6E15; 0x6E0A; 0x6DB5; 0x6DC7; 0x6DE6; 0x6DB8; 0x6DC6;
  0x6DEC; 0x6DDE; 0x6DCC; 0x6DE8; 0x6DD2; 0x6DC5; 0x6DFA; 0x6DD9;
  0x6DE4; 0x6DD5; 0x6DEA; 0x6DEE; 0x6E2D; 0x6E6E; 0x6E2E; 0x6E19;
  0x6E72; 0x6E5F; 0x6E3E; 0x6E23; 0x6E6B; 0x6E2B; 0x6E76; 0x6E4D;
  0x6E1F; 0x6E43; 0x6E3A; 0x6E4E; 0x6E24; 0x6EFF; 0x6E1D; 0x6E38;
  0x6E82; 0x6EAA; 0x6E98; 0x6EC9; 0x6EB7; 0x6ED3; 0x6EBD; 0x6EAF;
  0x6EC4; 0x6EB2; 0x6ED4; 0x6ED5; 0x6E8F; 0x6EA5; 0x6EC2; 0x6E9F;
  0x6F41; 0x6F11; 0x704C; 0x6EEC; 0x6EF8; 0x6EFE; 0x6F3F; 0x6EF2;
  0x6F31; 0x6EEF; 0x6F32; 0x6ECC; 0x6F3E; 0x6F13; 0x6EF7; 0x6F86;
  0x6F7A; 0x6F78; 0x6F81; 0x6F80; 0x6F6F; 0x6F5B; 0x6FF3; 0x6F6D;
  0x6F82; 0x6F7C; 0x6F58; 0x6F8E; 0x6F91; 0x6FC2; 0x6F66; 0x6FB3;
  0x6FA3; 0x6FA1; 0x6FA4; 0x6FB9; 0x6FC6; 0x6FAA; 0x6FDF; 0x6FD5;
  0x6FEC; 0x6FD4; 0x6FD8; 0x6FF1; 0x6FEE; 0x6FDB; 0x7009; 0x700B;
  0x6FFA; 0x7011; 0x7001; 0x700F; 0x6FFE; 0x701B; 0x701A; 0x6F74;
  0x701D; 0x7018; 0x701F; 0x7030; 0x703E; 0x7032; 0x7051; 0x7063;
  0x7099; 0x7092; 0x70AF; 0x70F1; 0x70AC; 0x70B8; 0x70B3; 0x70AE
].
(* src/generated/whatwg/shiftjis_whatwg_tables.rs.inc:4-1393 DECODE_TABLE, entries 5888..6143 *)
Definition sjis_decode_table_23 : list N := [
  0x70DF; 0x70CB; 0x70DD; 0x70D9; 0x7109; 0x70FD; 0x711C; 0x7119;
  0x7165; 0x7155; 0x7188; 0x7166; 0x7162; 0x714C; 0x7156; 0x716C;
  0x718F; 0x71FB; 0x7184; 0x7195; 0x71A8; 0x71AC; 0x71D7; 0x71B9;
  0x71BE; 0x71D2; 0x71C9; 0x71D4; 0x71CE; 0x71E0; 0x71EC; 0x71E7;
  0x71F5; 0x71FC; 0x71F9; 0x71FF; 0x720D; 0x7210; 0x721B; 0x7228;
  0x722D; 0x722C; 0x7230; 0x7232; 0x723B; 0x723C; 0x723F; 0x7240;
  0x7246; 0x724B; 0x7258; 0x7274; 0x727E; 0x7282; 0x7281; 0x7287;
  0x7292; 0x7296; 0x72A2; 0x72A7; 0x72B9; 0x72B2; 0x72C3; 0x72C6;
  0x72C4; 0x72CE; 0x72D2; 0x72E2; 0x72E0; 0x72E1; 0x72F9; 0x72F7;
  0x500F; 0x7317; 0x730A; 0x731C; 0x7316; 0x731D; 0x7334; 0x732F;
  0x7329; 0x7325; 0x733E; 0x734E; 0x734F; 0x9ED8; 0x7357; 0x736A;
  0x7368; 0x7370; 0x7378; 0x7375; 0x737B; 0x737A; 0x73C8; 0x73B3;
  0x73CE; 0x73BB; 0x73C0; 0x73E5; 0x73EE; 0x73DE; 0x74A2; 0x7405;
  0x746F; 0x7425; 0x73F8; 0x7432; 0x743A; 0x7455; 0x743F; 0x745F;
  0x7459; 0x7441; 0x745C; 0x7469; 0x7470; 0x7463; 0x746A; 0x7476;
  0x747E; 0x748B; 0x749E; 0x74A7; 0x74CA; 0x74CF; 0x74D4; 0x73F1;
  0x74E0; 0x74E3; 0x74E7; 0x74E9; 0x74EE; 0x74F2; 0x74F0; 0x74F1;
  0x74F8; 0x74F7; 0x7504; 0x7503; 0x7505; 0x750C; 0x750E; 0x750D;
  0x7515; 0x7513; 0x751E; 0x7526; 0x752C; 0x753C; 0x7544; 0x754D;
  0x754A; 0x7549; 0x755B; 0x7546; 0x755A; 0x7569; 0x7564; 0x7567;
  0x756B; 0x756D; 0x7578; 0x7576; 0x7586; 0x7587; 0x7574; 0x758A;
  0x7589; 0x7582; 0x7594; 0x759A; 0x759D; 0x75A5; 0x75A3; 0x75C2;
  0x75B3; 0x75C3; 0x75B5; 0x75BD; 0x75B8; 0x75BC; 0x75B1; 0x75CD;
  0x75CA; 0x75D2; 0x75D9; 0x75E3; 0x75DE; 0x75FE; 0x75FF; 0x75FC;
  0x7601; 0x75F0; 0x75FA; 0x75F2; 0x75F3; 0x760B; 0x760D; 0x7609;
  0x761F; 0x7627; 0x7620; 0x7621; 0x7622; 0x7624; 0x7634; 0x7630;
  0x763B; 0x7647; 0x7648; 0x7646; 0x765C; 0x7658; 0x7661; 0x7662;
  0x7668; 0x7669; 0x766A; 0x7667; 0x766C; 0x7670; 0x7672; 0x7676;
  0x7678; 0x767C; 0x7680; 0x7683; 0x7688; 0x768B; 0x768E; 0x7696;
  0x7693; 0x7699; 0x769A; 0x76B0; 0x76B4; 0x76B8; 0x76B9; 0x76BA;
  0x76C2; 0x76CD; 0x76D6; 0x76D2; 0x76DE; 0x76E1; 0x76E5; 0x76E7;
  0x76EA; 0x862F; 0x76FB; 0x7708; 0x7707; 0x7704; 0x7729; 0x7724
].
(* src/generated/whatwg/shiftjis_whatwg_tables.rs.inc:4-1393 DECODE_TABLE, entries 6144..6399 *)
Definition sjis_decode_table_24 : list N := [
  0x771E; 0x7725; 0x7726; 0x771B; 0x7737; 0x7738; 0x7747; 0x775A;
  0x7768; 0x776B; 0x775B; 0x7765; 0x777F; 0x777E; 0x7779; 0x778E;
  0x778B; 0x7791; 0x77A0; 0x779E; 0x77B0; 0x77B6; 0x77B9; 0x77BF;
  0x77BC; 0x77BD; 0x77BB; 0x77C7; 0x77CD; 0x77D7; 0x77DA; 0x77DC;
  0x77E3; 0x77EE; 0x77FC; 0x780C; 0x7812; 0x7926; 0x7820; 0x792A;
  0x7845; 0x788E; 0x7874; 0x7886; 0x787C; 0x789A; 0x788C; 0x78A3;
  0x78B5; 0x78AA; 0x78AF; 0x78D1; 0x78C6; 0x78CB; 0x78D4; 0x78BE;
  0x78BC; 0x78C5; 0x78CA; 0x78EC; 0x78E7; 0x78DA; 0x78FD; 0x78F4;
  0x7907; 0x7912; 0x7911; 0x7919; 0x792C; 0x792B; 0x7940; 0x7960;
  0x7957; 0x795F; 0x795A; 0x7955; 0x7953; 0x797A; 0x797F; 0x798A;
  0x799D; 0x79A7; 0x9F4B; 0x79AA; 0x79AE; 0x79B3; 0x79B9; 0x79BA;
  0x79C9; 0x79D5; 0x79E7; 0x79EC; 0x79E1; 0x79E3; 0x7A08; 0x7A0D;
  0x7A18; 0x7A19; 0x7A20; 0x7A1F; 0x7980; 0x7A31; 0x7A3B; 0x7A3E;
  0x7A37; 0x7A43; 0x7A57; 0x7A49; 0x7A61; 0x7A62; 0x7A69; 0x9F9D;
  0x7A70; 0x7A79; 0x7A7D; 0x7A88; 0x7A97; 0x7A95; 0x7A98; 0x7A96;
  0x7AA9; 0x7AC8; 0x7AB0; 0x7AB6; 0x7AC5; 0x7AC4; 0x7ABF; 0x9083;
  0x7AC7; 0x7ACA; 0x7ACD; 0x7ACF; 0x7AD5; 0x7AD3; 0x7AD9; 0x7ADA;
  0x7ADD; 0x7AE1; 0x7AE2; 0x7AE6; 0x7AED; 0x7AF0; 0x7B02; 0x7B0F;
  0x7B0A; 0x7B06; 0x7B33; 0x7B18; 0x7B19; 0x7B1E; 0x7B35; 0x7B28;
  0x7B36; 0x7B50; 0x7B7A; 0x7B04; 0x7B4D; 0x7B0B; 0x7B4C; 0x7B45;
  0x7B75; 0x7B65; 0x7B74; 0x7B67; 0x7B70; 0x7B71; 0x7B6C; 0x7B6E;
  0x7B9D; 0x7B98; 0x7B9F; 0x7B8D; 0x7B9C; 0x7B9A; 0x7B8B; 0x7B92;
  0x7B8F; 0x7B5D; 0x7B99; 0x7BCB; 0x7BC1; 0x7BCC; 0x7BCF; 0x7BB4;
  0x7BC6; 0x7BDD; 0x7BE9; 0x7C11; 0x7C14; 0x7BE6; 0x7BE5; 0x7C60;
  0x7C00; 0x7C07; 0x7C13; 0x7BF3; 0x7BF7; 0x7C17; 0x7C0D; 0x7BF6;
  0x7C23; 0x7C27; 0x7C2A; 0x7C1F; 0x7C37; 0x7C2B; 0x7C3D; 0x7C4C;
  0x7C43; 0x7C54; 0x7C4F; 0x7C40; 0x7C50; 0x7C58; 0x7C5F; 0x7C64;
  0x7C56; 0x7C65; 0x7C6C; 0x7C75; 0x7C83; 0x7C90; 0x7CA4; 0x7CAD;
  0x7CA2; 0x7CAB; 0x7CA1; 0x7CA8; 0x7CB3; 0x7CB2; 0x7CB1; 0x7CAE;
  0x7CB9; 0x7CBD; 0x7CC0; 0x7CC5; 0x7CC2; 0x7CD8; 0x7CD2; 0x7CDC;
  0x7CE2; 0x9B3B; 0x7CEF; 0x7CF2; 0x7CF4; 0x7CF6; 0x7CFA; 0x7D06;
  0x7D02; 0x7D1C; 0x7D15; 0x7D0A; 0x7D45; 0x7D4B; 0x7D2E; 0x7D32
].
(* src/generated/whatwg/shiftjis_whatwg_tables.rs.inc:4-1393 DECODE_TABLE, entries 6400..6655 *)
Definition sjis_decode_table_25 : list N := [
  0x7D3F; 0x7D35; 0x7D46; 0x7D73; 0x7D56; 0x7D4E; 0x7D72; 0x7D68;
  0x7D6E; 0x7D4F; 0x7D63; 0x7D93; 0x7D89; 0x7D5B; 0x7D8F; 0x7D7D;
  0x7D9B; 0x7DBA; 0x7DAE; 0x7DA3; 0x7DB5; 0x7DC7; 0x7DBD; 0x7DAB;
  0x7E3D; 0x7DA2; 0x7DAF; 0x7DDC; 0x7DB8; 0x7D9F; 0x7DB0; 0x7DD8;
  0x7DDD; 0x7DE4; 0x7DDE; 0x7DFB; 0x7DF2; 0x7DE1; 0x7E05; 0x7E0A;
  0x7E23; 0x7E21; 0x7E12; 0x7E31; 0x7E1F; 0x7E09; 0x7E0B; 0x7E22;
  0x7E46; 0x7E66; 0x7E3B; 0x7E35; 0x7E39; 0x7E43; 0x7E37; 0x7E32;
  0x7E3A; 0x7E67; 0x7E5D; 0x7E56; 0x7E5E; 0x7E59; 0x7E5A; 0x7E79;
  0x7E6A; 0x7E69; 0x7E7C; 0x7E7B; 0x7E83; 0x7DD5; 0x7E7D; 0x8FAE;
  0x7E7F; 0x7E88; 0x7E89; 0x7E8C; 0x7E92; 0x7E90; 0x7E93; 0x7E94;
  0x7E96; 0x7E8E; 0x7E9B; 0x7E9C; 0x7F38; 0x7F3A; 0x7F45; 0x7F4C;
  0x7F4D; 0x7F4E; 0x7F50; 0x7F51; 0x7F55; 0x7F54; 0x7F58; 0x7F5F;
  0x7F60; 0x7F68; 0x7F69; 0x7F67; 0x7F78; 0x7F82; 0x7F86; 0x7F83;
  0x7F88; 0x7F87; 0x7F8C; 0x7F94; 0x7F9E; 0x7F9D; 0x7F9A; 0x7FA3;
  0x7FAF; 0x7FB2; 0x7FB9; 0x7FAE; 0x7FB6; 0x7FB8; 0x8B71; 0x7FC5;
  0x7FC6; 0x7FCA; 0x7FD5; 0x7FD4; 0x7FE1; 0x7FE6; 0x7FE9; 0x7FF3;
  0x7FF9; 0x98DC; 0x8006; 0x8004; 0x800B; 0x8012; 0x8018; 0x8019;
  0x801C; 0x8021; 0x8028; 0x803F; 0x803B; 0x804A; 0x8046; 0x8052;
  0x8058; 0x805A; 0x805F; 0x8062; 0x8068; 0x8073; 0x8072; 0x8070;
  0x8076; 0x8079; 0x807D; 0x807F; 0x8084; 0x8086; 0x8085; 0x809B;
  0x8093; 0x809A; 0x80AD; 0x5190; 0x80AC; 0x80DB; 0x80E5; 0x80D9;
  0x80DD; 0x80C4; 0x80DA; 0x80D6; 0x8109; 0x80EF; 0x80F1; 0x811B;
  0x8129; 0x8123; 0x812F; 0x814B; 0x968B; 0x8146; 0x813E; 0x8153;
  0x8151; 0x80FC; 0x8171; 0x816E; 0x8165; 0x8166; 0x8174; 0x8183;
  0x8188; 0x818A; 0x8180; 0x8182; 0x81A0; 0x8195; 0x81A4; 0x81A3;
  0x815F; 0x8193; 0x81A9; 0x81B0; 0x81B5; 0x81BE; 0x81B8; 0x81BD;
  0x81C0; 0x81C2; 0x81BA; 0x81C9; 0x81CD; 0x81D1; 0x81D9; 0x81D8;
  0x81C8; 0x81DA; 0x81DF; 0x81E0; 0x81E7; 0x81FA; 0x81FB; 0x81FE;
  0x8201; 0x8202; 0x8205; 0x8207; 0x820A; 0x820D; 0x8210; 0x8216;
  0x8229; 0x822B; 0x8238; 0x8233; 0x8240; 0x8259; 0x8258; 0x825D;
  0x825A; 0x825F; 0x8264; 0x8262; 0x8268; 0x826A; 0x826B; 0x822E;
  0x8271; 0x8277; 0x8278; 0x827E; 0x828D; 0x8292; 0x82AB; 0x829F
].
(* src/generated/whatwg/shiftjis_whatwg_tables.rs.inc:4-1393 DECODE_TABLE, entries 6656..6911 *)
Definition sjis_decode_table_26 : list N := [
  0x82BB; 0x82AC; 0x82E1; 0x82E3; 0x82DF; 0x82D2; 0x82F4; 0x82F3;
  0x82FA; 0x8393; 0x8303; 0x82FB; 0x82F9; 0x82DE; 0x8306; 0x82DC;
  0x8309; 0x82D9; 0x8335; 0x8334; 0x8316; 0x8332; 0x8331; 0x8340;
  0x8339; 0x8350; 0x8345; 0x832F; 0x832B; 0x8317; 0x8318; 0x8385;
  0x839A; 0x83AA; 0x839F; 0x83A2; 0x8396; 0x8323; 0x838E; 0x8387;
  0x838A; 0x837C; 0x83B5; 0x8373; 0x8375; 0x83A0; 0x8389; 0x83A8;
  0x83F4; 0x8413; 0x83EB; 0x83CE; 0x83FD; 0x8403; 0x83D8; 0x840B;
  0x83C1; 0x83F7; 0x8407; 0x83E0; 0x83F2; 0x840D; 0x8422; 0x8420;
  0x83BD; 0x8438; 0x8506; 0x83FB; 0x846D; 0x842A; 0x843C; 0x855A;
  0x8484; 0x8477; 0x846B; 0x84AD; 0x846E; 0x8482; 0x8469; 0x8446;
  0x842C; 0x846F; 0x8479; 0x8435; 0x84CA; 0x8462; 0x84B9; 0x84BF;
  0x849F; 0x84D9; 0x84CD; 0x84BB; 0x84DA; 0x84D0; 0x84C1; 0x84C6;
  0x84D6; 0x84A1; 0x8521; 0x84FF; 0x84F4; 0x8517; 0x8518; 0x852C;
  0x851F; 0x8515; 0x8514; 0x84FC; 0x8540; 0x8563; 0x8558; 0x8548;
  0x8541; 0x8602; 0x854B; 0x8555; 0x8580; 0x85A4; 0x8588; 0x8591;
  0x858A; 0x85A8; 0x856D; 0x8594; 0x859B; 0x85EA; 0x8587; 0x859C;
  0x8577; 0x857E; 0x8590; 0x85C9; 0x85BA; 0x85CF; 0x85B9; 0x85D0;
  0x85D5; 0x85DD; 0x85E5; 0x85DC; 0x85F9; 0x860A; 0x8613; 0x860B;
  0x85FE; 0x85FA; 0x8606; 0x8622; 0x861A; 0x8630; 0x863F; 0x864D;
  0x4E55; 0x8654; 0x865F; 0x8667; 0x8671; 0x8693; 0x86A3; 0x86A9;
  0x86AA; 0x868B; 0x868C; 0x86B6; 0x86AF; 0x86C4; 0x86C6; 0x86B0;
  0x86C9; 0x8823; 0x86AB; 0x86D4; 0x86DE; 0x86E9; 0x86EC; 0x86DF;
  0x86DB; 0x86EF; 0x8712; 0x8706; 0x8708; 0x8700; 0x8703; 0x86FB;
  0x8711; 0x8709; 0x870D; 0x86F9; 0x870A; 0x8734; 0x873F; 0x8737;
  0x873B; 0x8725; 0x8729; 0x871A; 0x8760; 0x875F; 0x8778; 0x874C;
  0x874E; 0x8774; 0x8757; 0x8768; 0x876E; 0x8759; 0x8753; 0x8763;
  0x876A; 0x8805; 0x87A2; 0x879F; 0x8782; 0x87AF; 0x87CB; 0x87BD;
  0x87C0; 0x87D0; 0x96D6; 0x87AB; 0x87C4; 0x87B3; 0x87C7; 0x87C6;
  0x87BB; 0x87EF; 0x87F2; 0x87E0; 0x880F; 0x880D; 0x87FE; 0x87F6;
  0x87F7; 0x880E; 0x87D2; 0x8811; 0x8816; 0x8815; 0x8822; 0x8821;
  0x8831; 0x8836; 0x8839; 0x8827; 0x883B; 0x8844; 0x8842; 0x8852;
  0x8859; 0x885E; 0x8862; 0x886B; 0x8881; 0x887E; 0x889E; 0x8875
].
(* src/generated/whatwg/shiftjis_whatwg_tables.rs.inc:4-1393 DECODE_TABLE, entries 6912..7167 *)
Definition sjis_decode_table_27 : list N := [
  0x887D; 0x88B5; 0x8872; 0x8882; 0x8897; 0x8892; 0x88AE; 0x8899;
  0x88A2; 0x888D; 0x88A4; 0x88B0; 0x88BF; 0x88B1; 0x88C3; 0x88C4;
  0x88D4; 0x88D8; 0x88D9; 0x88DD; 0x88F9; 0x8902; 0x88FC; 0x88F4;
  0x88E8; 0x88F2; 0x8904; 0x890C; 0x890A; 0x8913; 0x8943; 0x891E;
  0x8925; 0x892A; 0x892B; 0x8941; 0x8944; 0x893B; 0x8936; 0x8938;
  0x894C; 0x891D; 0x8960; 0x895E; 0x8966; 0x8964; 0x896D; 0x896A;
  0x896F; 0x8974; 0x8977; 0x897E; 0x8983; 0x8988; 0x898A; 0x8993;
  0x8998; 0x89A1; 0x89A9; 0x89A6; 0x89AC; 0x89AF; 0x89B2; 0x89BA;
  0x89BD; 0x89BF; 0x89C0; 0x89DA; 0x89DC; 0x89DD; 0x89E7; 0x89F4;
  0x89F8; 0x8A03; 0x8A16; 0x8A10; 0x8A0C; 0x8A1B; 0x8A1D; 0x8A25;
  0x8A36; 0x8A41; 0x8A5B; 0x8A52; 0x8A46; 0x8A48; 0x8A7C; 0x8A6D;
  0x8A6C; 0x8A62; 0x8A85; 0x8A82; 0x8A84; 0x8AA8; 0x8AA1; 0x8A91;
  0x8AA5; 0x8AA6; 0x8A9A; 0x8AA3; 0x8AC4; 0x8ACD; 0x8AC2; 0x8ADA;
  0x8AEB; 0x8AF3; 0x8AE7; 0x8AE4; 0x8AF1; 0x8B14; 0x8AE0; 0x8AE2;
  0x8AF7; 0x8ADE; 0x8ADB; 0x8B0C; 0x8B07; 0x8B1A; 0x8AE1; 0x8B16;
  0x8B10; 0x8B17; 0x8B20; 0x8B33; 0x97AB; 0x8B26; 0x8B2B; 0x8B3E;
  0x8B28; 0x8B41; 0x8B4C; 0x8B4F; 0x8B4E; 0x8B49; 0x8B56; 0x8B5B;
  0x8B5A; 0x8B6B; 0x8B5F; 0x8B6C; 0x8B6F; 0x8B74; 0x8B7D; 0x8B80;
  0x8B8C; 0x8B8E; 0x8B92; 0x8B93; 0x8B96; 0x8B99; 0x8B9A; 0x8C3A;
  0x8C41; 0x8C3F; 0x8C48; 0x8C4C; 0x8C4E; 0x8C50; 0x8C55; 0x8C62;
  0x8C6C; 0x8C78; 0x8C7A; 0x8C82; 0x8C89; 0x8C85; 0x8C8A; 0x8C8D;
  0x8C8E; 0x8C94; 0x8C7C; 0x8C98; 0x621D; 0x8CAD; 0x8CAA; 0x8CBD;
  0x8CB2; 0x8CB3; 0x8CAE; 0x8CB6; 0x8CC8; 0x8CC1; 0x8CE4; 0x8CE3;
  0x8CDA; 0x8CFD; 0x8CFA; 0x8CFB; 0x8D04; 0x8D05; 0x8D0A; 0x8D07;
  0x8D0F; 0x8D0D; 0x8D10; 0x9F4E; 0x8D13; 0x8CCD; 0x8D14; 0x8D16;
  0x8D67; 0x8D6D; 0x8D71; 0x8D73; 0x8D81; 0x8D99; 0x8DC2; 0x8DBE;
  0x8DBA; 0x8DCF; 0x8DDA; 0x8DD6; 0x8DCC; 0x8DDB; 0x8DCB; 0x8DEA;
  0x8DEB; 0x8DDF; 0x8DE3; 0x8DFC; 0x8E08; 0x8E09; 0x8DFF; 0x8E1D;
  0x8E1E; 0x8E10; 0x8E1F; 0x8E42; 0x8E35; 0x8E30; 0x8E34; 0x8E4A;
  0x8E47; 0x8E49; 0x8E4C; 0x8E50; 0x8E48; 0x8E59; 0x8E64; 0x8E60;
  0x8E2A; 0x8E63; 0x8E55; 0x8E76; 0x8E72; 0x8E7C; 0x8E81; 0x8E87;
  0x8E85; 0x8E84; 0x8E8B; 0x8E8A; 0x8E93; 0x8E91; 0x8E94; 0x8E99
].
(* src/generated/whatwg/shiftjis_whatwg_tables.rs.inc:4-1393 DECODE_TABLE, entries 7168..7423 *)
Definition sjis_decode_table_28 : list N := [
  0x8EAA; 0x8EA1; 0x8EAC; 0x8EB0; 0x8EC6; 0x8EB1; 0x8EBE; 0x8EC5;
  0x8EC8; 0x8ECB; 0x8EDB; 0x8EE3; 0x8EFC; 0x8EFB; 0x8EEB; 0x8EFE;
  0x8F0A; 0x8F05; 0x8F15; 0x8F12; 0x8F19; 0x8F13; 0x8F1C; 0x8F1F;
  0x8F1B; 0x8F0C; 0x8F26; 0x8F33; 0x8F3B; 0x8F39; 0x8F45; 0x8F42;
  0x8F3E; 0x8F4C; 0x8F49; 0x8F46; 0x8F4E; 0x8F57; 0x8F5C; 0x8F62;
  0x8F63; 0x8F64; 0x8F9C; 0x8F9F; 0x8FA3; 0x8FAD; 0x8FAF; 0x8FB7;
  0x8FDA; 0x8FE5; 0x8FE2; 0x8FEA; 0x8FEF; 0x9087; 0x8FF4; 0x9005;
  0x8FF9; 0x8FFA; 0x9011; 0x9015; 0x9021; 0x900D; 0x901E; 0x9016;
  0x900B; 0x9027; 0x9036; 0x9035; 0x9039; 0x8FF8; 0x904F; 0x9050;
  0x9051; 0x9052; 0x900E; 0x9049; 0x903E; 0x9056; 0x9058; 0x905E;
  0x9068; 0x906F; 0x9076; 0x96A8; 0x9072; 0x9082; 0x907D; 0x9081;
  0x9080; 0x908A; 0x9089; 0x908F; 0x90A8; 0x90AF; 0x90B1; 0x90B5;
  0x90E2; 0x90E4; 0x6248; 0x90DB; 0x9102; 0x9112; 0x9119; 0x9132;
  0x9130; 0x914A; 0x9156; 0x9158; 0x9163; 0x9165; 0x9169; 0x9173;
  0x9172; 0x918B; 0x9189; 0x9182; 0x91A2; 0x91AB; 0x91AF; 0x91AA;
  0x91B5; 0x91B4; 0x91BA; 0x91C0; 0x91C1; 0x91C9; 0x91CB; 0x91D0;
  0x91D6; 0x91DF; 0x91E1; 0x91DB; 0x91FC; 0x91F5; 0x91F6; 0x921E;
  0x91FF; 0x9214; 0x922C; 0x9215; 0x9211; 0x925E; 0x9257; 0x9245;
  0x9249; 0x9264; 0x9248; 0x9295; 0x923F; 0x924B; 0x9250; 0x929C;
  0x9296; 0x9293; 0x929B; 0x925A; 0x92CF; 0x92B9; 0x92B7; 0x92E9;
  0x930F; 0x92FA; 0x9344; 0x932E; 0x9319; 0x9322; 0x931A; 0x9323;
  0x933A; 0x9335; 0x933B; 0x935C; 0x9360; 0x937C; 0x936E; 0x9356;
  0x93B0; 0x93AC; 0x93AD; 0x9394; 0x93B9; 0x93D6; 0x93D7; 0x93E8;
  0x93E5; 0x93D8; 0x93C3; 0x93DD; 0x93D0; 0x93C8; 0x93E4; 0x941A;
  0x9414; 0x9413; 0x9403; 0x9407; 0x9410; 0x9436; 0x942B; 0x9435;
  0x9421; 0x943A; 0x9441; 0x9452; 0x9444; 0x945B; 0x9460; 0x9462;
  0x945E; 0x946A; 0x9229; 0x9470; 0x9475; 0x9477; 0x947D; 0x945A;
  0x947C; 0x947E; 0x9481; 0x947F; 0x9582; 0x9587; 0x958A; 0x9594;
  0x9596; 0x9598; 0x9599; 0x95A0; 0x95A8; 0x95A7; 0x95AD; 0x95BC;
  0x95BB; 0x95B9; 0x95BE; 0x95CA; 0x6FF6; 0x95C3; 0x95CD; 0x95CC;
  0x95D5; 0x95D4; 0x95D6; 0x95DC; 0x95E1; 0x95E5; 0x95E2; 0x9621;
  0x9628; 0x962E; 0x962F; 0x9642; 0x964C; 0x964F; 0x964B; 0x9677
].
(* src/generated/whatwg/shiftjis_whatwg_tables.rs.inc:4-1393 DECODE_TABLE, entries 7424..7679 *)
Definition sjis_decode_table_29 : list N := [
  0x965C; 0x965E; 0x965D; 0x965F; 0x9666; 0x9672; 0x966C; 0x968D;
  0x9698; 0x9695; 0x9697; 0x96AA; 0x96A7; 0x96B1; 0x96B2; 0x96B0;
  0x96B4; 0x96B6; 0x96B8; 0x96B9; 0x96CE; 0x96CB; 0x96C9; 0x96CD;
  0x894D; 0x96DC; 0x970D; 0x96D5; 0x96F9; 0x9704; 0x9706; 0x9708;
  0x9713; 0x970E; 0x9711; 0x970F; 0x9716; 0x9719; 0x9724; 0x972A;
  0x9730; 0x9739; 0x973D; 0x973E; 0x9744; 0x9746; 0x9748; 0x9742;
  0x9749; 0x975C; 0x9760; 0x9764; 0x9766; 0x9768; 0x52D2; 0x976B;
  0x9771; 0x9779; 0x9785; 0x977C; 0x9781; 0x977A; 0x9786; 0x978B;
  0x978F; 0x9790; 0x979C; 0x97A8; 0x97A6; 0x97A3; 0x97B3; 0x97B4;
  0x97C3; 0x97C6; 0x97C8; 0x97CB; 0x97DC; 0x97ED; 0x9F4F; 0x97F2;
  0x7ADF; 0x97F6; 0x97F5; 0x980F; 0x980C; 0x9838; 0x9824; 0x9821;
  0x9837; 0x983D; 0x9846; 0x984F; 0x984B; 0x986B; 0x986F; 0x9870;
  0x9871; 0x9874; 0x9873; 0x98AA; 0x98AF; 0x98B1; 0x98B6; 0x98C4;
  0x98C3; 0x98C6; 0x98E9; 0x98EB; 0x9903; 0x9909; 0x9912; 0x9914;
  0x9918; 0x9921; 0x991D; 0x991E; 0x9924; 0x9920; 0x992C; 0x992E;
  0x993D; 0x993E; 0x9942; 0x9949; 0x9945; 0x9950; 0x994B; 0x9951;
  0x9952; 0x994C; 0x9955; 0x9997; 0x9998; 0x99A5; 0x99AD; 0x99AE;
  0x99BC; 0x99DF; 0x99DB; 0x99DD; 0x99D8; 0x99D1; 0x99ED; 0x99EE;
  0x99F1; 0x99F2; 0x99FB; 0x99F8; 0x9A01; 0x9A0F; 0x9A05; 0x99E2;
  0x9A19; 0x9A2B; 0x9A37; 0x9A45; 0x9A42; 0x9A40; 0x9A43; 0x9A3E;
  0x9A55; 0x9A4D; 0x9A5B; 0x9A57; 0x9A5F; 0x9A62; 0x9A65; 0x9A64;
  0x9A69; 0x9A6B; 0x9A6A; 0x9AAD; 0x9AB0; 0x9ABC; 0x9AC0; 0x9ACF;
  0x9AD1; 0x9AD3; 0x9AD4; 0x9ADE; 0x9ADF; 0x9AE2; 0x9AE3; 0x9AE6;
  0x9AEF; 0x9AEB; 0x9AEE; 0x9AF4; 0x9AF1; 0x9AF7; 0x9AFB; 0x9B06;
  0x9B18; 0x9B1A; 0x9B1F; 0x9B22; 0x9B23; 0x9B25; 0x9B27; 0x9B28;
  0x9B29; 0x9B2A; 0x9B2E; 0x9B2F; 0x9B32; 0x9B44; 0x9B43; 0x9B4F;
  0x9B4D; 0x9B4E; 0x9B51; 0x9B58; 0x9B74; 0x9B93; 0x9B83; 0x9B91;
  0x9B96; 0x9B97; 0x9B9F; 0x9BA0; 0x9BA8; 0x9BB4; 0x9BC0; 0x9BCA;
  0x9BB9; 0x9BC6; 0x9BCF; 0x9BD1; 0x9BD2; 0x9BE3; 0x9BE2; 0x9BE4;
  0x9BD4; 0x9BE1; 0x9C3A; 0x9BF2; 0x9BF1; 0x9BF0; 0x9C15; 0x9C14;
  0x9C09; 0x9C13; 0x9C0C; 0x9C06; 0x9C08; 0x9C12; 0x9C0A; 0x9C04;
  0x9C2E; 0x9C1B; 0x9C25; 0x9C24; 0x9C21; 0x9C30; 0x9C47; 0x9C32
].
(* src/generated/whatwg/shiftjis_whatwg_tables.rs.inc:4-1393 DECODE_TABLE, entries 7680..7935 *)
Definition sjis_decode_table_30 : list N := [
  0x9C46; 0x9C3E; 0x9C5A; 0x9C60; 0x9C67; 0x9C76; 0x9C78; 0x9CE7;
  0x9CEC; 0x9CF0; 0x9D09; 0x9D08; 0x9CEB; 0x9D03; 0x9D06; 0x9D2A;
  0x9D26; 0x9DAF; 0x9D23; 0x9D1F; 0x9D44; 0x9D15; 0x9D12; 0x9D41;
  0x9D3F; 0x9D3E; 0x9D46; 0x9D48; 0x9D5D; 0x9D5E; 0x9D64; 0x9D51;
  0x9D50; 0x9D59; 0x9D72; 0x9D89; 0x9D87; 0x9DAB; 0x9D6F; 0x9D7A;
  0x9D9A; 0x9DA4; 0x9DA9; 0x9DB2; 0x9DC4; 0x9DC1; 0x9DBB; 0x9DB8;
  0x9DBA; 0x9DC6; 0x9DCF; 0x9DC2; 0x9DD9; 0x9DD3; 0x9DF8; 0x9DE6;
  0x9DED; 0x9DEF; 0x9DFD; 0x9E1A; 0x9E1B; 0x9E1E; 0x9E75; 0x9E79;
  0x9E7D; 0x9E81; 0x9E88; 0x9E8B; 0x9E8C; 0x9E92; 0x9E95; 0x9E91;
  0x9E9D; 0x9EA5; 0x9EA9; 0x9EB8; 0x9EAA; 0x9EAD; 0x9761; 0x9ECC;
  0x9ECE; 0x9ECF; 0x9ED0; 0x9ED4; 0x9EDC; 0x9EDE; 0x9EDD; 0x9EE0;
  0x9EE5; 0x9EE8; 0x9EEF; 0x9EF4; 0x9EF6; 0x9EF7; 0x9EF9; 0x9EFB;
  0x9EFC; 0x9EFD; 0x9F07; 0x9F08; 0x76B7; 0x9F15; 0x9F21; 0x9F2C;
  0x9F3E; 0x9F4A; 0x9F52; 0x9F54; 0x9F63; 0x9F5F; 0x9F60; 0x9F61;
  0x9F66; 0x9F67; 0x9F6C; 0x9F6A; 0x9F77; 0x9F72; 0x9F76; 0x9F95;
  0x9F9C; 0x9FA0; 0x582F; 0x69C7; 0x9059; 0x7464; 0x51DC; 0x7199;
  0xFFFD; 0xFFFD; 0xFFFD; 0xFFFD; 0xFFFD; 0xFFFD; 0xFFFD; 0xFFFD;
  0xFFFD; 0xFFFD; 0xFFFD; 0xFFFD; 0xFFFD; 0xFFFD; 0xFFFD; 0xFFFD;
  0xFFFD; 0xFFFD; 0xFFFD; 0xFFFD; 0xFFFD; 0xFFFD; 0xFFFD; 0xFFFD;
  0xFFFD; 0xFFFD; 0xFFFD; 0xFFFD; 0xFFFD; 0xFFFD; 0xFFFD; 0xFFFD;
  0xFFFD; 0xFFFD; 0xFFFD; 0xFFFD; 0xFFFD; 0xFFFD; 0xFFFD; 0xFFFD;
  0xFFFD; 0xFFFD; 0xFFFD; 0xFFFD; 0xFFFD; 0xFFFD; 0xFFFD; 0xFFFD;
  0xFFFD; 0xFFFD; 0xFFFD; 0xFFFD; 0xFFFD; 0xFFFD; 0xFFFD; 0xFFFD;
  0xFFFD; 0xFFFD; 0xFFFD; 0xFFFD; 0xFFFD; 0xFFFD; 0xFFFD; 0xFFFD;
  0xFFFD; 0xFFFD; 0xFFFD; 0xFFFD; 0xFFFD; 0xFFFD; 0xFFFD; 0xFFFD;
  0xFFFD; 0xFFFD; 0xFFFD; 0xFFFD; 0xFFFD; 0xFFFD; 0xFFFD; 0xFFFD;
  0xFFFD; 0xFFFD; 0xFFFD; 0xFFFD; 0xFFFD; 0xFFFD; 0xFFFD; 0xFFFD;
  0xFFFD; 0xFFFD; 0xFFFD; 0xFFFD; 0xFFFD; 0xFFFD; 0xFFFD; 0xFFFD;
  0xFFFD; 0xFFFD; 0xFFFD; 0xFFFD; 0xFFFD; 0xFFFD; 0xFFFD; 0xFFFD;
  0xFFFD; 0xFFFD; 0xFFFD; 0xFFFD; 0xFFFD; 0xFFFD; 0xFFFD; 0xFFFD;
  0xFFFD; 0xFFFD; 0xFFFD; 0xFFFD; 0xFFFD; 0xFFFD; 0xFFFD; 0xFFFD;
  0xFFFD; 0xFFFD; 0xFFFD; 0xFFFD; 0xFFFD; 0xFFFD; 0xFFFD; 0xFFFD
].
(* src/generated/whatwg/shiftjis_whatwg_tables.rs.inc:4-1393 DECODE_TABLE, entries 7936..8191 *)
Definition sjis_decode_table_31 : list N := [
  0xFFFD; 0xFFFD; 0xFFFD; 0xFFFD; 0xFFFD; 0xFFFD; 0xFFFD; 0xFFFD;
  0xFFFD; 0xFFFD; 0xFFFD; 0xFFFD; 0xFFFD; 0xFFFD; 0xFFFD; 0xFFFD;
  0xFFFD; 0xFFFD; 0xFFFD; 0xFFFD; 0xFFFD; 0xFFFD; 0xFFFD; 0xFFFD;
  0xFFFD; 0xFFFD; 0xFFFD; 0xFFFD; 0xFFFD; 0xFFFD; 0xFFFD; 0xFFFD;
  0xFFFD; 0xFFFD; 0xFFFD; 0xFFFD; 0xFFFD; 0xFFFD; 0xFFFD; 0xFFFD;
  0xFFFD; 0xFFFD; 0xFFFD; 0xFFFD; 0xFFFD; 0xFFFD; 0xFFFD; 0xFFFD;
  0xFFFD; 0xFFFD; 0xFFFD; 0xFFFD; 0xFFFD; 0xFFFD; 0xFFFD; 0xFFFD;
  0xFFFD; 0xFFFD; 0xFFFD; 0xFFFD; 0xFFFD; 0xFFFD; 0xFFFD; 0xFFFD;
  0xFFFD; 0xFFFD; 0xFFFD; 0xFFFD; 0xFFFD; 0xFFFD; 0xFFFD; 0xFFFD;
  0xFFFD; 0xFFFD; 0xFFFD; 0xFFFD; 0xFFFD; 0xFFFD; 0xFFFD; 0xFFFD;
  0xFFFD; 0xFFFD; 0xFFFD; 0xFFFD; 0xFFFD; 0xFFFD; 0xFFFD; 0xFFFD;
  0xFFFD; 0xFFFD; 0xFFFD; 0xFFFD; 0xFFFD; 0xFFFD; 0xFFFD; 0xFFFD;
  0xFFFD; 0xFFFD; 0xFFFD; 0xFFFD; 0xFFFD; 0xFFFD; 0xFFFD; 0xFFFD;
  0xFFFD; 0xFFFD; 0xFFFD; 0xFFFD; 0xFFFD; 0xFFFD; 0xFFFD; 0xFFFD;
  0xFFFD; 0xFFFD; 0xFFFD; 0xFFFD; 0xFFFD; 0xFFFD; 0xFFFD; 0xFFFD;
  0xFFFD; 0xFFFD; 0xFFFD; 0xFFFD; 0xFFFD; 0xFFFD; 0xFFFD; 0xFFFD;
  0xFFFD; 0xFFFD; 0xFFFD; 0xFFFD; 0xFFFD; 0xFFFD; 0xFFFD; 0xFFFD;
  0xFFFD; 0xFFFD; 0xFFFD; 0xFFFD; 0xFFFD; 0xFFFD; 0xFFFD; 0xFFFD;
  0xFFFD; 0xFFFD; 0xFFFD; 0xFFFD; 0xFFFD; 0xFFFD; 0xFFFD; 0xFFFD;
  0xFFFD; 0xFFFD; 0xFFFD; 0xFFFD; 0xFFFD; 0xFFFD; 0xFFFD; 0xFFFD;
  0xFFFD; 0xFFFD; 0xFFFD; 0xFFFD; 0xFFFD; 0xFFFD; 0xFFFD; 0xFFFD;
  0xFFFD; 0xFFFD; 0xFFFD; 0xFFFD; 0xFFFD; 0xFFFD; 0xFFFD; 0xFFFD;
  0xFFFD; 0xFFFD; 0xFFFD; 0xFFFD; 0xFFFD; 0xFFFD; 0xFFFD; 0xFFFD;
  0xFFFD; 0xFFFD; 0xFFFD; 0xFFFD; 0xFFFD; 0xFFFD; 0xFFFD; 0xFFFD;
  0xFFFD; 0xFFFD; 0xFFFD; 0xFFFD; 0xFFFD; 0xFFFD; 0xFFFD; 0xFFFD;
  0xFFFD; 0xFFFD; 0xFFFD; 0xFFFD; 0xFFFD; 0xFFFD; 0xFFFD; 0xFFFD;
  0xFFFD; 0xFFFD; 0xFFFD; 0xFFFD; 0xFFFD; 0xFFFD; 0xFFFD; 0xFFFD;
  0xFFFD; 0xFFFD; 0xFFFD; 0xFFFD; 0xFFFD; 0xFFFD; 0xFFFD; 0xFFFD;
  0xFFFD; 0xFFFD; 0xFFFD; 0xFFFD; 0xFFFD; 0xFFFD; 0xFFFD; 0xFFFD;
  0xFFFD; 0xFFFD; 0xFFFD; 0xFFFD; 0xFFFD; 0xFFFD; 0xFFFD; 0xFFFD;
  0xFFFD; 0xFFFD; 0xFFFD; 0xFFFD; 0xFFFD; 0xFFFD; 0xFFFD; 0xFFFD;
  0xFFFD; 0xFFFD; 0xFFFD; 0xFFFD; 0xFFFD; 0xFFFD; 0xFFFD; 0xFFFD
].
(* src/generated/whatwg/shiftjis_whatwg_tables.rs.inc:4-1393 DECODE_TABLE, entries 8192..8447 *)
Definition sjis_decode_table_32 : list N := [
  0xFFFD; 0xFFFD; 0xFFFD; 0xFFFD; 0xFFFD; 0xFFFD; 0xFFFD; 0xFFFD;
  0xFFFD; 0xFFFD; 0xFFFD; 0xFFFD; 0xFFFD; 0xFFFD; 0xFFFD; 0xFFFD;
  0xFFFD; 0xFFFD; 0xFFFD; 0xFFFD; 0xFFFD; 0xFFFD; 0xFFFD; 0xFFFD;
  0xFFFD; 0xFFFD; 0xFFFD; 0xFFFD; 0xFFFD; 0xFFFD; 0xFFFD; 0xFFFD;
  0xFFFD; 0xFFFD; 0xFFFD; 0xFFFD; 0xFFFD; 0xFFFD; 0xFFFD; 0xFFFD;
  0xFFFD; 0xFFFD; 0xFFFD; 0xFFFD; 0xFFFD; 0xFFFD; 0xFFFD; 0xFFFD;
  0xFFFD; 0xFFFD; 0xFFFD; 0xFFFD; 0xFFFD; 0xFFFD; 0xFFFD; 0xFFFD;
  0xFFFD; 0xFFFD; 0xFFFD; 0xFFFD; 0xFFFD; 0xFFFD; 0xFFFD; 0xFFFD;
  0xFFFD; 0xFFFD; 0xFFFD; 0xFFFD; 0xFFFD; 0xFFFD; 0xFFFD; 0xFFFD;
  0xFFFD; 0xFFFD; 0xFFFD; 0xFFFD; 0xFFFD; 0xFFFD; 0xFFFD; 0xFFFD;
  0x7E8A; 0x891C; 0x9348; 0x9288; 0x84DC; 0x4FC9; 0x70BB; 0x6631;
  0x68C8; 0x92F9; 0x66FB; 0x5F45; 0x4E28; 0x4EE1; 0x4EFC; 0x4F00;
  0x4F03; 0x4F39; 0x4F56; 0x4F92; 0x4F8A; 0x4F9A; 0x4F94; 0x4FCD;
  0x5040; 0x5022; 0x4FFF; 0x501E; 0x5046; 0x5070; 0x5042; 0x5094;
  0x50F4; 0x50D8; 0x514A; 0x5164; 0x519D; 0x51BE; 0x51EC; 0x5215;
  0x529C; 0x52A6; 0x52C0; 0x52DB; 0x5300; 0x5307; 0x5324; 0x5372;
  0x5393; 0x53B2; 0x53DD; 0xFA0E; 0x549C; 0x548A; 0x54A9; 0x54FF;
  0x5586; 0x5759; 0x5765; 0x57AC; 0x57C8; 0x57C7; 0xFA0F; 0xFA10;
  0x589E; 0x58B2; 0x590B; 0x5953; 0x595B; 0x595D; 0x5963; 0x59A4;
  0x59BA; 0x5B56; 0x5BC0; 0x752F; 0x5BD8; 0x5BEC; 0x5C1E; 0x5CA6;
  0x5CBA; 0x5CF5; 0x5D27; 0x5D53; 0xFA11; 0x5D42; 0x5D6D; 0x5DB8;
  0x5DB9; 0x5DD0; 0x5F21; 0x5F34; 0x5F67; 0x5FB7; 0x5FDE; 0x605D;
  0x6085; 0x608A; 0x60DE; 0x60D5; 0x6120; 0x60F2; 0x6111; 0x6137;
  0x6130; 0x6198; 0x6213; 0x62A6; 0x63F5; 0x6460; 0x649D; 0x64CE;
  0x654E; 0x6600; 0x6615; 0x663B; 0x6609; 0x662E; 0x661E; 0x6624;
  0x6665; 0x6657; 0x6659; 0xFA12; 0x6673; 0x6699; 0x66A0; 0x66B2;
  0x66BF; 0x66FA; 0x670E; 0xF929; 0x6766; 0x67BB; 0x6852; 0x67C0;
  0x6801; 0x6844; 0x68CF; 0xFA13; 0x6968; 0xFA14; 0x6998; 0x69E2;
  0x6A30; 0x6A6B; 0x6A46; 0x6A73; 0x6A7E; 0x6AE2; 0x6AE4; 0x6BD6;
  0x6C3F; 0x6C5C; 0x6C86; 0x6C6F; 0x6CDA; 0x6D04; 0x6D87; 0x6D6F;
  0x6D96; 0x6DAC; 0x6DCF; 0x6DF8; 0x6DF2; 0x6DFC; 0x6E39; 0x6E5C;
  0x6E27; 0x6E3C; 0x6EBF; 0x6F88; 0x6FB5; 0x6FF5; 0x7005; 0x7007
].
(* src/generated/whatwg/shiftjis_whatwg_tables.rs.inc:4-1393 DECODE_TABLE, entries 8448..8703 *)
Definition sjis_decode_table_33 : list N := [
  0x7028; 0x7085; 0x70AB; 0x710F; 0x7104; 0x715C; 0x7146; 0x7147;
  0xFA15; 0x71C1; 0x71FE; 0x72B1; 0x72BE; 0x7324; 0xFA16; 0x7377;
  0x73BD; 0x73C9; 0x73D6; 0x73E3; 0x73D2; 0x7407; 0x73F5; 0x7426;
  0x742A; 0x7429; 0x742E; 0x7462; 0x7489; 0x749F; 0x7501; 0x756F;
  0x7682; 0x769C; 0x769E; 0x769B; 0x76A6; 0xFA17; 0x7746; 0x52AF;
  0x7821; 0x784E; 0x7864; 0x787A; 0x7930; 0xFA18; 0xFA19; 0xFA1A;
  0x7994; 0xFA1B; 0x799B; 0x7AD1; 0x7AE7; 0xFA1C; 0x7AEB; 0x7B9E;
  0xFA1D; 0x7D48; 0x7D5C; 0x7DB7; 0x7DA0; 0x7DD6; 0x7E52; 0x7F47;
  0x7FA1; 0xFA1E; 0x8301; 0x8362; 0x837F; 0x83C7; 0x83F6; 0x8448;
  0x84B4; 0x8553; 0x8559; 0x856B; 0xFA1F; 0x85B0; 0xFA20; 0xFA21;
  0x8807; 0x88F5; 0x8A12; 0x8A37; 0x8A79; 0x8AA7; 0x8ABE; 0x8ADF;
  0xFA22; 0x8AF6; 0x8B53; 0x8B7F; 0x8CF0; 0x8CF4; 0x8D12; 0x8D76;
  0xFA23; 0x8ECF; 0xFA24; 0xFA25; 0x9067; 0x90DE; 0xFA26; 0x9115;
  0x9127; 0x91DA; 0x91D7; 0x91DE; 0x91ED; 0x91EE; 0x91E4; 0x91E5;
  0x9206; 0x9210; 0x920A; 0x923A; 0x9240; 0x923C; 0x924E; 0x9259;
  0x9251; 0x9239; 0x9267; 0x92A7; 0x9277; 0x9278; 0x92E7; 0x92D7;
  0x92D9; 0x92D0; 0xFA27; 0x92D5; 0x92E0; 0x92D3; 0x9325; 0x9321;
  0x92FB; 0xFA28; 0x931E; 0x92FF; 0x931D; 0x9302; 0x9370; 0x9357;
  0x93A4; 0x93C6; 0x93DE; 0x93F8; 0x9431; 0x9445; 0x9448; 0x9592;
  0xF9DC; 0xFA29; 0x969D; 0x96AF; 0x9733; 0x973B; 0x9743; 0x974D;
  0x974F; 0x9751; 0x9755; 0x9857; 0x9865; 0xFA2A; 0xFA2B; 0x9927;
  0xFA2C; 0x999E; 0x9A4E; 0x9AD9; 0x9ADC; 0x9B75; 0x9B72; 0x9B8F;
  0x9BB1; 0x9BBB; 0x9C00; 0x9D70; 0x9D6B; 0xFA2D; 0x9E19; 0x9ED1;
  0xFFFD; 0xFFFD; 0x2170; 0x2171; 0x2172; 0x2173; 0x2174; 0x2175;
  0x2176; 0x2177; 0x2178; 0x2179; 0xFFE2; 0xFFE4; 0xFF07; 0xFF02;
  0xFFFD; 0xFFFD; 0xFFFD; 0xFFFD; 0xFFFD; 0xFFFD; 0xFFFD; 0xFFFD;
  0xFFFD; 0xFFFD; 0xFFFD; 0xFFFD; 0xFFFD; 0xFFFD; 0xFFFD; 0xFFFD;
  0xFFFD; 0xFFFD; 0xFFFD; 0xFFFD; 0xFFFD; 0xFFFD; 0xFFFD; 0xFFFD;
  0xFFFD; 0xFFFD; 0xFFFD; 0xFFFD; 0xFFFD; 0xFFFD; 0xFFFD; 0xFFFD;
  0xFFFD; 0xFFFD; 0xFFFD; 0xFFFD; 0xFFFD; 0xFFFD; 0xFFFD; 0xFFFD;
  0xFFFD; 0xFFFD; 0xFFFD; 0xFFFD; 0xFFFD; 0xFFFD; 0xFFFD; 0xFFFD;
  0xFFFD; 0xFFFD; 0xFFFD; 0xFFFD; 0xFFFD; 0xFFFD; 0xFFFD; 0xFFFD
].
(* src/generated/whatwg/shiftjis_whatwg_tables.rs.inc:4-1393 DECODE_TABLE, entries 8704..8959 *)
Definition sjis_decode_table_34 : list N := [
  0xFFFD; 0xFFFD; 0xFFFD; 0xFFFD; 0xFFFD; 0xFFFD; 0xFFFD; 0xFFFD;
  0xFFFD; 0xFFFD; 0xFFFD; 0xFFFD; 0xFFFD; 0xFFFD; 0xFFFD; 0xFFFD;
  0xFFFD; 0xFFFD; 0xFFFD; 0xFFFD; 0xFFFD; 0xFFFD; 0xFFFD; 0xFFFD;
  0xFFFD; 0xFFFD; 0xFFFD; 0xFFFD; 0xFFFD; 0xFFFD; 0xFFFD; 0xFFFD;
  0xFFFD; 0xFFFD; 0xFFFD; 0xFFFD; 0xFFFD; 0xFFFD; 0xFFFD; 0xFFFD;
  0xFFFD; 0xFFFD; 0xFFFD; 0xFFFD; 0xFFFD; 0xFFFD; 0xFFFD; 0xFFFD;
  0xFFFD; 0xFFFD; 0xFFFD; 0xFFFD; 0xFFFD; 0xFFFD; 0xFFFD; 0xFFFD;
  0xFFFD; 0xFFFD; 0xFFFD; 0xFFFD; 0xFFFD; 0xFFFD; 0xFFFD; 0xFFFD;
  0xFFFD; 0xFFFD; 0xFFFD; 0xFFFD; 0xFFFD; 0xFFFD; 0xFFFD; 0xFFFD;
  0xFFFD; 0xFFFD; 0xFFFD; 0xFFFD; 0xFFFD; 0xFFFD; 0xFFFD; 0xFFFD;
  0xFFFD; 0xFFFD; 0xFFFD; 0xFFFD; 0xFFFD; 0xFFFD; 0xFFFD; 0xFFFD;
  0xFFFD; 0xFFFD; 0xFFFD; 0xFFFD; 0xFFFD; 0xFFFD; 0xFFFD; 0xFFFD;
  0xFFFD; 0xFFFD; 0xFFFD; 0xFFFD; 0xFFFD; 0xFFFD; 0xFFFD; 0xFFFD;
  0xFFFD; 0xFFFD; 0xFFFD; 0xFFFD; 0xFFFD; 0xFFFD; 0xFFFD; 0xFFFD;
  0xFFFD; 0xFFFD; 0xFFFD; 0xFFFD; 0xFFFD; 0xFFFD; 0xFFFD; 0xFFFD;
  0xFFFD; 0xFFFD; 0xFFFD; 0xFFFD; 0xFFFD; 0xFFFD; 0xFFFD; 0xFFFD;
  0xFFFD; 0xFFFD; 0xFFFD; 0xFFFD; 0xFFFD; 0xFFFD; 0xFFFD; 0xFFFD;
  0xFFFD; 0xFFFD; 0xFFFD; 0xFFFD; 0xFFFD; 0xFFFD; 0xFFFD; 0xFFFD;
  0xFFFD; 0xFFFD; 0xFFFD; 0xFFFD; 0xFFFD; 0xFFFD; 0xFFFD; 0xFFFD;
  0xFFFD; 0xFFFD; 0xFFFD; 0xFFFD; 0xFFFD; 0xFFFD; 0xFFFD; 0xFFFD;
  0xFFFD; 0xFFFD; 0xFFFD; 0xFFFD; 0xFFFD; 0xFFFD; 0xFFFD; 0xFFFD;
  0xFFFD; 0xFFFD; 0xFFFD; 0xFFFD; 0xFFFD; 0xFFFD; 0xFFFD; 0xFFFD;
  0xFFFD; 0xFFFD; 0xFFFD; 0xFFFD; 0xFFFD; 0xFFFD; 0xFFFD; 0xFFFD;
  0xFFFD; 0xFFFD; 0xFFFD; 0xFFFD; 0xFFFD; 0xFFFD; 0xFFFD; 0xFFFD;
  0xFFFD; 0xFFFD; 0xFFFD; 0xFFFD; 0xFFFD; 0xFFFD; 0xFFFD; 0xFFFD;
  0xFFFD; 0xFFFD; 0xFFFD; 0xFFFD; 0xFFFD; 0xFFFD; 0xFFFD; 0xFFFD;
  0xFFFD; 0xFFFD; 0xFFFD; 0xFFFD; 0xFFFD; 0xFFFD; 0xFFFD; 0xFFFD;
  0xFFFD; 0xFFFD; 0xFFFD; 0xFFFD; 0xFFFD; 0xFFFD; 0xFFFD; 0xFFFD;
  0xFFFD; 0xFFFD; 0xFFFD; 0xFFFD; 0xFFFD; 0xFFFD; 0xFFFD; 0xFFFD;
  0xFFFD; 0xFFFD; 0xFFFD; 0xFFFD; 0xFFFD; 0xFFFD; 0xFFFD; 0xFFFD;
  0xFFFD; 0xFFFD; 0xFFFD; 0xFFFD; 0xFFFD; 0xFFFD; 0xFFFD; 0xFFFD;
  0xFFFD; 0xFFFD; 0xFFFD; 0xFFFD; 0xFFFD; 0xFFFD; 0xFFFD; 0xFFFD
].
(* src/generated/whatwg/shiftjis_whatwg_tables.rs.inc:4-1393 DECODE_TABLE, entries 8960..9215 *)
Definition sjis_decode_table_35 : list N := [
  0xFFFD; 0xFFFD; 0xFFFD; 0xFFFD; 0xFFFD; 0xFFFD; 0xFFFD; 0xFFFD;
  0xFFFD; 0xFFFD; 0xFFFD; 0xFFFD; 0xFFFD; 0xFFFD; 0xFFFD; 0xFFFD;
  0xFFFD; 0xFFFD; 0xFFFD; 0xFFFD; 0xFFFD; 0xFFFD; 0xFFFD; 0xFFFD;
  0xFFFD; 0xFFFD; 0xFFFD; 0xFFFD; 0xFFFD; 0xFFFD; 0xFFFD; 0xFFFD;
  0xFFFD; 0xFFFD; 0xFFFD; 0xFFFD; 0xFFFD; 0xFFFD; 0xFFFD; 0xFFFD;
  0xFFFD; 0xFFFD; 0xFFFD; 0xFFFD; 0xFFFD; 0xFFFD; 0xFFFD; 0xFFFD;
  0xFFFD; 0xFFFD; 0xFFFD; 0xFFFD; 0xFFFD; 0xFFFD; 0xFFFD; 0xFFFD;
  0xFFFD; 0xFFFD; 0xFFFD; 0xFFFD; 0xFFFD; 0xFFFD; 0xFFFD; 0xFFFD;
  0xFFFD; 0xFFFD; 0xFFFD; 0xFFFD; 0xFFFD; 0xFFFD; 0xFFFD; 0xFFFD;
  0xFFFD; 0xFFFD; 0xFFFD; 0xFFFD; 0xFFFD; 0xFFFD; 0xFFFD; 0xFFFD;
  0xFFFD; 0xFFFD; 0xFFFD; 0xFFFD; 0xFFFD; 0xFFFD; 0xFFFD; 0xFFFD;
  0xFFFD; 0xFFFD; 0xFFFD; 0xFFFD; 0xFFFD; 0xFFFD; 0xFFFD; 0xFFFD;
  0xFFFD; 0xFFFD; 0xFFFD; 0xFFFD; 0xFFFD; 0xFFFD; 0xFFFD; 0xFFFD;
  0xFFFD; 0xFFFD; 0xFFFD; 0xFFFD; 0xFFFD; 0xFFFD; 0xFFFD; 0xFFFD;
  0xFFFD; 0xFFFD; 0xFFFD; 0xFFFD; 0xFFFD; 0xFFFD; 0xFFFD; 0xFFFD;
  0xFFFD; 0xFFFD; 0xFFFD; 0xFFFD; 0xFFFD; 0xFFFD; 0xFFFD; 0xFFFD;
  0xFFFD; 0xFFFD; 0xFFFD; 0xFFFD; 0xFFFD; 0xFFFD; 0xFFFD; 0xFFFD;
  0xFFFD; 0xFFFD; 0xFFFD; 0xFFFD; 0xFFFD; 0xFFFD; 0xFFFD; 0xFFFD;
  0xFFFD; 0xFFFD; 0xFFFD; 0xFFFD; 0xFFFD; 0xFFFD; 0xFFFD; 0xFFFD;
  0xFFFD; 0xFFFD; 0xFFFD; 0xFFFD; 0xFFFD; 0xFFFD; 0xFFFD; 0xFFFD;
  0xFFFD; 0xFFFD; 0xFFFD; 0xFFFD; 0xFFFD; 0xFFFD; 0xFFFD; 0xFFFD;
  0xFFFD; 0xFFFD; 0xFFFD; 0xFFFD; 0xFFFD; 0xFFFD; 0xFFFD; 0xFFFD;
  0xFFFD; 0xFFFD; 0xFFFD; 0xFFFD; 0xFFFD; 0xFFFD; 0xFFFD; 0xFFFD;
  0xFFFD; 0xFFFD; 0xFFFD; 0xFFFD; 0xFFFD; 0xFFFD; 0xFFFD; 0xFFFD;
  0xFFFD; 0xFFFD; 0xFFFD; 0xFFFD; 0xFFFD; 0xFFFD; 0xFFFD; 0xFFFD;
  0xFFFD; 0xFFFD; 0xFFFD; 0xFFFD; 0xFFFD; 0xFFFD; 0xFFFD; 0xFFFD;
  0xFFFD; 0xFFFD; 0xFFFD; 0xFFFD; 0xFFFD; 0xFFFD; 0xFFFD; 0xFFFD;
  0xFFFD; 0xFFFD; 0xFFFD; 0xFFFD; 0xFFFD; 0xFFFD; 0xFFFD; 0xFFFD;
  0xFFFD; 0xFFFD; 0xFFFD; 0xFFFD; 0xFFFD; 0xFFFD; 0xFFFD; 0xFFFD;
  0xFFFD; 0xFFFD; 0xFFFD; 0xFFFD; 0xFFFD; 0xFFFD; 0xFFFD; 0xFFFD;
  0xFFFD; 0xFFFD; 0xFFFD; 0xFFFD; 0xFFFD; 0xFFFD; 0xFFFD; 0xFFFD;
  0xFFFD; 0xFFFD; 0xFFFD; 0xFFFD; 0xFFFD; 0xFFFD; 0xFFFD; 0xFFFD
].
(* src/generated/whatwg/shiftjis_whatwg_tables.rs.inc:4-1393 DECODE_TABLE, entries 9216..9471 *)
Definition sjis_decode_table_36 : list N := [
  0xFFFD; 0xFFFD; 0xFFFD; 0xFFFD; 0xFFFD; 0xFFFD; 0xFFFD; 0xFFFD;
  0xFFFD; 0xFFFD; 0xFFFD; 0xFFFD; 0xFFFD; 0xFFFD; 0xFFFD; 0xFFFD;
  0xFFFD; 0xFFFD; 0xFFFD; 0xFFFD; 0xFFFD; 0xFFFD; 0xFFFD; 0xFFFD;
  0xFFFD; 0xFFFD; 0xFFFD; 0xFFFD; 0xFFFD; 0xFFFD; 0xFFFD; 0xFFFD;
  0xFFFD; 0xFFFD; 0xFFFD; 0xFFFD; 0xFFFD; 0xFFFD; 0xFFFD; 0xFFFD;
  0xFFFD; 0xFFFD; 0xFFFD; 0xFFFD; 0xFFFD; 0xFFFD; 0xFFFD; 0xFFFD;
  0xFFFD; 0xFFFD; 0xFFFD; 0xFFFD; 0xFFFD; 0xFFFD; 0xFFFD; 0xFFFD;
  0xFFFD; 0xFFFD; 0xFFFD; 0xFFFD; 0xFFFD; 0xFFFD; 0xFFFD; 0xFFFD;
  0xFFFD; 0xFFFD; 0xFFFD; 0xFFFD; 0xFFFD; 0xFFFD; 0xFFFD; 0xFFFD;
  0xFFFD; 0xFFFD; 0xFFFD; 0xFFFD; 0xFFFD; 0xFFFD; 0xFFFD; 0xFFFD;
  0xFFFD; 0xFFFD; 0xFFFD; 0xFFFD; 0xFFFD; 0xFFFD; 0xFFFD; 0xFFFD;
  0xFFFD; 0xFFFD; 0xFFFD; 0xFFFD; 0xFFFD; 0xFFFD; 0xFFFD; 0xFFFD;
  0xFFFD; 0xFFFD; 0xFFFD; 0xFFFD; 0xFFFD; 0xFFFD; 0xFFFD; 0xFFFD;
  0xFFFD; 0xFFFD; 0xFFFD; 0xFFFD; 0xFFFD; 0xFFFD; 0xFFFD; 0xFFFD;
  0xFFFD; 0xFFFD; 0xFFFD; 0xFFFD; 0xFFFD; 0xFFFD; 0xFFFD; 0xFFFD;
  0xFFFD; 0xFFFD; 0xFFFD; 0xFFFD; 0xFFFD; 0xFFFD; 0xFFFD; 0xFFFD;
  0xFFFD; 0xFFFD; 0xFFFD; 0xFFFD; 0xFFFD; 0xFFFD; 0xFFFD; 0xFFFD;
  0xFFFD; 0xFFFD; 0xFFFD; 0xFFFD; 0xFFFD; 0xFFFD; 0xFFFD; 0xFFFD;
  0xFFFD; 0xFFFD; 0xFFFD; 0xFFFD; 0xFFFD; 0xFFFD; 0xFFFD; 0xFFFD;
  0xFFFD; 0xFFFD; 0xFFFD; 0xFFFD; 0xFFFD; 0xFFFD; 0xFFFD; 0xFFFD;
  0xFFFD; 0xFFFD; 0xFFFD; 0xFFFD; 0xFFFD; 0xFFFD; 0xFFFD; 0xFFFD;
  0xFFFD; 0xFFFD; 0xFFFD; 0xFFFD; 0xFFFD; 0xFFFD; 0xFFFD; 0xFFFD;
  0xFFFD; 0xFFFD; 0xFFFD; 0xFFFD; 0xFFFD; 0xFFFD; 0xFFFD; 0xFFFD;
  0xFFFD; 0xFFFD; 0xFFFD; 0xFFFD; 0xFFFD; 0xFFFD; 0xFFFD; 0xFFFD;
  0xFFFD; 0xFFFD; 0xFFFD; 0xFFFD; 0xFFFD; 0xFFFD; 0xFFFD; 0xFFFD;
  0xFFFD; 0xFFFD; 0xFFFD; 0xFFFD; 0xFFFD; 0xFFFD; 0xFFFD; 0xFFFD;
  0xFFFD; 0xFFFD; 0xFFFD; 0xFFFD; 0xFFFD; 0xFFFD; 0xFFFD; 0xFFFD;
  0xFFFD; 0xFFFD; 0xFFFD; 0xFFFD; 0xFFFD; 0xFFFD; 0xFFFD; 0xFFFD;
  0xFFFD; 0xFFFD; 0xFFFD; 0xFFFD; 0xFFFD; 0xFFFD; 0xFFFD; 0xFFFD;
  0xFFFD; 0xFFFD; 0xFFFD; 0xFFFD; 0xFFFD; 0xFFFD; 0xFFFD; 0xFFFD;
  0xFFFD; 0xFFFD; 0xFFFD; 0xFFFD; 0xFFFD; 0xFFFD; 0xFFFD; 0xFFFD;
  0xFFFD; 0xFFFD; 0xFFFD; 0xFFFD; 0xFFFD; 0xFFFD; 0xFFFD; 0xFFFD
].
(* src/generated/whatwg/shiftjis_whatwg_tables.rs.inc:4-1393 DECODE_TABLE, entries 9472..9727 *)
Definition sjis_decode_table_37 : list N := [
  0xFFFD; 0xFFFD; 0xFFFD; 0xFFFD; 0xFFFD; 0xFFFD; 0xFFFD; 0xFFFD;
  0xFFFD; 0xFFFD; 0xFFFD; 0xFFFD; 0xFFFD; 0xFFFD; 0xFFFD; 0xFFFD;
  0xFFFD; 0xFFFD; 0xFFFD; 0xFFFD; 0xFFFD; 0xFFFD; 0xFFFD; 0xFFFD;
  0xFFFD; 0xFFFD; 0xFFFD; 0xFFFD; 0xFFFD; 0xFFFD; 0xFFFD; 0xFFFD;
  0xFFFD; 0xFFFD; 0xFFFD; 0xFFFD; 0xFFFD; 0xFFFD; 0xFFFD; 0xFFFD;
  0xFFFD; 0xFFFD; 0xFFFD; 0xFFFD; 0xFFFD; 0xFFFD; 0xFFFD; 0xFFFD;
  0xFFFD; 0xFFFD; 0xFFFD; 0xFFFD; 0xFFFD; 0xFFFD; 0xFFFD; 0xFFFD;
  0xFFFD; 0xFFFD; 0xFFFD; 0xFFFD; 0xFFFD; 0xFFFD; 0xFFFD; 0xFFFD;
  0xFFFD; 0xFFFD; 0xFFFD; 0xFFFD; 0xFFFD; 0xFFFD; 0xFFFD; 0xFFFD;
  0xFFFD; 0xFFFD; 0xFFFD; 0xFFFD; 0xFFFD; 0xFFFD; 0xFFFD; 0xFFFD;
  0xFFFD; 0xFFFD; 0xFFFD; 0xFFFD; 0xFFFD; 0xFFFD; 0xFFFD; 0xFFFD;
  0xFFFD; 0xFFFD; 0xFFFD; 0xFFFD; 0xFFFD; 0xFFFD; 0xFFFD; 0xFFFD;
  0xFFFD; 0xFFFD; 0xFFFD; 0xFFFD; 0xFFFD; 0xFFFD; 0xFFFD; 0xFFFD;
  0xFFFD; 0xFFFD; 0xFFFD; 0xFFFD; 0xFFFD; 0xFFFD; 0xFFFD; 0xFFFD;
  0xFFFD; 0xFFFD; 0xFFFD; 0xFFFD; 0xFFFD; 0xFFFD; 0xFFFD; 0xFFFD;
  0xFFFD; 0xFFFD; 0xFFFD; 0xFFFD; 0xFFFD; 0xFFFD; 0xFFFD; 0xFFFD;
  0xFFFD; 0xFFFD; 0xFFFD; 0xFFFD; 0xFFFD; 0xFFFD; 0xFFFD; 0xFFFD;
  0xFFFD; 0xFFFD; 0xFFFD; 0xFFFD; 0xFFFD; 0xFFFD; 0xFFFD; 0xFFFD;
  0xFFFD; 0xFFFD; 0xFFFD; 0xFFFD; 0xFFFD; 0xFFFD; 0xFFFD; 0xFFFD;
  0xFFFD; 0xFFFD; 0xFFFD; 0xFFFD; 0xFFFD; 0xFFFD; 0xFFFD; 0xFFFD;
  0xFFFD; 0xFFFD; 0xFFFD; 0xFFFD; 0xFFFD; 0xFFFD; 0xFFFD; 0xFFFD;
  0xFFFD; 0xFFFD; 0xFFFD; 0xFFFD; 0xFFFD; 0xFFFD; 0xFFFD; 0xFFFD;
  0xFFFD; 0xFFFD; 0xFFFD; 0xFFFD; 0xFFFD; 0xFFFD; 0xFFFD; 0xFFFD;
  0xFFFD; 0xFFFD; 0xFFFD; 0xFFFD; 0xFFFD; 0xFFFD; 0xFFFD; 0xFFFD;
  0xFFFD; 0xFFFD; 0xFFFD; 0xFFFD; 0xFFFD; 0xFFFD; 0xFFFD; 0xFFFD;
  0xFFFD; 0xFFFD; 0xFFFD; 0xFFFD; 0xFFFD; 0xFFFD; 0xFFFD; 0xFFFD;
  0xFFFD; 0xFFFD; 0xFFFD; 0xFFFD; 0xFFFD; 0xFFFD; 0xFFFD; 0xFFFD;
  0xFFFD; 0xFFFD; 0xFFFD; 0xFFFD; 0xFFFD; 0xFFFD; 0xFFFD; 0xFFFD;
  0xFFFD; 0xFFFD; 0xFFFD; 0xFFFD; 0xFFFD; 0xFFFD; 0xFFFD; 0xFFFD;
  0xFFFD; 0xFFFD; 0xFFFD; 0xFFFD; 0xFFFD; 0xFFFD; 0xFFFD; 0xFFFD;
  0xFFFD; 0xFFFD; 0xFFFD; 0xFFFD; 0xFFFD; 0xFFFD; 0xFFFD; 0xFFFD;
  0xFFFD; 0xFFFD; 0xFFFD; 0xFFFD; 0xFFFD; 0xFFFD; 0xFFFD; 0xFFFD
].
(* src/generated/whatwg/shiftjis_whatwg_tables.rs.inc:4-1393 DECODE_TABLE, entries 9728..9983 *)
Definition sjis_decode_table_38 : list N := [
  0xFFFD; 0xFFFD; 0xFFFD; 0xFFFD; 0xFFFD; 0xFFFD; 0xFFFD; 0xFFFD;
  0xFFFD; 0xFFFD; 0xFFFD; 0xFFFD; 0xFFFD; 0xFFFD; 0xFFFD; 0xFFFD;
  0xFFFD; 0xFFFD; 0xFFFD; 0xFFFD; 0xFFFD; 0xFFFD; 0xFFFD; 0xFFFD;
  0xFFFD; 0xFFFD; 0xFFFD; 0xFFFD; 0xFFFD; 0xFFFD; 0xFFFD; 0xFFFD;
  0xFFFD; 0xFFFD; 0xFFFD; 0xFFFD; 0xFFFD; 0xFFFD; 0xFFFD; 0xFFFD;
  0xFFFD; 0xFFFD; 0xFFFD; 0xFFFD; 0xFFFD; 0xFFFD; 0xFFFD; 0xFFFD;
  0xFFFD; 0xFFFD; 0xFFFD; 0xFFFD; 0xFFFD; 0xFFFD; 0xFFFD; 0xFFFD;
  0xFFFD; 0xFFFD; 0xFFFD; 0xFFFD; 0xFFFD; 0xFFFD; 0xFFFD; 0xFFFD;
  0xFFFD; 0xFFFD; 0xFFFD; 0xFFFD; 0xFFFD; 0xFFFD; 0xFFFD; 0xFFFD;
  0xFFFD; 0xFFFD; 0xFFFD; 0xFFFD; 0xFFFD; 0xFFFD; 0xFFFD; 0xFFFD;
  0xFFFD; 0xFFFD; 0xFFFD; 0xFFFD; 0xFFFD; 0xFFFD; 0xFFFD; 0xFFFD;
  0xFFFD; 0xFFFD; 0xFFFD; 0xFFFD; 0xFFFD; 0xFFFD; 0xFFFD; 0xFFFD;
  0xFFFD; 0xFFFD; 0xFFFD; 0xFFFD; 0xFFFD; 0xFFFD; 0xFFFD; 0xFFFD;
  0xFFFD; 0xFFFD; 0xFFFD; 0xFFFD; 0xFFFD; 0xFFFD; 0xFFFD; 0xFFFD;
  0xFFFD; 0xFFFD; 0xFFFD; 0xFFFD; 0xFFFD; 0xFFFD; 0xFFFD; 0xFFFD;
  0xFFFD; 0xFFFD; 0xFFFD; 0xFFFD; 0xFFFD; 0xFFFD; 0xFFFD; 0xFFFD;
  0xFFFD; 0xFFFD; 0xFFFD; 0xFFFD; 0xFFFD; 0xFFFD; 0xFFFD; 0xFFFD;
  0xFFFD; 0xFFFD; 0xFFFD; 0xFFFD; 0xFFFD; 0xFFFD; 0xFFFD; 0xFFFD;
  0xFFFD; 0xFFFD; 0xFFFD; 0xFFFD; 0xFFFD; 0xFFFD; 0xFFFD; 0xFFFD;
  0xFFFD; 0xFFFD; 0xFFFD; 0xFFFD; 0xFFFD; 0xFFFD; 0xFFFD; 0xFFFD;
  0xFFFD; 0xFFFD; 0xFFFD; 0xFFFD; 0xFFFD; 0xFFFD; 0xFFFD; 0xFFFD;
  0xFFFD; 0xFFFD; 0xFFFD; 0xFFFD; 0xFFFD; 0xFFFD; 0xFFFD; 0xFFFD;
  0xFFFD; 0xFFFD; 0xFFFD; 0xFFFD; 0xFFFD; 0xFFFD; 0xFFFD; 0xFFFD;
  0xFFFD; 0xFFFD; 0xFFFD; 0xFFFD; 0xFFFD; 0xFFFD; 0xFFFD; 0xFFFD;
  0xFFFD; 0xFFFD; 0xFFFD; 0xFFFD; 0xFFFD; 0xFFFD; 0xFFFD; 0xFFFD;
  0xFFFD; 0xFFFD; 0xFFFD; 0xFFFD; 0xFFFD; 0xFFFD; 0xFFFD; 0xFFFD;
  0xFFFD; 0xFFFD; 0xFFFD; 0xFFFD; 0xFFFD; 0xFFFD; 0xFFFD; 0xFFFD;
  0xFFFD; 0xFFFD; 0xFFFD; 0xFFFD; 0xFFFD; 0xFFFD; 0xFFFD; 0xFFFD;
  0xFFFD; 0xFFFD; 0xFFFD; 0xFFFD; 0xFFFD; 0xFFFD; 0xFFFD; 0xFFFD;
  0xFFFD; 0xFFFD; 0xFFFD; 0xFFFD; 0xFFFD; 0xFFFD; 0xFFFD; 0xFFFD;
  0xFFFD; 0xFFFD; 0xFFFD; 0xFFFD; 0xFFFD; 0xFFFD; 0xFFFD; 0xFFFD;
  0xFFFD; 0xFFFD; 0xFFFD; 0xFFFD; 0xFFFD; 0xFFFD; 0xFFFD; 0xFFFD
].
(* src/generated/whatwg/shiftjis_whatwg_tables.rs.inc:4-1393 DECODE_TABLE, entries 9984..10239 *)
Definition sjis_decode_table_39 : list N := [
  0xFFFD; 0xFFFD; 0xFFFD; 0xFFFD; 0xFFFD; 0xFFFD; 0xFFFD; 0xFFFD;
  0xFFFD; 0xFFFD; 0xFFFD; 0xFFFD; 0xFFFD; 0xFFFD; 0xFFFD; 0xFFFD;
  0xFFFD; 0xFFFD; 0xFFFD; 0xFFFD; 0xFFFD; 0xFFFD; 0xFFFD; 0xFFFD;
  0xFFFD; 0xFFFD; 0xFFFD; 0xFFFD; 0xFFFD; 0xFFFD; 0xFFFD; 0xFFFD;
  0xFFFD; 0xFFFD; 0xFFFD; 0xFFFD; 0xFFFD; 0xFFFD; 0xFFFD; 0xFFFD;
  0xFFFD; 0xFFFD; 0xFFFD; 0xFFFD; 0xFFFD; 0xFFFD; 0xFFFD; 0xFFFD;
  0xFFFD; 0xFFFD; 0xFFFD; 0xFFFD; 0xFFFD; 0xFFFD; 0xFFFD; 0xFFFD;
  0xFFFD; 0xFFFD; 0xFFFD; 0xFFFD; 0xFFFD; 0xFFFD; 0xFFFD; 0xFFFD;
  0xFFFD; 0xFFFD; 0xFFFD; 0xFFFD; 0xFFFD; 0xFFFD; 0xFFFD; 0xFFFD;
  0xFFFD; 0xFFFD; 0xFFFD; 0xFFFD; 0xFFFD; 0xFFFD; 0xFFFD; 0xFFFD;
  0xFFFD; 0xFFFD; 0xFFFD; 0xFFFD; 0xFFFD; 0xFFFD; 0xFFFD; 0xFFFD;
  0xFFFD; 0xFFFD; 0xFFFD; 0xFFFD; 0xFFFD; 0xFFFD; 0xFFFD; 0xFFFD;
  0xFFFD; 0xFFFD; 0xFFFD; 0xFFFD; 0xFFFD; 0xFFFD; 0xFFFD; 0xFFFD;
  0xFFFD; 0xFFFD; 0xFFFD; 0xFFFD; 0xFFFD; 0xFFFD; 0xFFFD; 0xFFFD;
  0xFFFD; 0xFFFD; 0xFFFD; 0xFFFD; 0xFFFD; 0xFFFD; 0xFFFD; 0xFFFD;
  0xFFFD; 0xFFFD; 0xFFFD; 0xFFFD; 0xFFFD; 0xFFFD; 0xFFFD; 0xFFFD;
  0xFFFD; 0xFFFD; 0xFFFD; 0xFFFD; 0xFFFD; 0xFFFD; 0xFFFD; 0xFFFD;
  0xFFFD; 0xFFFD; 0xFFFD; 0xFFFD; 0xFFFD; 0xFFFD; 0xFFFD; 0xFFFD;
  0xFFFD; 0xFFFD; 0xFFFD; 0xFFFD; 0xFFFD; 0xFFFD; 0xFFFD; 0xFFFD;
  0xFFFD; 0xFFFD; 0xFFFD; 0xFFFD; 0xFFFD; 0xFFFD; 0xFFFD; 0xFFFD;
  0xFFFD; 0xFFFD; 0xFFFD; 0xFFFD; 0xFFFD; 0xFFFD; 0xFFFD; 0xFFFD;
  0xFFFD; 0xFFFD; 0xFFFD; 0xFFFD; 0xFFFD; 0xFFFD; 0xFFFD; 0xFFFD;
  0xFFFD; 0xFFFD; 0xFFFD; 0xFFFD; 0xFFFD; 0xFFFD; 0xFFFD; 0xFFFD;
  0xFFFD; 0xFFFD; 0xFFFD; 0xFFFD; 0xFFFD; 0xFFFD; 0xFFFD; 0xFFFD;
  0xFFFD; 0xFFFD; 0xFFFD; 0xFFFD; 0xFFFD; 0xFFFD; 0xFFFD; 0xFFFD;
  0xFFFD; 0xFFFD; 0xFFFD; 0xFFFD; 0xFFFD; 0xFFFD; 0xFFFD; 0xFFFD;
  0xFFFD; 0xFFFD; 0xFFFD; 0xFFFD; 0xFFFD; 0xFFFD; 0xFFFD; 0xFFFD;
  0xFFFD; 0xFFFD; 0xFFFD; 0xFFFD; 0xFFFD; 0xFFFD; 0xFFFD; 0xFFFD;
  0xFFFD; 0xFFFD; 0xFFFD; 0xFFFD; 0xFFFD; 0xFFFD; 0xFFFD; 0xFFFD;
  0xFFFD; 0xFFFD; 0xFFFD; 0xFFFD; 0xFFFD; 0xFFFD; 0xFFFD; 0xFFFD;
  0xFFFD; 0xFFFD; 0xFFFD; 0xFFFD; 0xFFFD; 0xFFFD; 0xFFFD; 0xFFFD;
  0xFFFD; 0xFFFD; 0xFFFD; 0xFFFD; 0xFFFD; 0xFFFD; 0xFFFD; 0xFFFD
].
(* src/generated/whatwg/shiftjis_whatwg_tables.rs.inc:4-1393 DECODE_TABLE, entries 10240..10495 *)
Definition sjis_decode_table_40 : list N := [
  0xFFFD; 0xFFFD; 0xFFFD; 0xFFFD; 0xFFFD; 0xFFFD; 0xFFFD; 0xFFFD;
  0xFFFD; 0xFFFD; 0xFFFD; 0xFFFD; 0xFFFD; 0xFFFD; 0xFFFD; 0xFFFD;
  0xFFFD; 0xFFFD; 0xFFFD; 0xFFFD; 0xFFFD; 0xFFFD; 0xFFFD; 0xFFFD;
  0xFFFD; 0xFFFD; 0xFFFD; 0xFFFD; 0xFFFD; 0xFFFD; 0xFFFD; 0xFFFD;
  0xFFFD; 0xFFFD; 0xFFFD; 0xFFFD; 0xFFFD; 0xFFFD; 0xFFFD; 0xFFFD;
  0xFFFD; 0xFFFD; 0xFFFD; 0xFFFD; 0xFFFD; 0xFFFD; 0xFFFD; 0xFFFD;
  0xFFFD; 0xFFFD; 0xFFFD; 0xFFFD; 0xFFFD; 0xFFFD; 0xFFFD; 0xFFFD;
  0xFFFD; 0xFFFD; 0xFFFD; 0xFFFD; 0xFFFD; 0xFFFD; 0xFFFD; 0xFFFD;
  0xFFFD; 0xFFFD; 0xFFFD; 0xFFFD; 0xFFFD; 0xFFFD; 0xFFFD; 0xFFFD;
  0xFFFD; 0xFFFD; 0xFFFD; 0xFFFD; 0xFFFD; 0xFFFD; 0xFFFD; 0xFFFD;
  0xFFFD; 0xFFFD; 0xFFFD; 0xFFFD; 0xFFFD; 0xFFFD; 0xFFFD; 0xFFFD;
  0xFFFD; 0xFFFD; 0xFFFD; 0xFFFD; 0xFFFD; 0xFFFD; 0xFFFD; 0xFFFD;
  0xFFFD; 0xFFFD; 0xFFFD; 0xFFFD; 0xFFFD; 0xFFFD; 0xFFFD; 0xFFFD;
  0xFFFD; 0xFFFD; 0xFFFD; 0xFFFD; 0xFFFD; 0xFFFD; 0xFFFD; 0xFFFD;
  0xFFFD; 0xFFFD; 0xFFFD; 0xFFFD; 0xFFFD; 0xFFFD; 0xFFFD; 0xFFFD;
  0xFFFD; 0xFFFD; 0xFFFD; 0xFFFD; 0xFFFD; 0xFFFD; 0xFFFD; 0xFFFD;
  0xFFFD; 0xFFFD; 0xFFFD; 0xFFFD; 0xFFFD; 0xFFFD; 0xFFFD; 0xFFFD;
  0xFFFD; 0xFFFD; 0xFFFD; 0xFFFD; 0xFFFD; 0xFFFD; 0xFFFD; 0xFFFD;
  0xFFFD; 0xFFFD; 0xFFFD; 0xFFFD; 0xFFFD; 0xFFFD; 0xFFFD; 0xFFFD;
  0xFFFD; 0xFFFD; 0xFFFD; 0xFFFD; 0xFFFD; 0xFFFD; 0xFFFD; 0xFFFD;
  0xFFFD; 0xFFFD; 0xFFFD; 0xFFFD; 0xFFFD; 0xFFFD; 0xFFFD; 0xFFFD;
  0xFFFD; 0xFFFD; 0xFFFD; 0xFFFD; 0xFFFD; 0xFFFD; 0xFFFD; 0xFFFD;
  0xFFFD; 0xFFFD; 0xFFFD; 0xFFFD; 0xFFFD; 0xFFFD; 0xFFFD; 0xFFFD;
  0xFFFD; 0xFFFD; 0xFFFD; 0xFFFD; 0xFFFD; 0xFFFD; 0xFFFD; 0xFFFD;
  0xFFFD; 0xFFFD; 0xFFFD; 0xFFFD; 0xFFFD; 0xFFFD; 0xFFFD; 0xFFFD;
  0xFFFD; 0xFFFD; 0xFFFD; 0xFFFD; 0xFFFD; 0xFFFD; 0xFFFD; 0xFFFD;
  0xFFFD; 0xFFFD; 0xFFFD; 0xFFFD; 0xFFFD; 0xFFFD; 0xFFFD; 0xFFFD;
  0xFFFD; 0xFFFD; 0xFFFD; 0xFFFD; 0xFFFD; 0xFFFD; 0xFFFD; 0xFFFD;
  0xFFFD; 0xFFFD; 0xFFFD; 0xFFFD; 0xFFFD; 0xFFFD; 0xFFFD; 0xFFFD;
  0xFFFD; 0xFFFD; 0xFFFD; 0xFFFD; 0xFFFD; 0xFFFD; 0xFFFD; 0xFFFD;
  0xFFFD; 0xFFFD; 0xFFFD; 0xFFFD; 0xFFFD; 0xFFFD; 0xFFFD; 0xFFFD;
  0xFFFD; 0xFFFD; 0xFFFD; 0xFFFD; 0xFFFD; 0xFFFD; 0xFFFD; 0xFFFD
].
(* src/generated/whatwg/shiftjis_whatwg_tables.rs.inc:4-1393 DECODE_TABLE, entries 10496..10751 *)
Definition sjis_decode_table_41 : list N := [
  0xFFFD; 0xFFFD; 0xFFFD; 0xFFFD; 0xFFFD; 0xFFFD; 0xFFFD; 0xFFFD;
  0xFFFD; 0xFFFD; 0xFFFD; 0xFFFD; 0xFFFD; 0xFFFD; 0xFFFD; 0xFFFD;
  0xFFFD; 0xFFFD; 0xFFFD; 0xFFFD; 0xFFFD; 0xFFFD; 0xFFFD; 0xFFFD;
  0xFFFD; 0xFFFD; 0xFFFD; 0xFFFD; 0xFFFD; 0xFFFD; 0xFFFD; 0xFFFD;
  0xFFFD; 0xFFFD; 0xFFFD; 0xFFFD; 0xFFFD; 0xFFFD; 0xFFFD; 0xFFFD;
  0xFFFD; 0xFFFD; 0xFFFD; 0xFFFD; 0xFFFD; 0xFFFD; 0xFFFD; 0xFFFD;
  0xFFFD; 0xFFFD; 0xFFFD; 0xFFFD; 0xFFFD; 0xFFFD; 0xFFFD; 0xFFFD;
  0xFFFD; 0xFFFD; 0xFFFD; 0xFFFD; 0xFFFD; 0xFFFD; 0xFFFD; 0xFFFD;
  0xFFFD; 0xFFFD; 0xFFFD; 0xFFFD; 0xFFFD; 0xFFFD; 0xFFFD; 0xFFFD;
  0xFFFD; 0xFFFD; 0xFFFD; 0xFFFD; 0xFFFD; 0xFFFD; 0xFFFD; 0xFFFD;
  0xFFFD; 0xFFFD; 0xFFFD; 0xFFFD; 0xFFFD; 0xFFFD; 0xFFFD; 0xFFFD;
  0xFFFD; 0xFFFD; 0xFFFD; 0xFFFD; 0xFFFD; 0xFFFD; 0xFFFD; 0xFFFD;
  0xFFFD; 0xFFFD; 0xFFFD; 0xFFFD; 0xFFFD; 0xFFFD; 0xFFFD; 0xFFFD;
  0xFFFD; 0xFFFD; 0xFFFD; 0xFFFD; 0xFFFD; 0xFFFD; 0xFFFD; 0xFFFD;
  0xFFFD; 0xFFFD; 0xFFFD; 0xFFFD; 0xFFFD; 0xFFFD; 0xFFFD; 0xFFFD;
  0xFFFD; 0xFFFD; 0xFFFD; 0xFFFD; 0xFFFD; 0xFFFD; 0xFFFD; 0xFFFD;
  0xFFFD; 0xFFFD; 0xFFFD; 0xFFFD; 0xFFFD; 0xFFFD; 0xFFFD; 0xFFFD;
  0xFFFD; 0xFFFD; 0xFFFD; 0xFFFD; 0xFFFD; 0xFFFD; 0xFFFD; 0xFFFD;
  0xFFFD; 0xFFFD; 0xFFFD; 0xFFFD; 0xFFFD; 0xFFFD; 0xFFFD; 0xFFFD;
  0xFFFD; 0xFFFD; 0xFFFD; 0xFFFD; 0xFFFD; 0xFFFD; 0xFFFD; 0xFFFD;
  0xFFFD; 0xFFFD; 0xFFFD; 0xFFFD; 0xFFFD; 0xFFFD; 0xFFFD; 0xFFFD;
  0xFFFD; 0xFFFD; 0xFFFD; 0xFFFD; 0xFFFD; 0xFFFD; 0xFFFD; 0xFFFD;
  0xFFFD; 0xFFFD; 0xFFFD; 0xFFFD; 0xFFFD; 0xFFFD; 0xFFFD; 0xFFFD;
  0xFFFD; 0xFFFD; 0xFFFD; 0xFFFD; 0xFFFD; 0xFFFD; 0xFFFD; 0xFFFD;
  0xFFFD; 0xFFFD; 0xFFFD; 0xFFFD; 0xFFFD; 0xFFFD; 0xFFFD; 0xFFFD;
  0xFFFD; 0xFFFD; 0xFFFD; 0xFFFD; 0xFFFD; 0xFFFD; 0xFFFD; 0xFFFD;
  0xFFFD; 0xFFFD; 0xFFFD; 0xFFFD; 0xFFFD; 0xFFFD; 0xFFFD; 0xFFFD;
  0xFFFD; 0xFFFD; 0xFFFD; 0xFFFD; 0x2170; 0x2171; 0x2172; 0x2173;
  0x2174; 0x2175; 0x2176; 0x2177; 0x2178; 0x2179; 0x2160; 0x2161;
  0x2162; 0x2163; 0x2164; 0x2165; 0x2166; 0x2167; 0x2168; 0x2169;
  0xFFE2; 0xFFE4; 0xFF07; 0xFF02; 0x3231; 0x2116; 0x2121; 0x2235;
  0x7E8A; 0x891C; 0x9348; 0x9288; 0x84DC; 0x4FC9; 0x70BB; 0x6631
].
(* src/generated/whatwg/shiftjis_whatwg_tables.rs.inc:4-1393 DECODE_TABLE, entries 10752..11007 *)
Definition sjis_decode_table_42 : list N := [
  0x68C8; 0x92F9; 0x66FB; 0x5F45; 0x4E28; 0x4EE1; 0x4EFC; 0x4F00;
  0x4F03; 0x4F39; 0x4F56; 0x4F92; 0x4F8A; 0x4F9A; 0x4F94; 0x4FCD;
  0x5040; 0x5022; 0x4FFF; 0x501E; 0x5046; 0x5070; 0x5042; 0x5094;
  0x50F4; 0x50D8; 0x514A; 0x5164; 0x519D; 0x51BE; 0x51EC; 0x5215;
  0x529C; 0x52A6; 0x52C0; 0x52DB; 0x5300; 0x5307; 0x5324; 0x5372;
  0x5393; 0x53B2; 0x53DD; 0xFA0E; 0x549C; 0x548A; 0x54A9; 0x54FF;
  0x5586; 0x5759; 0x5765; 0x57AC; 0x57C8; 0x57C7; 0xFA0F; 0xFA10;
  0x589E; 0x58B2; 0x590B; 0x5953; 0x595B; 0x595D; 0x5963; 0x59A4;
  0x59BA; 0x5B56; 0x5BC0; 0x752F; 0x5BD8; 0x5BEC; 0x5C1E; 0x5CA6;
  0x5CBA; 0x5CF5; 0x5D27; 0x5D53; 0xFA11; 0x5D42; 0x5D6D; 0x5DB8;
  0x5DB9; 0x5DD0; 0x5F21; 0x5F34; 0x5F67; 0x5FB7; 0x5FDE; 0x605D;
  0x6085; 0x608A; 0x60DE; 0x60D5; 0x6120; 0x60F2; 0x6111; 0x6137;
  0x6130; 0x6198; 0x6213; 0x62A6; 0x63F5; 0x6460; 0x649D; 0x64CE;
  0x654E; 0x6600; 0x6615; 0x663B; 0x6609; 0x662E; 0x661E; 0x6624;
  0x6665; 0x6657; 0x6659; 0xFA12; 0x6673; 0x6699; 0x66A0; 0x66B2;
  0x66BF; 0x66FA; 0x670E; 0xF929; 0x6766; 0x67BB; 0x6852; 0x67C0;
  0x6801; 0x6844; 0x68CF; 0xFA13; 0x6968; 0xFA14; 0x6998; 0x69E2;
  0x6A30; 0x6A6B; 0x6A46; 0x6A73; 0x6A7E; 0x6AE2; 0x6AE4; 0x6BD6;
  0x6C3F; 0x6C5C; 0x6C86; 0x6C6F; 0x6CDA; 0x6D04; 0x6D87; 0x6D6F;
  0x6D96; 0x6DAC; 0x6DCF; 0x6DF8; 0x6DF2; 0x6DFC; 0x6E39; 0x6E5C;
  0x6E27; 0x6E3C; 0x6EBF; 0x6F88; 0x6FB5; 0x6FF5; 0x7005; 0x7007;
  0x7028; 0x7085; 0x70AB; 0x710F; 0x7104; 0x715C; 0x7146; 0x7147;
  0xFA15; 0x71C1; 0x71FE; 0x72B1; 0x72BE; 0x7324; 0xFA16; 0x7377;
  0x73BD; 0x73C9; 0x73D6; 0x73E3; 0x73D2; 0x7407; 0x73F5; 0x7426;
  0x742A; 0x7429; 0x742E; 0x7462; 0x7489; 0x749F; 0x7501; 0x756F;
  0x7682; 0x769C; 0x769E; 0x769B; 0x76A6; 0xFA17; 0x7746; 0x52AF;
  0x7821; 0x784E; 0x7864; 0x787A; 0x7930; 0xFA18; 0xFA19; 0xFA1A;
  0x7994; 0xFA1B; 0x799B; 0x7AD1; 0x7AE7; 0xFA1C; 0x7AEB; 0x7B9E;
  0xFA1D; 0x7D48; 0x7D5C; 0x7DB7; 0x7DA0; 0x7DD6; 0x7E52; 0x7F47;
  0x7FA1; 0xFA1E; 0x8301; 0x8362; 0x837F; 0x83C7; 0x83F6; 0x8448;
  0x84B4; 0x8553; 0x8559; 0x856B; 0xFA1F; 0x85B0; 0xFA20; 0xFA21;
  0x8807; 0x88F5; 0x8A12; 0x8A37; 0x8A79; 0x8AA7; 0x8ABE; 0x8ADF
].
(* src/generated/whatwg/shiftjis_whatwg_tables.rs.inc:4-1393 DECODE_TABLE, entries 11008..11103 *)
Definition sjis_decode_table_43 : list N := [
  0xFA22; 0x8AF6; 0x8B53; 0x8B7F; 0x8CF0; 0x8CF4; 0x8D12; 0x8D76;
  0xFA23; 0x8ECF; 0xFA24; 0xFA25; 0x9067; 0x90DE; 0xFA26; 0x9115;
  0x9127; 0x91DA; 0x91D7; 0x91DE; 0x91ED; 0x91EE; 0x91E4; 0x91E5;
  0x9206; 0x9210; 0x920A; 0x923A; 0x9240; 0x923C; 0x924E; 0x9259;
  0x9251; 0x9239; 0x9267; 0x92A7; 0x9277; 0x9278; 0x92E7; 0x92D7;
  0x92D9; 0x92D0; 0xFA27; 0x92D5; 0x92E0; 0x92D3; 0x9325; 0x9321;
  0x92FB; 0xFA28; 0x931E; 0x92FF; 0x931D; 0x9302; 0x9370; 0x9357;
  0x93A4; 0x93C6; 0x93DE; 0x93F8; 0x9431; 0x9445; 0x9448; 0x9592;
  0xF9DC; 0xFA29; 0x969D; 0x96AF; 0x9733; 0x973B; 0x9743; 0x974D;
  0x974F; 0x9751; 0x9755; 0x9857; 0x9865; 0xFA2A; 0xFA2B; 0x9927;
  0xFA2C; 0x999E; 0x9A4E; 0x9AD9; 0x9ADC; 0x9B75; 0x9B72; 0x9B8F;
  0x9BB1; 0x9BBB; 0x9C00; 0x9D70; 0x9D6B; 0xFA2D; 0x9E19; 0x9ED1
].
(* src/generated/whatwg/shiftjis_whatwg_tables.rs.inc:4-1393 DECODE_TABLE: the whole table *)
Definition sjis_decode_table : list N :=
  sjis_decode_table_0 ++
  sjis_decode_table_1 ++
  sjis_decode_table_2 ++
  sjis_decode_table_3 ++
  sjis_decode_table_4 ++
  sjis_decode_table_5 ++
  sjis_decode_table_6 ++
  sjis_decode_table_7 ++
  sjis_decode_table_8 ++
  sjis_decode_table_9 ++
  sjis_decode_table_10 ++
  sjis_decode_table_11 ++
  sjis_decode_table_12 ++
  sjis_decode_table_13 ++
  sjis_decode_table_14 ++
  sjis_decode_table_15 ++
  sjis_decode_table_16 ++
  sjis_decode_table_17 ++
  sjis_decode_table_18 ++
  sjis_decode_table_19 ++
  sjis_decode_table_20 ++
  sjis_decode_table_21 ++
  sjis_decode_table_22 ++
  sjis_decode_table_23 ++
  sjis_decode_table_24 ++
  sjis_decode_table_25 ++
  sjis_decode_table_26 ++
  sjis_decode_table_27 ++
  sjis_decode_table_28 ++
  sjis_decode_table_29 ++
  sjis_decode_table_30 ++
  sjis_decode_table_31 ++
  sjis_decode_table_32 ++
  sjis_decode_table_33 ++
  sjis_decode_table_34 ++
  sjis_decode_table_35 ++
  sjis_decode_table_36 ++
  sjis_decode_table_37 ++
  sjis_decode_table_38 ++
  sjis_decode_table_39 ++
  sjis_decode_table_40 ++
  sjis_decode_table_41 ++
  sjis_decode_table_42 ++
  sjis_decode_table_43.

(* src/generated/whatwg/shiftjis_whatwg_tables.rs.inc:1395-3838 ENCODE_TABLE, entries 0..255 *)
Definition sjis_encode_table_0 : list (N * (N * N)) := [
  (0xA7,(0x81,0x98)); (0xA8,(0x81,0x4E)); (0xB0,(0x81,0x8B)); (0xB1,(0x81,0x7D)); (0xB4,(0x81,0x4C)); (0xB6,(0x81,0xF7)); (0xD7,(0x81,0x7E)); (0xF7,(0x81,0x80));
  (0x391,(0x83,0x9F)); (0x392,(0x83,0xA0)); (0x393,(0x83,0xA1)); (0x394,(0x83,0xA2)); (0x395,(0x83,0xA3)); (0x396,(0x83,0xA4)); (0x397,(0x83,0xA5)); (0x398,(0x83,0xA6));
  (0x399,(0x83,0xA7)); (0x39A,(0x83,0xA8)); (0x39B,(0x83,0xA9)); (0x39C,(0x83,0xAA)); (0x39D,(0x83,0xAB)); (0x39E,(0x83,0xAC)); (0x39F,(0x83,0xAD)); (0x3A0,(0x83,0xAE));
  (0x3A1,(0x83,0xAF)); (0x3A3,(0x83,0xB0)); (0x3A4,(0x83,0xB1)); (0x3A5,(0x83,0xB2)); (0x3A6,(0x83,0xB3)); (0x3A7,(0x83,0xB4)); (0x3A8,(0x83,0xB5)); (0x3A9,(0x83,0xB6));
  (0x3B1,(0x83,0xBF)); (0x3B2,(0x83,0xC0)); (0x3B3,(0x83,0xC1)); (0x3B4,(0x83,0xC2)); (0x3B5,(0x83,0xC3)); (0x3B6,(0x83,0xC4)); (0x3B7,(0x83,0xC5)); (0x3B8,(0x83,0xC6));
  (0x3B9,(0x83,0xC7)); (0x3BA,(0x83,0xC8)); (0x3BB,(0x83,0xC9)); (0x3BC,(0x83,0xCA)); (0x3BD,(0x83,0xCB)); (0x3BE,(0x83,0xCC)); (0x3BF,(0x83,0xCD)); (0x3C0,(0x83,0xCE));
  (0x3C1,(0x83,0xCF)); (0x3C3,(0x83,0xD0)); (0x3C4,(0x83,0xD1)); (0x3C5,(0x83,0xD2)); (0x3C6,(0x83,0xD3)); (0x3C7,(0x83,0xD4)); (0x3C8,(0x83,0xD5)); (0x3C9,(0x83,0xD6));
  (0x401,(0x84,0x46)); (0x410,(0x84,0x40)); (0x411,(0x84,0x41)); (0x412,(0x84,0x42)); (0x413,(0x84,0x43)); (0x414,(0x84,0x44)); (0x415,(0x84,0x45)); (0x416,(0x84,0x47));
  (0x417,(0x84,0x48)); (0x418,(0x84,0x49)); (0x419,(0x84,0x4A)); (0x41A,(0x84,0x4B)); (0x41B,(0x84,0x4C)); (0x41C,(0x84,0x4D)); (0x41D,(0x84,0x4E)); (0x41E,(0x84,0x4F));
  (0x41F,(0x84,0x50)); (0x420,(0x84,0x51)); (0x421,(0x84,0x52)); (0x422,(0x84,0x53)); (0x423,(0x84,0x54)); (0x424,(0x84,0x55)); (0x425,(0x84,0x56)); (0x426,(0x84,0x57));
  (0x427,(0x84,0x58)); (0x428,(0x84,0x59)); (0x429,(0x84,0x5A)); (0x42A,(0x84,0x5B)); (0x42B,(0x84,0x5C)); (0x42C,(0x84,0x5D)); (0x42D,(0x84,0x5E)); (0x42E,(0x84,0x5F));
  (0x42F,(0x84,0x60)); (0x430,(0x84,0x70)); (0x431,(0x84,0x71)); (0x432,(0x84,0x72)); (0x433,(0x84,0x73)); (0x434,(0x84,0x74)); (0x435,(0x84,0x75)); (0x436,(0x84,0x77));
  (0x437,(0x84,0x78)); (0x438,(0x84,0x79)); (0x439,(0x84,0x7A)); (0x43A,(0x84,0x7B)); (0x43B,(0x84,0x7C)); (0x43C,(0x84,0x7D)); (0x43D,(0x84,0x7E)); (0x43E,(0x84,0x80));
  (0x43F,(0x84,0x81)); (0x440,(0x84,0x82)); (0x441,(0x84,0x83)); (0x442,(0x84,0x84)); (0x443,(0x84,0x85)); (0x444,(0x84,0x86)); (0x445,(0x84,0x87)); (0x446,(0x84,0x88));
  (0x447,(0x84,0x89)); (0x448,(0x84,0x8A)); (0x449,(0x84,0x8B)); (0x44A,(0x84,0x8C)); (0x44B,(0x84,0x8D)); (0x44C,(0x84,0x8E)); (0x44D,(0x84,0x8F)); (0x44E,(0x84,0x90));
  (0x44F,(0x84,0x91)); (0x451,(0x84,0x76)); (0x2010,(0x81,0x5D)); (0x2015,(0x81,0x5C)); (0x2018,(0x81,0x65)); (0x2019,(0x81,0x66)); (0x201C,(0x81,0x67)); (0x201D,(0x81,0x68));
  (0x2020,(0x81,0xF5)); (0x2021,(0x81,0xF6)); (0x2025,(0x81,0x64)); (0x2026,(0x81,0x63)); (0x2030,(0x81,0xF1)); (0x2032,(0x81,0x8C)); (0x2033,(0x81,0x8D)); (0x203B,(0x81,0xA6));
  (0x2103,(0x81,0x8E)); (0x2116,(0x87,0x82)); (0x2121,(0x87,0x84)); (0x212B,(0x81,0xF0)); (0x2160,(0x87,0x54)); (0x2161,(0x87,0x55)); (0x2162,(0x87,0x56)); (0x2163,(0x87,0x57));
  (0x2164,(0x87,0x58)); (0x2165,(0x87,0x59)); (0x2166,(0x87,0x5A)); (0x2167,(0x87,0x5B)); (0x2168,(0x87,0x5C)); (0x2169,(0x87,0x5D)); (0x2170,(0xFA,0x40)); (0x2171,(0xFA,0x41));
  (0x2172,(0xFA,0x42)); (0x2173,(0xFA,0x43)); (0x2174,(0xFA,0x44)); (0x2175,(0xFA,0x45)); (0x2176,(0xFA,0x46)); (0x2177,(0xFA,0x47)); (0x2178,(0xFA,0x48)); (0x2179,(0xFA,0x49));
  (0x2190,(0x81,0xA9)); (0x2191,(0x81,0xAA)); (0x2192,(0x81,0xA8)); (0x2193,(0x81,0xAB)); (0x21D2,(0x81,0xCB)); (0x21D4,(0x81,0xCC)); (0x2200,(0x81,0xCD)); (0x2202,(0x81,0xDD));
  (0x2203,(0x81,0xCE)); (0x2207,(0x81,0xDE)); (0x2208,(0x81,0xB8)); (0x220B,(0x81,0xB9)); (0x2211,(0x87,0x94)); (0x221A,(0x81,0xE3)); (0x221D,(0x81,0xE5)); (0x221E,(0x81,0x87));
  (0x221F,(0x87,0x98)); (0x2220,(0x81,0xDA)); (0x2225,(0x81,0x61)); (0x2227,(0x81,0xC8)); (0x2228,(0x81,0xC9)); (0x2229,(0x81,0xBF)); (0x222A,(0x81,0xBE)); (0x222B,(0x81,0xE7));
  (0x222C,(0x81,0xE8)); (0x222E,(0x87,0x93)); (0x2234,(0x81,0x88)); (0x2235,(0x81,0xE6)); (0x223D,(0x81,0xE4)); (0x2252,(0x81,0xE0)); (0x2260,(0x81,0x82)); (0x2261,(0x81,0xDF));
  (0x2266,(0x81,0x85)); (0x2267,(0x81,0x86)); (0x226A,(0x81,0xE1)); (0x226B,(0x81,0xE2)); (0x2282,(0x81,0xBC)); (0x2283,(0x81,0xBD)); (0x2286,(0x81,0xBA)); (0x2287,(0x81,0xBB));
  (0x22A5,(0x81,0xDB)); (0x22BF,(0x87,0x99)); (0x2312,(0x81,0xDC)); (0x2460,(0x87,0x40)); (0x2461,(0x87,0x41)); (0x2462,(0x87,0x42)); (0x2463,(0x87,0x43)); (0x2464,(0x87,0x44));
  (0x2465,(0x87,0x45)); (0x2466,(0x87,0x46)); (0x2467,(0x87,0x47)); (0x2468,(0x87,0x48)); (0x2469,(0x87,0x49)); (0x246A,(0x87,0x4A)); (0x246B,(0x87,0x4B)); (0x246C,(0x87,0x4C));
  (0x246D,(0x87,0x4D)); (0x246E,(0x87,0x4E)); (0x246F,(0x87,0x4F)); (0x2470,(0x87,0x50)); (0x2471,(0x87,0x51)); (0x2472,(0x87,0x52)); (0x2473,(0x87,0x53)); (0x2500,(0x84,0x9F));
  (0x2501,(0x84,0xAA)); (0x2502,(0x84,0xA0)); (0x2503,(0x84,0xAB)); (0x250C,(0x84,0xA1)); (0x250F,(0x84,0xAC)); (0x2510,(0x84,0xA2)); (0x2513,(0x84,0xAD)); (0x2514,(0x84,0xA4));
  (0x2517,(0x84,0xAF)); (0x2518,(0x84,0xA3)); (0x251B,(0x84,0xAE)); (0x251C,(0x84,0xA5)); (0x251D,(0x84,0xBA)); (0x2520,(0x84,0xB5)); (0x2523,(0x84,0xB0)); (0x2524,(0x84,0xA7));
  (0x2525,(0x84,0xBC)); (0x2528,(0x84,0xB7)); (0x252B,(0x84,0xB2)); (0x252C,(0x84,0xA6)); (0x252F,(0x84,0xB6)); (0x2530,(0x84,0xBB)); (0x2533,(0x84,0xB1)); (0x2534,(0x84,0xA8));
  (0x2537,(0x84,0xB8)); (0x2538,(0x84,0xBD)); (0x253B,(0x84,0xB3)); (0x253C,(0x84,0xA9)); (0x253F,(0x84,0xB9)); (0x2542,(0x84,0xBE)); (0x254B,(0x84,0xB4)); (0x25A0,(0x81,0xA1))
].
(* src/generated/whatwg/shiftjis_whatwg_tables.rs.inc:1395-3838 ENCODE_TABLE, entries 256..511 *)
Definition sjis_encode_table_1 : list (N * (N * N)) := [
  (0x25A1,(0x81,0xA0)); (0x25B2,(0x81,0xA3)); (0x25B3,(0x81,0xA2)); (0x25BC,(0x81,0xA5)); (0x25BD,(0x81,0xA4)); (0x25C6,(0x81,0x9F)); (0x25C7,(0x81,0x9E)); (0x25CB,(0x81,0x9B));
  (0x25CE,(0x81,0x9D)); (0x25CF,(0x81,0x9C)); (0x25EF,(0x81,0xFC)); (0x2605,(0x81,0x9A)); (0x2606,(0x81,0x99)); (0x2640,(0x81,0x8A)); (0x2642,(0x81,0x89)); (0x266A,(0x81,0xF4));
  (0x266D,(0x81,0xF3)); (0x266F,(0x81,0xF2)); (0x3000,(0x81,0x40)); (0x3001,(0x81,0x41)); (0x3002,(0x81,0x42)); (0x3003,(0x81,0x56)); (0x3005,(0x81,0x58)); (0x3006,(0x81,0x59));
  (0x3007,(0x81,0x5A)); (0x3008,(0x81,0x71)); (0x3009,(0x81,0x72)); (0x300A,(0x81,0x73)); (0x300B,(0x81,0x74)); (0x300C,(0x81,0x75)); (0x300D,(0x81,0x76)); (0x300E,(0x81,0x77));
  (0x300F,(0x81,0x78)); (0x3010,(0x81,0x79)); (0x3011,(0x81,0x7A)); (0x3012,(0x81,0xA7)); (0x3013,(0x81,0xAC)); (0x3014,(0x81,0x6B)); (0x3015,(0x81,0x6C)); (0x301D,(0x87,0x80));
  (0x301F,(0x87,0x81)); (0x3041,(0x82,0x9F)); (0x3042,(0x82,0xA0)); (0x3043,(0x82,0xA1)); (0x3044,(0x82,0xA2)); (0x3045,(0x82,0xA3)); (0x3046,(0x82,0xA4)); (0x3047,(0x82,0xA5));
  (0x3048,(0x82,0xA6)); (0x3049,(0x82,0xA7)); (0x304A,(0x82,0xA8)); (0x304B,(0x82,0xA9)); (0x304C,(0x82,0xAA)); (0x304D,(0x82,0xAB)); (0x304E,(0x82,0xAC)); (0x304F,(0x82,0xAD));
  (0x3050,(0x82,0xAE)); (0x3051,(0x82,0xAF)); (0x3052,(0x82,0xB0)); (0x3053,(0x82,0xB1)); (0x3054,(0x82,0xB2)); (0x3055,(0x82,0xB3)); (0x3056,(0x82,0xB4)); (0x3057,(0x82,0xB5));
  (0x3058,(0x82,0xB6)); (0x3059,(0x82,0xB7)); (0x305A,(0x82,0xB8)); (0x305B,(0x82,0xB9)); (0x305C,(0x82,0xBA)); (0x305D,(0x82,0xBB)); (0x305E,(0x82,0xBC)); (0x305F,(0x82,0xBD));
  (0x3060,(0x82,0xBE)); (0x3061,(0x82,0xBF)); (0x3062,(0x82,0xC0)); (0x3063,(0x82,0xC1)); (0x3064,(0x82,0xC2)); (0x3065,(0x82,0xC3)); (0x3066,(0x82,0xC4)); (0x3067,(0x82,0xC5));
  (0x3068,(0x82,0xC6)); (0x3069,(0x82,0xC7)); (0x306A,(0x82,0xC8)); (0x306B,(0x82,0xC9)); (0x306C,(0x82,0xCA)); (0x306D,(0x82,0xCB)); (0x306E,(0x82,0xCC)); (0x306F,(0x82,0xCD));
  (0x3070,(0x82,0xCE)); (0x3071,(0x82,0xCF)); (0x3072,(0x82,0xD0)); (0x3073,(0x82,0xD1)); (0x3074,(0x82,0xD2)); (0x3075,(0x82,0xD3)); (0x3076,(0x82,0xD4)); (0x3077,(0x82,0xD5));
  (0x3078,(0x82,0xD6)); (0x3079,(0x82,0xD7)); (0x307A,(0x82,0xD8)); (0x307B,(0x82,0xD9)); (0x307C,(0x82,0xDA)); (0x307D,(0x82,0xDB)); (0x307E,(0x82,0xDC)); (0x307F,(0x82,0xDD));
  (0x3080,(0x82,0xDE)); (0x3081,(0x82,0xDF)); (0x3082,(0x82,0xE0)); (0x3083,(0x82,0xE1)); (0x3084,(0x82,0xE2)); (0x3085,(0x82,0xE3)); (0x3086,(0x82,0xE4)); (0x3087,(0x82,0xE5));
  (0x3088,(0x82,0xE6)); (0x3089,(0x82,0xE7)); (0x308A,(0x82,0xE8)); (0x308B,(0x82,0xE9)); (0x308C,(0x82,0xEA)); (0x308D,(0x82,0xEB)); (0x308E,(0x82,0xEC)); (0x308F,(0x82,0xED));
  (0x3090,(0x82,0xEE)); (0x3091,(0x82,0xEF)); (0x3092,(0x82,0xF0)); (0x3093,(0x82,0xF1)); (0x309B,(0x81,0x4A)); (0x309C,(0x81,0x4B)); (0x309D,(0x81,0x54)); (0x309E,(0x81,0x55));
  (0x30A1,(0x83,0x40)); (0x30A2,(0x83,0x41)); (0x30A3,(0x83,0x42)); (0x30A4,(0x83,0x43)); (0x30A5,(0x83,0x44)); (0x30A6,(0x83,0x45)); (0x30A7,(0x83,0x46)); (0x30A8,(0x83,0x47));
  (0x30A9,(0x83,0x48)); (0x30AA,(0x83,0x49)); (0x30AB,(0x83,0x4A)); (0x30AC,(0x83,0x4B)); (0x30AD,(0x83,0x4C)); (0x30AE,(0x83,0x4D)); (0x30AF,(0x83,0x4E)); (0x30B0,(0x83,0x4F));
  (0x30B1,(0x83,0x50)); (0x30B2,(0x83,0x51)); (0x30B3,(0x83,0x52)); (0x30B4,(0x83,0x53)); (0x30B5,(0x83,0x54)); (0x30B6,(0x83,0x55)); (0x30B7,(0x83,0x56)); (0x30B8,(0x83,0x57));
  (0x30B9,(0x83,0x58)); (0x30BA,(0x83,0x59)); (0x30BB,(0x83,0x5A)); (0x30BC,(0x83,0x5B)); (0x30BD,(0x83,0x5C)); (0x30BE,(0x83,0x5D)); (0x30BF,(0x83,0x5E)); (0x30C0,(0x83,0x5F));
  (0x30C1,(0x83,0x60)); (0x30C2,(0x83,0x61)); (0x30C3,(0x83,0x62)); (0x30C4,(0x83,0x63)); (0x30C5,(0x83,0x64)); (0x30C6,(0x83,0x65)); (0x30C7,(0x83,0x66)); (0x30C8,(0x83,0x67));
  (0x30C9,(0x83,0x68)); (0x30CA,(0x83,0x69)); (0x30CB,(0x83,0x6A)); (0x30CC,(0x83,0x6B)); (0x30CD,(0x83,0x6C)); (0x30CE,(0x83,0x6D)); (0x30CF,(0x83,0x6E)); (0x30D0,(0x83,0x6F));
  (0x30D1,(0x83,0x70)); (0x30D2,(0x83,0x71)); (0x30D3,(0x83,0x72)); (0x30D4,(0x83,0x73)); (0x30D5,(0x83,0x74)); (0x30D6,(0x83,0x75)); (0x30D7,(0x83,0x76)); (0x30D8,(0x83,0x77));
  (0x30D9,(0x83,0x78)); (0x30DA,(0x83,0x79)); (0x30DB,(0x83,0x7A)); (0x30DC,(0x83,0x7B)); (0x30DD,(0x83,0x7C)); (0x30DE,(0x83,0x7D)); (0x30DF,(0x83,0x7E)); (0x30E0,(0x83,0x80));
  (0x30E1,(0x83,0x81)); (0x30E2,(0x83,0x82)); (0x30E3,(0x83,0x83)); (0x30E4,(0x83,0x84)); (0x30E5,(0x83,0x85)); (0x30E6,(0x83,0x86)); (0x30E7,(0x83,0x87)); (0x30E8,(0x83,0x88));
  (0x30E9,(0x83,0x89)); (0x30EA,(0x83,0x8A)); (0x30EB,(0x83,0x8B)); (0x30EC,(0x83,0x8C)); (0x30ED,(0x83,0x8D)); (0x30EE,(0x83,0x8E)); (0x30EF,(0x83,0x8F)); (0x30F0,(0x83,0x90));
  (0x30F1,(0x83,0x91)); (0x30F2,(0x83,0x92)); (0x30F3,(0x83,0x93)); (0x30F4,(0x83,0x94)); (0x30F5,(0x83,0x95)); (0x30F6,(0x83,0x96)); (0x30FB,(0x81,0x45)); (0x30FC,(0x81,0x5B));
  (0x30FD,(0x81,0x52)); (0x30FE,(0x81,0x53)); (0x3231,(0x87,0x8A)); (0x3232,(0x87,0x8B)); (0x3239,(0x87,0x8C)); (0x32A4,(0x87,0x85)); (0x32A5,(0x87,0x86)); (0x32A6,(0x87,0x87));
  (0x32A7,(0x87,0x88)); (0x32A8,(0x87,0x89)); (0x3303,(0x87,0x65)); (0x330D,(0x87,0x69)); (0x3314,(0x87,0x60)); (0x3318,(0x87,0x63)); (0x3322,(0x87,0x61)); (0x3323,(0x87,0x6B));
  (0x3326,(0x87,0x6A)); (0x3327,(0x87,0x64)); (0x332B,(0x87,0x6C)); (0x3336,(0x87,0x66)); (0x333B,(0x87,0x6E)); (0x3349,(0x87,0x5F)); (0x334A,(0x87,0x6D)); (0x334D,(0x87,0x62));
  (0x3351,(0x87,0x67)); (0x3357,(0x87,0x68)); (0x337B,(0x87,0x7E)); (0x337C,(0x87,0x8F)); (0x337D,(0x87,0x8E)); (0x337E,(0x87,0x8D)); (0x338E,(0x87,0x72)); (0x338F,(0x87,0x73));
  (0x339C,(0x87,0x6F)); (0x339D,(0x87,0x70)); (0x339E,(0x87,0x71)); (0x33A1,(0x87,0x75)); (0x33C4,(0x87,0x74)); (0x33CD,(0x87,0x83)); (0x4E00,(0x88,0xEA)); (0x4E01,(0x92,0x9A))
].
(* src/generated/whatwg/shiftjis_whatwg_tables.rs.inc:1395-3838 ENCODE_TABLE, entries 512..767 *)
Definition sjis_encode_table_2 : list (N * (N * N)) := [
  (0x4E03,(0x8E,0xB5)); (0x4E07,(0x96,0x9C)); (0x4E08,(0x8F,0xE4)); (0x4E09,(0x8E,0x4F)); (0x4E0A,(0x8F,0xE3)); (0x4E0B,(0x89,0xBA)); (0x4E0D,(0x95,0x73)); (0x4E0E,(0x97,0x5E));
  (0x4E10,(0x98,0xA0)); (0x4E11,(0x89,0x4E)); (0x4E14,(0x8A,0x8E)); (0x4E15,(0x98,0xA1)); (0x4E16,(0x90,0xA2)); (0x4E17,(0x99,0xC0)); (0x4E18,(0x8B,0x75)); (0x4E19,(0x95,0xB8));
  (0x4E1E,(0x8F,0xE5)); (0x4E21,(0x97,0xBC)); (0x4E26,(0x95,0xC0)); (0x4E28,(0xFA,0x68)); (0x4E2A,(0x98,0xA2)); (0x4E2D,(0x92,0x86)); (0x4E31,(0x98,0xA3)); (0x4E32,(0x8B,0xF8));
  (0x4E36,(0x98,0xA4)); (0x4E38,(0x8A,0xDB)); (0x4E39,(0x92,0x4F)); (0x4E3B,(0x8E,0xE5)); (0x4E3C,(0x98,0xA5)); (0x4E3F,(0x98,0xA6)); (0x4E42,(0x98,0xA7)); (0x4E43,(0x94,0x54));
  (0x4E45,(0x8B,0x76)); (0x4E4B,(0x94,0x56)); (0x4E4D,(0x93,0xE1)); (0x4E4E,(0x8C,0xC1)); (0x4E4F,(0x96,0x52)); (0x4E55,(0xE5,0x68)); (0x4E56,(0x98,0xA8)); (0x4E57,(0x8F,0xE6));
  (0x4E58,(0x98,0xA9)); (0x4E59,(0x89,0xB3)); (0x4E5D,(0x8B,0xE3)); (0x4E5E,(0x8C,0xEE)); (0x4E5F,(0x96,0xE7)); (0x4E62,(0x9B,0xA4)); (0x4E71,(0x97,0x90)); (0x4E73,(0x93,0xFB));
  (0x4E7E,(0x8A,0xA3)); (0x4E80,(0x8B,0x54)); (0x4E82,(0x98,0xAA)); (0x4E85,(0x98,0xAB)); (0x4E86,(0x97,0xB9)); (0x4E88,(0x97,0x5C)); (0x4E89,(0x91,0x88)); (0x4E8A,(0x98,0xAD));
  (0x4E8B,(0x8E,0x96)); (0x4E8C,(0x93,0xF1)); (0x4E8E,(0x98,0xB0)); (0x4E91,(0x89,0x5D)); (0x4E92,(0x8C,0xDD)); (0x4E94,(0x8C,0xDC)); (0x4E95,(0x88,0xE4)); (0x4E98,(0x98,0x6A));
  (0x4E99,(0x98,0x69)); (0x4E9B,(0x8D,0xB1)); (0x4E9C,(0x88,0x9F)); (0x4E9E,(0x98,0xB1)); (0x4E9F,(0x98,0xB2)); (0x4EA0,(0x98,0xB3)); (0x4EA1,(0x96,0x53)); (0x4EA2,(0x98,0xB4));
  (0x4EA4,(0x8C,0xF0)); (0x4EA5,(0x88,0xE5)); (0x4EA6,(0x96,0x92)); (0x4EA8,(0x8B,0x9C)); (0x4EAB,(0x8B,0x9D)); (0x4EAC,(0x8B,0x9E)); (0x4EAD,(0x92,0xE0)); (0x4EAE,(0x97,0xBA));
  (0x4EB0,(0x98,0xB5)); (0x4EB3,(0x98,0xB6)); (0x4EB6,(0x98,0xB7)); (0x4EBA,(0x90,0x6C)); (0x4EC0,(0x8F,0x59)); (0x4EC1,(0x90,0x6D)); (0x4EC2,(0x98,0xBC)); (0x4EC4,(0x98,0xBA));
  (0x4EC6,(0x98,0xBB)); (0x4EC7,(0x8B,0x77)); (0x4ECA,(0x8D,0xA1)); (0x4ECB,(0x89,0xEE)); (0x4ECD,(0x98,0xB9)); (0x4ECE,(0x98,0xB8)); (0x4ECF,(0x95,0xA7)); (0x4ED4,(0x8E,0x65));
  (0x4ED5,(0x8E,0x64)); (0x4ED6,(0x91,0xBC)); (0x4ED7,(0x98,0xBD)); (0x4ED8,(0x95,0x74)); (0x4ED9,(0x90,0xE5)); (0x4EDD,(0x81,0x57)); (0x4EDE,(0x98,0xBE)); (0x4EDF,(0x98,0xC0));
  (0x4EE1,(0xFA,0x69)); (0x4EE3,(0x91,0xE3)); (0x4EE4,(0x97,0xDF)); (0x4EE5,(0x88,0xC8)); (0x4EED,(0x98,0xBF)); (0x4EEE,(0x89,0xBC)); (0x4EF0,(0x8B,0xC2)); (0x4EF2,(0x92,0x87));
  (0x4EF6,(0x8C,0x8F)); (0x4EF7,(0x98,0xC1)); (0x4EFB,(0x94,0x43)); (0x4EFC,(0xFA,0x6A)); (0x4F00,(0xFA,0x6B)); (0x4F01,(0x8A,0xE9)); (0x4F03,(0xFA,0x6C)); (0x4F09,(0x98,0xC2));
  (0x4F0A,(0x88,0xC9)); (0x4F0D,(0x8C,0xDE)); (0x4F0E,(0x8A,0xEA)); (0x4F0F,(0x95,0x9A)); (0x4F10,(0x94,0xB0)); (0x4F11,(0x8B,0x78)); (0x4F1A,(0x89,0xEF)); (0x4F1C,(0x98,0xE5));
  (0x4F1D,(0x93,0x60)); (0x4F2F,(0x94,0x8C)); (0x4F30,(0x98,0xC4)); (0x4F34,(0x94,0xBA)); (0x4F36,(0x97,0xE0)); (0x4F38,(0x90,0x4C)); (0x4F39,(0xFA,0x6D)); (0x4F3A,(0x8E,0x66));
  (0x4F3C,(0x8E,0x97)); (0x4F3D,(0x89,0xBE)); (0x4F43,(0x92,0xCF)); (0x4F46,(0x92,0x41)); (0x4F47,(0x98,0xC8)); (0x4F4D,(0x88,0xCA)); (0x4F4E,(0x92,0xE1)); (0x4F4F,(0x8F,0x5A));
  (0x4F50,(0x8D,0xB2)); (0x4F51,(0x97,0x43)); (0x4F53,(0x91,0xCC)); (0x4F55,(0x89,0xBD)); (0x4F56,(0xFA,0x6E)); (0x4F57,(0x98,0xC7)); (0x4F59,(0x97,0x5D)); (0x4F5A,(0x98,0xC3));
  (0x4F5B,(0x98,0xC5)); (0x4F5C,(0x8D,0xEC)); (0x4F5D,(0x98,0xC6)); (0x4F5E,(0x9B,0x43)); (0x4F69,(0x98,0xCE)); (0x4F6F,(0x98,0xD1)); (0x4F70,(0x98,0xCF)); (0x4F73,(0x89,0xC0));
  (0x4F75,(0x95,0xB9)); (0x4F76,(0x98,0xC9)); (0x4F7B,(0x98,0xCD)); (0x4F7C,(0x8C,0xF1)); (0x4F7F,(0x8E,0x67)); (0x4F83,(0x8A,0xA4)); (0x4F86,(0x98,0xD2)); (0x4F88,(0x98,0xCA));
  (0x4F8A,(0xFA,0x70)); (0x4F8B,(0x97,0xE1)); (0x4F8D,(0x8E,0x98)); (0x4F8F,(0x98,0xCB)); (0x4F91,(0x98,0xD0)); (0x4F92,(0xFA,0x6F)); (0x4F94,(0xFA,0x72)); (0x4F96,(0x98,0xD3));
  (0x4F98,(0x98,0xCC)); (0x4F9A,(0xFA,0x71)); (0x4F9B,(0x8B,0x9F)); (0x4F9D,(0x88,0xCB)); (0x4FA0,(0x8B,0xA0)); (0x4FA1,(0x89,0xBF)); (0x4FAB,(0x9B,0x44)); (0x4FAD,(0x96,0x99));
  (0x4FAE,(0x95,0x8E)); (0x4FAF,(0x8C,0xF2)); (0x4FB5,(0x90,0x4E)); (0x4FB6,(0x97,0xB5)); (0x4FBF,(0x95,0xD6)); (0x4FC2,(0x8C,0x57)); (0x4FC3,(0x91,0xA3)); (0x4FC4,(0x89,0xE2));
  (0x4FC9,(0xFA,0x61)); (0x4FCA,(0x8F,0x72)); (0x4FCD,(0xFA,0x73)); (0x4FCE,(0x98,0xD7)); (0x4FD0,(0x98,0xDC)); (0x4FD1,(0x98,0xDA)); (0x4FD4,(0x98,0xD5)); (0x4FD7,(0x91,0xAD));
  (0x4FD8,(0x98,0xD8)); (0x4FDA,(0x98,0xDB)); (0x4FDB,(0x98,0xD9)); (0x4FDD,(0x95,0xDB)); (0x4FDF,(0x98,0xD6)); (0x4FE1,(0x90,0x4D)); (0x4FE3,(0x96,0x93)); (0x4FE4,(0x98,0xDD));
  (0x4FE5,(0x98,0xDE)); (0x4FEE,(0x8F,0x43)); (0x4FEF,(0x98,0xEB)); (0x4FF3,(0x94,0x6F)); (0x4FF5,(0x95,0x55)); (0x4FF6,(0x98,0xE6)); (0x4FF8,(0x95,0xEE)); (0x4FFA,(0x89,0xB4));
  (0x4FFE,(0x98,0xEA)); (0x4FFF,(0xFA,0x76)); (0x5005,(0x98,0xE4)); (0x5006,(0x98,0xED)); (0x5009,(0x91,0x71)); (0x500B,(0x8C,0xC2)); (0x500D,(0x94,0x7B)); (0x500F,(0xE0,0xC5));
  (0x5011,(0x98,0xEC)); (0x5012,(0x93,0x7C)); (0x5014,(0x98,0xE1)); (0x5016,(0x8C,0xF4)); (0x5019,(0x8C,0xF3)); (0x501A,(0x98,0xDF)); (0x501E,(0xFA,0x77)); (0x501F,(0x8E,0xD8));
  (0x5021,(0x98,0xE7)); (0x5022,(0xFA,0x75)); (0x5023,(0x95,0xED)); (0x5024,(0x92,0x6C)); (0x5025,(0x98,0xE3)); (0x5026,(0x8C,0x91)); (0x5028,(0x98,0xE0)); (0x5029,(0x98,0xE8));
  (0x502A,(0x98,0xE2)); (0x502B,(0x97,0xCF)); (0x502C,(0x98,0xE9)); (0x502D,(0x98,0x60)); (0x5036,(0x8B,0xE4)); (0x5039,(0x8C,0x90)); (0x5040,(0xFA,0x74)); (0x5042,(0xFA,0x7A));
  (0x5043,(0x98,0xEE)); (0x5046,(0xFA,0x78)); (0x5047,(0x98,0xEF)); (0x5048,(0x98,0xF3)); (0x5049,(0x88,0xCC)); (0x504F,(0x95,0xCE)); (0x5050,(0x98,0xF2)); (0x5055,(0x98,0xF1))
].
(* src/generated/whatwg/shiftjis_whatwg_tables.rs.inc:1395-3838 ENCODE_TABLE, entries 768..1023 *)
Definition sjis_encode_table_3 : list (N * (N * N)) := [
  (0x5056,(0x98,0xF5)); (0x505A,(0x98,0xF4)); (0x505C,(0x92,0xE2)); (0x5065,(0x8C,0x92)); (0x506C,(0x98,0xF6)); (0x5070,(0xFA,0x79)); (0x5072,(0x8E,0xC3)); (0x5074,(0x91,0xA4));
  (0x5075,(0x92,0xE3)); (0x5076,(0x8B,0xF4)); (0x5078,(0x98,0xF7)); (0x507D,(0x8B,0x55)); (0x5080,(0x98,0xF8)); (0x5085,(0x98,0xFA)); (0x508D,(0x96,0x54)); (0x5091,(0x8C,0x86));
  (0x5094,(0xFA,0x7B)); (0x5098,(0x8E,0x50)); (0x5099,(0x94,0xF5)); (0x509A,(0x98,0xF9)); (0x50AC,(0x8D,0xC3)); (0x50AD,(0x97,0x62)); (0x50B2,(0x98,0xFC)); (0x50B3,(0x99,0x42));
  (0x50B4,(0x98,0xFB)); (0x50B5,(0x8D,0xC2)); (0x50B7,(0x8F,0x9D)); (0x50BE,(0x8C,0x58)); (0x50C2,(0x99,0x43)); (0x50C5,(0x8B,0xCD)); (0x50C9,(0x99,0x40)); (0x50CA,(0x99,0x41));
  (0x50CD,(0x93,0xAD)); (0x50CF,(0x91,0x9C)); (0x50D1,(0x8B,0xA1)); (0x50D5,(0x96,0x6C)); (0x50D6,(0x99,0x44)); (0x50D8,(0xFA,0x7D)); (0x50DA,(0x97,0xBB)); (0x50DE,(0x99,0x45));
  (0x50E3,(0x99,0x48)); (0x50E5,(0x99,0x46)); (0x50E7,(0x91,0x6D)); (0x50ED,(0x99,0x47)); (0x50EE,(0x99,0x49)); (0x50F4,(0xFA,0x7C)); (0x50F5,(0x99,0x4B)); (0x50F9,(0x99,0x4A));
  (0x50FB,(0x95,0xC6)); (0x5100,(0x8B,0x56)); (0x5101,(0x99,0x4D)); (0x5102,(0x99,0x4E)); (0x5104,(0x89,0xAD)); (0x5109,(0x99,0x4C)); (0x5112,(0x8E,0xF2)); (0x5114,(0x99,0x51));
  (0x5115,(0x99,0x50)); (0x5116,(0x99,0x4F)); (0x5118,(0x98,0xD4)); (0x511A,(0x99,0x52)); (0x511F,(0x8F,0x9E)); (0x5121,(0x99,0x53)); (0x512A,(0x97,0x44)); (0x5132,(0x96,0xD7));
  (0x5137,(0x99,0x55)); (0x513A,(0x99,0x54)); (0x513B,(0x99,0x57)); (0x513C,(0x99,0x56)); (0x513F,(0x99,0x58)); (0x5140,(0x99,0x59)); (0x5141,(0x88,0xF2)); (0x5143,(0x8C,0xB3));
  (0x5144,(0x8C,0x5A)); (0x5145,(0x8F,0x5B)); (0x5146,(0x92,0x9B)); (0x5147,(0x8B,0xA2)); (0x5148,(0x90,0xE6)); (0x5149,(0x8C,0xF5)); (0x514A,(0xFA,0x7E)); (0x514B,(0x8D,0x8E));
  (0x514C,(0x99,0x5B)); (0x514D,(0x96,0xC6)); (0x514E,(0x93,0x65)); (0x5150,(0x8E,0x99)); (0x5152,(0x99,0x5A)); (0x5154,(0x99,0x5C)); (0x515A,(0x93,0x7D)); (0x515C,(0x8A,0x95));
  (0x5162,(0x99,0x5D)); (0x5164,(0xFA,0x80)); (0x5165,(0x93,0xFC)); (0x5168,(0x91,0x53)); (0x5169,(0x99,0x5F)); (0x516A,(0x99,0x60)); (0x516B,(0x94,0xAA)); (0x516C,(0x8C,0xF6));
  (0x516D,(0x98,0x5A)); (0x516E,(0x99,0x61)); (0x5171,(0x8B,0xA4)); (0x5175,(0x95,0xBA)); (0x5176,(0x91,0xB4)); (0x5177,(0x8B,0xEF)); (0x5178,(0x93,0x54)); (0x517C,(0x8C,0x93));
  (0x5180,(0x99,0x62)); (0x5182,(0x99,0x63)); (0x5185,(0x93,0xE0)); (0x5186,(0x89,0x7E)); (0x5189,(0x99,0x66)); (0x518A,(0x8D,0xFB)); (0x518C,(0x99,0x65)); (0x518D,(0x8D,0xC4));
  (0x518F,(0x99,0x67)); (0x5190,(0xE3,0xEC)); (0x5191,(0x99,0x68)); (0x5192,(0x96,0x60)); (0x5193,(0x99,0x69)); (0x5195,(0x99,0x6A)); (0x5196,(0x99,0x6B)); (0x5197,(0x8F,0xE7));
  (0x5199,(0x8E,0xCA)); (0x519D,(0xFA,0x81)); (0x51A0,(0x8A,0xA5)); (0x51A2,(0x99,0x6E)); (0x51A4,(0x99,0x6C)); (0x51A5,(0x96,0xBB)); (0x51A6,(0x99,0x6D)); (0x51A8,(0x95,0x79));
  (0x51A9,(0x99,0x6F)); (0x51AA,(0x99,0x70)); (0x51AB,(0x99,0x71)); (0x51AC,(0x93,0x7E)); (0x51B0,(0x99,0x75)); (0x51B1,(0x99,0x73)); (0x51B2,(0x99,0x74)); (0x51B3,(0x99,0x72));
  (0x51B4,(0x8D,0xE1)); (0x51B5,(0x99,0x76)); (0x51B6,(0x96,0xE8)); (0x51B7,(0x97,0xE2)); (0x51BD,(0x99,0x77)); (0x51BE,(0xFA,0x82)); (0x51C4,(0x90,0xA6)); (0x51C5,(0x99,0x78));
  (0x51C6,(0x8F,0x79)); (0x51C9,(0x99,0x79)); (0x51CB,(0x92,0x9C)); (0x51CC,(0x97,0xBD)); (0x51CD,(0x93,0x80)); (0x51D6,(0x99,0xC3)); (0x51DB,(0x99,0x7A)); (0x51DC,(0xEA,0xA3));
  (0x51DD,(0x8B,0xC3)); (0x51E0,(0x99,0x7B)); (0x51E1,(0x96,0x7D)); (0x51E6,(0x8F,0x88)); (0x51E7,(0x91,0xFA)); (0x51E9,(0x99,0x7D)); (0x51EA,(0x93,0xE2)); (0x51EC,(0xFA,0x83));
  (0x51ED,(0x99,0x7E)); (0x51F0,(0x99,0x80)); (0x51F1,(0x8A,0x4D)); (0x51F5,(0x99,0x81)); (0x51F6,(0x8B,0xA5)); (0x51F8,(0x93,0xCA)); (0x51F9,(0x89,0x9A)); (0x51FA,(0x8F,0x6F));
  (0x51FD,(0x94,0x9F)); (0x51FE,(0x99,0x82)); (0x5200,(0x93,0x81)); (0x5203,(0x90,0x6E)); (0x5204,(0x99,0x83)); (0x5206,(0x95,0xAA)); (0x5207,(0x90,0xD8)); (0x5208,(0x8A,0xA0));
  (0x520A,(0x8A,0xA7)); (0x520B,(0x99,0x84)); (0x520E,(0x99,0x86)); (0x5211,(0x8C,0x59)); (0x5214,(0x99,0x85)); (0x5215,(0xFA,0x84)); (0x5217,(0x97,0xF1)); (0x521D,(0x8F,0x89));
  (0x5224,(0x94,0xBB)); (0x5225,(0x95,0xCA)); (0x5227,(0x99,0x87)); (0x5229,(0x97,0x98)); (0x522A,(0x99,0x88)); (0x522E,(0x99,0x89)); (0x5230,(0x93,0x9E)); (0x5233,(0x99,0x8A));
  (0x5236,(0x90,0xA7)); (0x5237,(0x8D,0xFC)); (0x5238,(0x8C,0x94)); (0x5239,(0x99,0x8B)); (0x523A,(0x8E,0x68)); (0x523B,(0x8D,0x8F)); (0x5243,(0x92,0xE4)); (0x5244,(0x99,0x8D));
  (0x5247,(0x91,0xA5)); (0x524A,(0x8D,0xED)); (0x524B,(0x99,0x8E)); (0x524C,(0x99,0x8F)); (0x524D,(0x91,0x4F)); (0x524F,(0x99,0x8C)); (0x5254,(0x99,0x91)); (0x5256,(0x96,0x55));
  (0x525B,(0x8D,0x84)); (0x525E,(0x99,0x90)); (0x5263,(0x8C,0x95)); (0x5264,(0x8D,0xDC)); (0x5265,(0x94,0x8D)); (0x5269,(0x99,0x94)); (0x526A,(0x99,0x92)); (0x526F,(0x95,0x9B));
  (0x5270,(0x8F,0xE8)); (0x5271,(0x99,0x9B)); (0x5272,(0x8A,0x84)); (0x5273,(0x99,0x95)); (0x5274,(0x99,0x93)); (0x5275,(0x91,0x6E)); (0x527D,(0x99,0x97)); (0x527F,(0x99,0x96));
  (0x5283,(0x8A,0x63)); (0x5287,(0x8C,0x80)); (0x5288,(0x99,0x9C)); (0x5289,(0x97,0xAB)); (0x528D,(0x99,0x98)); (0x5291,(0x99,0x9D)); (0x5292,(0x99,0x9A)); (0x5294,(0x99,0x99));
  (0x529B,(0x97,0xCD)); (0x529C,(0xFA,0x85)); (0x529F,(0x8C,0xF7)); (0x52A0,(0x89,0xC1)); (0x52A3,(0x97,0xF2)); (0x52A6,(0xFA,0x86)); (0x52A9,(0x8F,0x95)); (0x52AA,(0x93,0x77));
  (0x52AB,(0x8D,0x85)); (0x52AC,(0x99,0xA0)); (0x52AD,(0x99,0xA1)); (0x52AF,(0xFB,0x77)); (0x52B1,(0x97,0xE3)); (0x52B4,(0x98,0x4A)); (0x52B5,(0x99,0xA3)); (0x52B9,(0x8C,0xF8));
  (0x52BC,(0x99,0xA2)); (0x52BE,(0x8A,0x4E)); (0x52C0,(0xFA,0x87)); (0x52C1,(0x99,0xA4)); (0x52C3,(0x96,0x75)); (0x52C5,(0x92,0xBA)); (0x52C7,(0x97,0x45)); (0x52C9,(0x95,0xD7))
].
(* src/generated/whatwg/shiftjis_whatwg_tables.rs.inc:1395-3838 ENCODE_TABLE, entries 1024..1279 *)
Definition sjis_encode_table_4 : list (N * (N * N)) := [
  (0x52CD,(0x99,0xA5)); (0x52D2,(0xE8,0xD3)); (0x52D5,(0x93,0xAE)); (0x52D7,(0x99,0xA6)); (0x52D8,(0x8A,0xA8)); (0x52D9,(0x96,0xB1)); (0x52DB,(0xFA,0x88)); (0x52DD,(0x8F,0x9F));
  (0x52DE,(0x99,0xA7)); (0x52DF,(0x95,0xE5)); (0x52E0,(0x99,0xAB)); (0x52E2,(0x90,0xA8)); (0x52E3,(0x99,0xA8)); (0x52E4,(0x8B,0xCE)); (0x52E6,(0x99,0xA9)); (0x52E7,(0x8A,0xA9));
  (0x52F2,(0x8C,0x4D)); (0x52F3,(0x99,0xAC)); (0x52F5,(0x99,0xAD)); (0x52F8,(0x99,0xAE)); (0x52F9,(0x99,0xAF)); (0x52FA,(0x8E,0xD9)); (0x52FE,(0x8C,0xF9)); (0x52FF,(0x96,0xDC));
  (0x5300,(0xFA,0x89)); (0x5301,(0x96,0xE6)); (0x5302,(0x93,0xF5)); (0x5305,(0x95,0xEF)); (0x5306,(0x99,0xB0)); (0x5307,(0xFA,0x8A)); (0x5308,(0x99,0xB1)); (0x530D,(0x99,0xB3));
  (0x530F,(0x99,0xB5)); (0x5310,(0x99,0xB4)); (0x5315,(0x99,0xB6)); (0x5316,(0x89,0xBB)); (0x5317,(0x96,0x6B)); (0x5319,(0x8D,0xFA)); (0x531A,(0x99,0xB7)); (0x531D,(0x91,0x78));
  (0x5320,(0x8F,0xA0)); (0x5321,(0x8B,0xA7)); (0x5323,(0x99,0xB8)); (0x5324,(0xFA,0x8B)); (0x532A,(0x94,0xD9)); (0x532F,(0x99,0xB9)); (0x5331,(0x99,0xBA)); (0x5333,(0x99,0xBB));
  (0x5338,(0x99,0xBC)); (0x5339,(0x95,0x43)); (0x533A,(0x8B,0xE6)); (0x533B,(0x88,0xE3)); (0x533F,(0x93,0xBD)); (0x5340,(0x99,0xBD)); (0x5341,(0x8F,0x5C)); (0x5343,(0x90,0xE7));
  (0x5345,(0x99,0xBF)); (0x5346,(0x99,0xBE)); (0x5347,(0x8F,0xA1)); (0x5348,(0x8C,0xDF)); (0x5349,(0x99,0xC1)); (0x534A,(0x94,0xBC)); (0x534D,(0x99,0xC2)); (0x5351,(0x94,0xDA));
  (0x5352,(0x91,0xB2)); (0x5353,(0x91,0xEC)); (0x5354,(0x8B,0xA6)); (0x5357,(0x93,0xEC)); (0x5358,(0x92,0x50)); (0x535A,(0x94,0x8E)); (0x535C,(0x96,0x6D)); (0x535E,(0x99,0xC4));
  (0x5360,(0x90,0xE8)); (0x5366,(0x8C,0x54)); (0x5369,(0x99,0xC5)); (0x536E,(0x99,0xC6)); (0x536F,(0x89,0x4B)); (0x5370,(0x88,0xF3)); (0x5371,(0x8A,0xEB)); (0x5372,(0xFA,0x8C));
  (0x5373,(0x91,0xA6)); (0x5374,(0x8B,0x70)); (0x5375,(0x97,0x91)); (0x5377,(0x99,0xC9)); (0x5378,(0x89,0xB5)); (0x537B,(0x99,0xC8)); (0x537F,(0x8B,0xA8)); (0x5382,(0x99,0xCA));
  (0x5384,(0x96,0xEF)); (0x5393,(0xFA,0x8D)); (0x5396,(0x99,0xCB)); (0x5398,(0x97,0xD0)); (0x539A,(0x8C,0xFA)); (0x539F,(0x8C,0xB4)); (0x53A0,(0x99,0xCC)); (0x53A5,(0x99,0xCE));
  (0x53A6,(0x99,0xCD)); (0x53A8,(0x90,0x7E)); (0x53A9,(0x89,0x58)); (0x53AD,(0x89,0x7D)); (0x53AE,(0x99,0xCF)); (0x53B0,(0x99,0xD0)); (0x53B2,(0xFA,0x8E)); (0x53B3,(0x8C,0xB5));
  (0x53B6,(0x99,0xD1)); (0x53BB,(0x8B,0x8E)); (0x53C2,(0x8E,0x51)); (0x53C3,(0x99,0xD2)); (0x53C8,(0x96,0x94)); (0x53C9,(0x8D,0xB3)); (0x53CA,(0x8B,0x79)); (0x53CB,(0x97,0x46));
  (0x53CC,(0x91,0x6F)); (0x53CD,(0x94,0xBD)); (0x53CE,(0x8E,0xFB)); (0x53D4,(0x8F,0x66)); (0x53D6,(0x8E,0xE6)); (0x53D7,(0x8E,0xF3)); (0x53D9,(0x8F,0x96)); (0x53DB,(0x94,0xBE));
  (0x53DD,(0xFA,0x8F)); (0x53DF,(0x99,0xD5)); (0x53E1,(0x89,0x62)); (0x53E2,(0x91,0x70)); (0x53E3,(0x8C,0xFB)); (0x53E4,(0x8C,0xC3)); (0x53E5,(0x8B,0xE5)); (0x53E8,(0x99,0xD9));
  (0x53E9,(0x92,0x40)); (0x53EA,(0x91,0xFC)); (0x53EB,(0x8B,0xA9)); (0x53EC,(0x8F,0xA2)); (0x53ED,(0x99,0xDA)); (0x53EE,(0x99,0xD8)); (0x53EF,(0x89,0xC2)); (0x53F0,(0x91,0xE4));
  (0x53F1,(0x8E,0xB6)); (0x53F2,(0x8E,0x6A)); (0x53F3,(0x89,0x45)); (0x53F6,(0x8A,0x90)); (0x53F7,(0x8D,0x86)); (0x53F8,(0x8E,0x69)); (0x53FA,(0x99,0xDB)); (0x5401,(0x99,0xDC));
  (0x5403,(0x8B,0x68)); (0x5404,(0x8A,0x65)); (0x5408,(0x8D,0x87)); (0x5409,(0x8B,0x67)); (0x540A,(0x92,0xDD)); (0x540B,(0x89,0x44)); (0x540C,(0x93,0xAF)); (0x540D,(0x96,0xBC));
  (0x540E,(0x8D,0x40)); (0x540F,(0x97,0x99)); (0x5410,(0x93,0x66)); (0x5411,(0x8C,0xFC)); (0x541B,(0x8C,0x4E)); (0x541D,(0x99,0xE5)); (0x541F,(0x8B,0xE1)); (0x5420,(0x96,0x69));
  (0x5426,(0x94,0xDB)); (0x5429,(0x99,0xE4)); (0x542B,(0x8A,0xDC)); (0x542C,(0x99,0xDF)); (0x542D,(0x99,0xE0)); (0x542E,(0x99,0xE2)); (0x5436,(0x99,0xE3)); (0x5438,(0x8B,0x7A));
  (0x5439,(0x90,0x81)); (0x543B,(0x95,0xAB)); (0x543C,(0x99,0xE1)); (0x543D,(0x99,0xDD)); (0x543E,(0x8C,0xE1)); (0x5440,(0x99,0xDE)); (0x5442,(0x98,0x43)); (0x5446,(0x95,0xF0));
  (0x5448,(0x92,0xE6)); (0x5449,(0x8C,0xE0)); (0x544A,(0x8D,0x90)); (0x544E,(0x99,0xE6)); (0x5451,(0x93,0xDB)); (0x545F,(0x99,0xEA)); (0x5468,(0x8E,0xFC)); (0x546A,(0x8E,0xF4));
  (0x5470,(0x99,0xED)); (0x5471,(0x99,0xEB)); (0x5473,(0x96,0xA1)); (0x5475,(0x99,0xE8)); (0x5476,(0x99,0xF1)); (0x5477,(0x99,0xEC)); (0x547B,(0x99,0xEF)); (0x547C,(0x8C,0xC4));
  (0x547D,(0x96,0xBD)); (0x5480,(0x99,0xF0)); (0x5484,(0x99,0xF2)); (0x5486,(0x99,0xF4)); (0x548A,(0xFA,0x92)); (0x548B,(0x8D,0xEE)); (0x548C,(0x98,0x61)); (0x548E,(0x99,0xE9));
  (0x548F,(0x99,0xE7)); (0x5490,(0x99,0xF3)); (0x5492,(0x99,0xEE)); (0x549C,(0xFA,0x91)); (0x54A2,(0x99,0xF6)); (0x54A4,(0x9A,0x42)); (0x54A5,(0x99,0xF8)); (0x54A8,(0x99,0xFC));
  (0x54A9,(0xFA,0x93)); (0x54AB,(0x9A,0x40)); (0x54AC,(0x99,0xF9)); (0x54AF,(0x9A,0x5D)); (0x54B2,(0x8D,0xE7)); (0x54B3,(0x8A,0x50)); (0x54B8,(0x99,0xF7)); (0x54BC,(0x9A,0x44));
  (0x54BD,(0x88,0xF4)); (0x54BE,(0x9A,0x43)); (0x54C0,(0x88,0xA3)); (0x54C1,(0x95,0x69)); (0x54C2,(0x9A,0x41)); (0x54C4,(0x99,0xFA)); (0x54C7,(0x99,0xF5)); (0x54C8,(0x99,0xFB));
  (0x54C9,(0x8D,0xC6)); (0x54D8,(0x9A,0x45)); (0x54E1,(0x88,0xF5)); (0x54E2,(0x9A,0x4E)); (0x54E5,(0x9A,0x46)); (0x54E6,(0x9A,0x47)); (0x54E8,(0x8F,0xA3)); (0x54E9,(0x96,0x89));
  (0x54ED,(0x9A,0x4C)); (0x54EE,(0x9A,0x4B)); (0x54F2,(0x93,0x4E)); (0x54FA,(0x9A,0x4D)); (0x54FD,(0x9A,0x4A)); (0x54FF,(0xFA,0x94)); (0x5504,(0x89,0x53)); (0x5506,(0x8D,0xB4));
  (0x5507,(0x90,0x4F)); (0x550F,(0x9A,0x48)); (0x5510,(0x93,0x82)); (0x5514,(0x9A,0x49)); (0x5516,(0x88,0xA0)); (0x552E,(0x9A,0x53)); (0x552F,(0x97,0x42)); (0x5531,(0x8F,0xA5));
  (0x5533,(0x9A,0x59)); (0x5538,(0x9A,0x58)); (0x5539,(0x9A,0x4F)); (0x553E,(0x91,0xC1)); (0x5540,(0x9A,0x50)); (0x5544,(0x91,0xED)); (0x5545,(0x9A,0x55)); (0x5546,(0x8F,0xA4))
].
(* src/generated/whatwg/shiftjis_whatwg_tables.rs.inc:1395-3838 ENCODE_TABLE, entries 1280..1535 *)
Definition sjis_encode_table_5 : list (N * (N * N)) := [
  (0x554C,(0x9A,0x52)); (0x554F,(0x96,0xE2)); (0x5553,(0x8C,0x5B)); (0x5556,(0x9A,0x56)); (0x5557,(0x9A,0x57)); (0x555C,(0x9A,0x54)); (0x555D,(0x9A,0x5A)); (0x5563,(0x9A,0x51));
  (0x557B,(0x9A,0x60)); (0x557C,(0x9A,0x65)); (0x557E,(0x9A,0x61)); (0x5580,(0x9A,0x5C)); (0x5583,(0x9A,0x66)); (0x5584,(0x91,0x50)); (0x5586,(0xFA,0x95)); (0x5587,(0x9A,0x68));
  (0x5589,(0x8D,0x41)); (0x558A,(0x9A,0x5E)); (0x558B,(0x92,0x9D)); (0x5598,(0x9A,0x62)); (0x5599,(0x9A,0x5B)); (0x559A,(0x8A,0xAB)); (0x559C,(0x8A,0xEC)); (0x559D,(0x8A,0x85));
  (0x559E,(0x9A,0x63)); (0x559F,(0x9A,0x5F)); (0x55A7,(0x8C,0x96)); (0x55A8,(0x9A,0x69)); (0x55A9,(0x9A,0x67)); (0x55AA,(0x91,0x72)); (0x55AB,(0x8B,0x69)); (0x55AC,(0x8B,0xAA));
  (0x55AE,(0x9A,0x64)); (0x55B0,(0x8B,0xF2)); (0x55B6,(0x89,0x63)); (0x55C4,(0x9A,0x6D)); (0x55C5,(0x9A,0x6B)); (0x55C7,(0x9A,0xA5)); (0x55D4,(0x9A,0x70)); (0x55DA,(0x9A,0x6A));
  (0x55DC,(0x9A,0x6E)); (0x55DF,(0x9A,0x6C)); (0x55E3,(0x8E,0x6B)); (0x55E4,(0x9A,0x6F)); (0x55F7,(0x9A,0x72)); (0x55F9,(0x9A,0x77)); (0x55FD,(0x9A,0x75)); (0x55FE,(0x9A,0x74));
  (0x5606,(0x92,0x51)); (0x5609,(0x89,0xC3)); (0x5614,(0x9A,0x71)); (0x5616,(0x9A,0x73)); (0x5617,(0x8F,0xA6)); (0x5618,(0x89,0x52)); (0x561B,(0x9A,0x76)); (0x5629,(0x89,0xDC));
  (0x562F,(0x9A,0x82)); (0x5631,(0x8F,0xFA)); (0x5632,(0x9A,0x7D)); (0x5634,(0x9A,0x7B)); (0x5636,(0x9A,0x7C)); (0x5638,(0x9A,0x7E)); (0x5642,(0x89,0x5C)); (0x564C,(0x91,0x58));
  (0x564E,(0x9A,0x78)); (0x5650,(0x9A,0x79)); (0x565B,(0x8A,0x9A)); (0x5664,(0x9A,0x81)); (0x5668,(0x8A,0xED)); (0x566A,(0x9A,0x84)); (0x566B,(0x9A,0x80)); (0x566C,(0x9A,0x83));
  (0x5674,(0x95,0xAC)); (0x5678,(0x93,0xD3)); (0x567A,(0x94,0xB6)); (0x5680,(0x9A,0x86)); (0x5686,(0x9A,0x85)); (0x5687,(0x8A,0x64)); (0x568A,(0x9A,0x87)); (0x568F,(0x9A,0x8A));
  (0x5694,(0x9A,0x89)); (0x56A0,(0x9A,0x88)); (0x56A2,(0x94,0x58)); (0x56A5,(0x9A,0x8B)); (0x56AE,(0x9A,0x8C)); (0x56B4,(0x9A,0x8E)); (0x56B6,(0x9A,0x8D)); (0x56BC,(0x9A,0x90));
  (0x56C0,(0x9A,0x93)); (0x56C1,(0x9A,0x91)); (0x56C2,(0x9A,0x8F)); (0x56C3,(0x9A,0x92)); (0x56C8,(0x9A,0x94)); (0x56CE,(0x9A,0x95)); (0x56D1,(0x9A,0x96)); (0x56D3,(0x9A,0x97));
  (0x56D7,(0x9A,0x98)); (0x56D8,(0x99,0x64)); (0x56DA,(0x8E,0xFA)); (0x56DB,(0x8E,0x6C)); (0x56DE,(0x89,0xF1)); (0x56E0,(0x88,0xF6)); (0x56E3,(0x92,0x63)); (0x56EE,(0x9A,0x99));
  (0x56F0,(0x8D,0xA2)); (0x56F2,(0x88,0xCD)); (0x56F3,(0x90,0x7D)); (0x56F9,(0x9A,0x9A)); (0x56FA,(0x8C,0xC5)); (0x56FD,(0x8D,0x91)); (0x56FF,(0x9A,0x9C)); (0x5700,(0x9A,0x9B));
  (0x5703,(0x95,0xDE)); (0x5704,(0x9A,0x9D)); (0x5708,(0x9A,0x9F)); (0x5709,(0x9A,0x9E)); (0x570B,(0x9A,0xA0)); (0x570D,(0x9A,0xA1)); (0x570F,(0x8C,0x97)); (0x5712,(0x89,0x80));
  (0x5713,(0x9A,0xA2)); (0x5716,(0x9A,0xA4)); (0x5718,(0x9A,0xA3)); (0x571C,(0x9A,0xA6)); (0x571F,(0x93,0x79)); (0x5726,(0x9A,0xA7)); (0x5727,(0x88,0xB3)); (0x5728,(0x8D,0xDD));
  (0x572D,(0x8C,0x5C)); (0x5730,(0x92,0x6E)); (0x5737,(0x9A,0xA8)); (0x5738,(0x9A,0xA9)); (0x573B,(0x9A,0xAB)); (0x5740,(0x9A,0xAC)); (0x5742,(0x8D,0xE2)); (0x5747,(0x8B,0xCF));
  (0x574A,(0x96,0x56)); (0x574E,(0x9A,0xAA)); (0x574F,(0x9A,0xAD)); (0x5750,(0x8D,0xBF)); (0x5751,(0x8D,0x42)); (0x5759,(0xFA,0x96)); (0x5761,(0x9A,0xB1)); (0x5764,(0x8D,0xA3));
  (0x5765,(0xFA,0x97)); (0x5766,(0x92,0x52)); (0x5769,(0x9A,0xAE)); (0x576A,(0x92,0xD8)); (0x577F,(0x9A,0xB2)); (0x5782,(0x90,0x82)); (0x5788,(0x9A,0xB0)); (0x5789,(0x9A,0xB3));
  (0x578B,(0x8C,0x5E)); (0x5793,(0x9A,0xB4)); (0x57A0,(0x9A,0xB5)); (0x57A2,(0x8D,0x43)); (0x57A3,(0x8A,0x5F)); (0x57A4,(0x9A,0xB7)); (0x57AA,(0x9A,0xB8)); (0x57AC,(0xFA,0x98));
  (0x57B0,(0x9A,0xB9)); (0x57B3,(0x9A,0xB6)); (0x57C0,(0x9A,0xAF)); (0x57C3,(0x9A,0xBA)); (0x57C6,(0x9A,0xBB)); (0x57C7,(0xFA,0x9A)); (0x57C8,(0xFA,0x99)); (0x57CB,(0x96,0x84));
  (0x57CE,(0x8F,0xE9)); (0x57D2,(0x9A,0xBD)); (0x57D3,(0x9A,0xBE)); (0x57D4,(0x9A,0xBC)); (0x57D6,(0x9A,0xC0)); (0x57DC,(0x94,0x57)); (0x57DF,(0x88,0xE6)); (0x57E0,(0x95,0x75));
  (0x57E3,(0x9A,0xC1)); (0x57F4,(0x8F,0xFB)); (0x57F7,(0x8E,0xB7)); (0x57F9,(0x94,0x7C)); (0x57FA,(0x8A,0xEE)); (0x57FC,(0x8D,0xE9)); (0x5800,(0x96,0x78)); (0x5802,(0x93,0xB0));
  (0x5805,(0x8C,0x98)); (0x5806,(0x91,0xCD)); (0x580A,(0x9A,0xBF)); (0x580B,(0x9A,0xC2)); (0x5815,(0x91,0xC2)); (0x5819,(0x9A,0xC3)); (0x581D,(0x9A,0xC4)); (0x5821,(0x9A,0xC6));
  (0x5824,(0x92,0xE7)); (0x582A,(0x8A,0xAC)); (0x582F,(0xEA,0x9F)); (0x5830,(0x89,0x81)); (0x5831,(0x95,0xF1)); (0x5834,(0x8F,0xEA)); (0x5835,(0x93,0x67)); (0x583A,(0x8D,0xE4));
  (0x583D,(0x9A,0xCC)); (0x5840,(0x95,0xBB)); (0x5841,(0x97,0xDB)); (0x584A,(0x89,0xF2)); (0x584B,(0x9A,0xC8)); (0x5851,(0x91,0x59)); (0x5852,(0x9A,0xCB)); (0x5854,(0x93,0x83));
  (0x5857,(0x93,0x68)); (0x5858,(0x93,0x84)); (0x5859,(0x94,0xB7)); (0x585A,(0x92,0xCB)); (0x585E,(0x8D,0xC7)); (0x5862,(0x9A,0xC7)); (0x5869,(0x89,0x96)); (0x586B,(0x93,0x55));
  (0x5870,(0x9A,0xC9)); (0x5872,(0x9A,0xC5)); (0x5875,(0x90,0x6F)); (0x5879,(0x9A,0xCD)); (0x587E,(0x8F,0x6D)); (0x5883,(0x8B,0xAB)); (0x5885,(0x9A,0xCE)); (0x5893,(0x95,0xE6));
  (0x5897,(0x91,0x9D)); (0x589C,(0x92,0xC4)); (0x589E,(0xFA,0x9D)); (0x589F,(0x9A,0xD0)); (0x58A8,(0x96,0x6E)); (0x58AB,(0x9A,0xD1)); (0x58AE,(0x9A,0xD6)); (0x58B2,(0xFA,0x9E));
  (0x58B3,(0x95,0xAD)); (0x58B8,(0x9A,0xD5)); (0x58B9,(0x9A,0xCF)); (0x58BA,(0x9A,0xD2)); (0x58BB,(0x9A,0xD4)); (0x58BE,(0x8D,0xA4)); (0x58C1,(0x95,0xC7)); (0x58C5,(0x9A,0xD7));
  (0x58C7,(0x92,0x64)); (0x58CA,(0x89,0xF3)); (0x58CC,(0x8F,0xEB)); (0x58D1,(0x9A,0xD9)); (0x58D3,(0x9A,0xD8)); (0x58D5,(0x8D,0x88)); (0x58D7,(0x9A,0xDA)); (0x58D8,(0x9A,0xDC));
  (0x58D9,(0x9A,0xDB)); (0x58DC,(0x9A,0xDE)); (0x58DE,(0x9A,0xD3)); (0x58DF,(0x9A,0xE0)); (0x58E4,(0x9A,0xDF)); (0x58E5,(0x9A,0xDD)); (0x58EB,(0x8E,0x6D)); (0x58EC,(0x90,0x70))
].
(* src/generated/whatwg/shiftjis_whatwg_tables.rs.inc:1395-3838 ENCODE_TABLE, entries 1536..1791 *)
Definition sjis_encode_table_6 : list (N * (N * N)) := [
  (0x58EE,(0x91,0x73)); (0x58EF,(0x9A,0xE1)); (0x58F0,(0x90,0xBA)); (0x58F1,(0x88,0xEB)); (0x58F2,(0x94,0x84)); (0x58F7,(0x92,0xD9)); (0x58F9,(0x9A,0xE3)); (0x58FA,(0x9A,0xE2));
  (0x58FB,(0x9A,0xE4)); (0x58FC,(0x9A,0xE5)); (0x58FD,(0x9A,0xE6)); (0x5902,(0x9A,0xE7)); (0x5909,(0x95,0xCF)); (0x590A,(0x9A,0xE8)); (0x590B,(0xFA,0x9F)); (0x590F,(0x89,0xC4));
  (0x5910,(0x9A,0xE9)); (0x5915,(0x97,0x5B)); (0x5916,(0x8A,0x4F)); (0x5918,(0x99,0xC7)); (0x5919,(0x8F,0x67)); (0x591A,(0x91,0xBD)); (0x591B,(0x9A,0xEA)); (0x591C,(0x96,0xE9));
  (0x5922,(0x96,0xB2)); (0x5925,(0x9A,0xEC)); (0x5927,(0x91,0xE5)); (0x5929,(0x93,0x56)); (0x592A,(0x91,0xBE)); (0x592B,(0x95,0x76)); (0x592C,(0x9A,0xED)); (0x592D,(0x9A,0xEE));
  (0x592E,(0x89,0x9B)); (0x5931,(0x8E,0xB8)); (0x5932,(0x9A,0xEF)); (0x5937,(0x88,0xCE)); (0x5938,(0x9A,0xF0)); (0x593E,(0x9A,0xF1)); (0x5944,(0x89,0x82)); (0x5947,(0x8A,0xEF));
  (0x5948,(0x93,0xDE)); (0x5949,(0x95,0xF2)); (0x594E,(0x9A,0xF5)); (0x594F,(0x91,0x74)); (0x5950,(0x9A,0xF4)); (0x5951,(0x8C,0x5F)); (0x5953,(0xFA,0xA0)); (0x5954,(0x96,0x7A));
  (0x5955,(0x9A,0xF3)); (0x5957,(0x93,0x85)); (0x5958,(0x9A,0xF7)); (0x595A,(0x9A,0xF6)); (0x595B,(0xFA,0xA1)); (0x595D,(0xFA,0xA2)); (0x5960,(0x9A,0xF9)); (0x5962,(0x9A,0xF8));
  (0x5963,(0xFA,0xA3)); (0x5965,(0x89,0x9C)); (0x5967,(0x9A,0xFA)); (0x5968,(0x8F,0xA7)); (0x5969,(0x9A,0xFC)); (0x596A,(0x92,0x44)); (0x596C,(0x9A,0xFB)); (0x596E,(0x95,0xB1));
  (0x5973,(0x8F,0x97)); (0x5974,(0x93,0x7A)); (0x5978,(0x9B,0x40)); (0x597D,(0x8D,0x44)); (0x5981,(0x9B,0x41)); (0x5982,(0x94,0x40)); (0x5983,(0x94,0xDC)); (0x5984,(0x96,0xCF));
  (0x598A,(0x94,0x44)); (0x598D,(0x9B,0x4A)); (0x5993,(0x8B,0x57)); (0x5996,(0x97,0x64)); (0x5999,(0x96,0xAD)); (0x599B,(0x9B,0xAA)); (0x599D,(0x9B,0x42)); (0x59A3,(0x9B,0x45));
  (0x59A4,(0xFA,0xA4)); (0x59A5,(0x91,0xC3)); (0x59A8,(0x96,0x57)); (0x59AC,(0x93,0x69)); (0x59B2,(0x9B,0x46)); (0x59B9,(0x96,0x85)); (0x59BA,(0xFA,0xA5)); (0x59BB,(0x8D,0xC8));
  (0x59BE,(0x8F,0xA8)); (0x59C6,(0x9B,0x47)); (0x59C9,(0x8E,0x6F)); (0x59CB,(0x8E,0x6E)); (0x59D0,(0x88,0xB7)); (0x59D1,(0x8C,0xC6)); (0x59D3,(0x90,0xA9)); (0x59D4,(0x88,0xCF));
  (0x59D9,(0x9B,0x4B)); (0x59DA,(0x9B,0x4C)); (0x59DC,(0x9B,0x49)); (0x59E5,(0x89,0x57)); (0x59E6,(0x8A,0xAD)); (0x59E8,(0x9B,0x48)); (0x59EA,(0x96,0xC3)); (0x59EB,(0x95,0x50));
  (0x59F6,(0x88,0xA6)); (0x59FB,(0x88,0xF7)); (0x59FF,(0x8E,0x70)); (0x5A01,(0x88,0xD0)); (0x5A03,(0x88,0xA1)); (0x5A09,(0x9B,0x51)); (0x5A11,(0x9B,0x4F)); (0x5A18,(0x96,0xBA));
  (0x5A1A,(0x9B,0x52)); (0x5A1C,(0x9B,0x50)); (0x5A1F,(0x9B,0x4E)); (0x5A20,(0x90,0x50)); (0x5A25,(0x9B,0x4D)); (0x5A29,(0x95,0xD8)); (0x5A2F,(0x8C,0xE2)); (0x5A35,(0x9B,0x56));
  (0x5A36,(0x9B,0x57)); (0x5A3C,(0x8F,0xA9)); (0x5A40,(0x9B,0x53)); (0x5A41,(0x98,0x4B)); (0x5A46,(0x94,0x6B)); (0x5A49,(0x9B,0x55)); (0x5A5A,(0x8D,0xA5)); (0x5A62,(0x9B,0x58));
  (0x5A66,(0x95,0x77)); (0x5A6A,(0x9B,0x59)); (0x5A6C,(0x9B,0x54)); (0x5A7F,(0x96,0xB9)); (0x5A92,(0x94,0x7D)); (0x5A9A,(0x9B,0x5A)); (0x5A9B,(0x95,0x51)); (0x5ABC,(0x9B,0x5B));
  (0x5ABD,(0x9B,0x5F)); (0x5ABE,(0x9B,0x5C)); (0x5AC1,(0x89,0xC5)); (0x5AC2,(0x9B,0x5E)); (0x5AC9,(0x8E,0xB9)); (0x5ACB,(0x9B,0x5D)); (0x5ACC,(0x8C,0x99)); (0x5AD0,(0x9B,0x6B));
  (0x5AD6,(0x9B,0x64)); (0x5AD7,(0x9B,0x61)); (0x5AE1,(0x92,0x84)); (0x5AE3,(0x9B,0x60)); (0x5AE6,(0x9B,0x62)); (0x5AE9,(0x9B,0x63)); (0x5AFA,(0x9B,0x65)); (0x5AFB,(0x9B,0x66));
  (0x5B09,(0x8A,0xF0)); (0x5B0B,(0x9B,0x68)); (0x5B0C,(0x9B,0x67)); (0x5B16,(0x9B,0x69)); (0x5B22,(0x8F,0xEC)); (0x5B2A,(0x9B,0x6C)); (0x5B2C,(0x92,0xDA)); (0x5B30,(0x89,0x64));
  (0x5B32,(0x9B,0x6A)); (0x5B36,(0x9B,0x6D)); (0x5B3E,(0x9B,0x6E)); (0x5B40,(0x9B,0x71)); (0x5B43,(0x9B,0x6F)); (0x5B45,(0x9B,0x70)); (0x5B50,(0x8E,0x71)); (0x5B51,(0x9B,0x72));
  (0x5B54,(0x8D,0x45)); (0x5B55,(0x9B,0x73)); (0x5B56,(0xFA,0xA6)); (0x5B57,(0x8E,0x9A)); (0x5B58,(0x91,0xB6)); (0x5B5A,(0x9B,0x74)); (0x5B5B,(0x9B,0x75)); (0x5B5C,(0x8E,0x79));
  (0x5B5D,(0x8D,0x46)); (0x5B5F,(0x96,0xD0)); (0x5B63,(0x8B,0x47)); (0x5B64,(0x8C,0xC7)); (0x5B65,(0x9B,0x76)); (0x5B66,(0x8A,0x77)); (0x5B69,(0x9B,0x77)); (0x5B6B,(0x91,0xB7));
  (0x5B70,(0x9B,0x78)); (0x5B71,(0x9B,0xA1)); (0x5B73,(0x9B,0x79)); (0x5B75,(0x9B,0x7A)); (0x5B78,(0x9B,0x7B)); (0x5B7A,(0x9B,0x7D)); (0x5B80,(0x9B,0x7E)); (0x5B83,(0x9B,0x80));
  (0x5B85,(0x91,0xEE)); (0x5B87,(0x89,0x46)); (0x5B88,(0x8E,0xE7)); (0x5B89,(0x88,0xC0)); (0x5B8B,(0x91,0x76)); (0x5B8C,(0x8A,0xAE)); (0x5B8D,(0x8E,0xB3)); (0x5B8F,(0x8D,0x47));
  (0x5B95,(0x93,0x86)); (0x5B97,(0x8F,0x40)); (0x5B98,(0x8A,0xAF)); (0x5B99,(0x92,0x88)); (0x5B9A,(0x92,0xE8)); (0x5B9B,(0x88,0xB6)); (0x5B9C,(0x8B,0x58)); (0x5B9D,(0x95,0xF3));
  (0x5B9F,(0x8E,0xC0)); (0x5BA2,(0x8B,0x71)); (0x5BA3,(0x90,0xE9)); (0x5BA4,(0x8E,0xBA)); (0x5BA5,(0x97,0x47)); (0x5BA6,(0x9B,0x81)); (0x5BAE,(0x8B,0x7B)); (0x5BB0,(0x8D,0xC9));
  (0x5BB3,(0x8A,0x51)); (0x5BB4,(0x89,0x83)); (0x5BB5,(0x8F,0xAA)); (0x5BB6,(0x89,0xC6)); (0x5BB8,(0x9B,0x82)); (0x5BB9,(0x97,0x65)); (0x5BBF,(0x8F,0x68)); (0x5BC0,(0xFA,0xA7));
  (0x5BC2,(0x8E,0xE2)); (0x5BC3,(0x9B,0x83)); (0x5BC4,(0x8A,0xF1)); (0x5BC5,(0x93,0xD0)); (0x5BC6,(0x96,0xA7)); (0x5BC7,(0x9B,0x84)); (0x5BC9,(0x9B,0x85)); (0x5BCC,(0x95,0x78));
  (0x5BD0,(0x9B,0x87)); (0x5BD2,(0x8A,0xA6)); (0x5BD3,(0x8B,0xF5)); (0x5BD4,(0x9B,0x86)); (0x5BD8,(0xFA,0xA9)); (0x5BDB,(0x8A,0xB0)); (0x5BDD,(0x90,0x51)); (0x5BDE,(0x9B,0x8B));
  (0x5BDF,(0x8E,0x40)); (0x5BE1,(0x89,0xC7)); (0x5BE2,(0x9B,0x8A)); (0x5BE4,(0x9B,0x88)); (0x5BE5,(0x9B,0x8C)); (0x5BE6,(0x9B,0x89)); (0x5BE7,(0x94,0x4A)); (0x5BE8,(0x9E,0xCB));
  (0x5BE9,(0x90,0x52)); (0x5BEB,(0x9B,0x8D)); (0x5BEC,(0xFA,0xAA)); (0x5BEE,(0x97,0xBE)); (0x5BF0,(0x9B,0x8E)); (0x5BF3,(0x9B,0x90)); (0x5BF5,(0x92,0x9E)); (0x5BF6,(0x9B,0x8F))
].
(* src/generated/whatwg/shiftjis_whatwg_tables.rs.inc:1395-3838 ENCODE_TABLE, entries 1792..2047 *)
Definition sjis_encode_table_7 : list (N * (N * N)) := [
  (0x5BF8,(0x90,0xA1)); (0x5BFA,(0x8E,0x9B)); (0x5BFE,(0x91,0xCE)); (0x5BFF,(0x8E,0xF5)); (0x5C01,(0x95,0x95)); (0x5C02,(0x90,0xEA)); (0x5C04,(0x8E,0xCB)); (0x5C05,(0x9B,0x91));
  (0x5C06,(0x8F,0xAB)); (0x5C07,(0x9B,0x92)); (0x5C08,(0x9B,0x93)); (0x5C09,(0x88,0xD1)); (0x5C0A,(0x91,0xB8)); (0x5C0B,(0x90,0x71)); (0x5C0D,(0x9B,0x94)); (0x5C0E,(0x93,0xB1));
  (0x5C0F,(0x8F,0xAC)); (0x5C11,(0x8F,0xAD)); (0x5C13,(0x9B,0x95)); (0x5C16,(0x90,0xEB)); (0x5C1A,(0x8F,0xAE)); (0x5C1E,(0xFA,0xAB)); (0x5C20,(0x9B,0x96)); (0x5C22,(0x9B,0x97));
  (0x5C24,(0x96,0xDE)); (0x5C28,(0x9B,0x98)); (0x5C2D,(0x8B,0xC4)); (0x5C31,(0x8F,0x41)); (0x5C38,(0x9B,0x99)); (0x5C39,(0x9B,0x9A)); (0x5C3A,(0x8E,0xDA)); (0x5C3B,(0x90,0x4B));
  (0x5C3C,(0x93,0xF2)); (0x5C3D,(0x90,0x73)); (0x5C3E,(0x94,0xF6)); (0x5C3F,(0x94,0x41)); (0x5C40,(0x8B,0xC7)); (0x5C41,(0x9B,0x9B)); (0x5C45,(0x8B,0x8F)); (0x5C46,(0x9B,0x9C));
  (0x5C48,(0x8B,0xFC)); (0x5C4A,(0x93,0xCD)); (0x5C4B,(0x89,0xAE)); (0x5C4D,(0x8E,0x72)); (0x5C4E,(0x9B,0x9D)); (0x5C4F,(0x9B,0xA0)); (0x5C50,(0x9B,0x9F)); (0x5C51,(0x8B,0xFB));
  (0x5C53,(0x9B,0x9E)); (0x5C55,(0x93,0x57)); (0x5C5E,(0x91,0xAE)); (0x5C60,(0x93,0x6A)); (0x5C61,(0x8E,0xC6)); (0x5C64,(0x91,0x77)); (0x5C65,(0x97,0x9A)); (0x5C6C,(0x9B,0xA2));
  (0x5C6E,(0x9B,0xA3)); (0x5C6F,(0x93,0xD4)); (0x5C71,(0x8E,0x52)); (0x5C76,(0x9B,0xA5)); (0x5C79,(0x9B,0xA6)); (0x5C8C,(0x9B,0xA7)); (0x5C90,(0x8A,0xF2)); (0x5C91,(0x9B,0xA8));
  (0x5C94,(0x9B,0xA9)); (0x5CA1,(0x89,0xAA)); (0x5CA6,(0xFA,0xAC)); (0x5CA8,(0x91,0x5A)); (0x5CA9,(0x8A,0xE2)); (0x5CAB,(0x9B,0xAB)); (0x5CAC,(0x96,0xA6)); (0x5CB1,(0x91,0xD0));
  (0x5CB3,(0x8A,0x78)); (0x5CB6,(0x9B,0xAD)); (0x5CB7,(0x9B,0xAF)); (0x5CB8,(0x8A,0xDD)); (0x5CBA,(0xFA,0xAD)); (0x5CBB,(0x9B,0xAC)); (0x5CBC,(0x9B,0xAE)); (0x5CBE,(0x9B,0xB1));
  (0x5CC5,(0x9B,0xB0)); (0x5CC7,(0x9B,0xB2)); (0x5CD9,(0x9B,0xB3)); (0x5CE0,(0x93,0xBB)); (0x5CE1,(0x8B,0xAC)); (0x5CE8,(0x89,0xE3)); (0x5CE9,(0x9B,0xB4)); (0x5CEA,(0x9B,0xB9));
  (0x5CED,(0x9B,0xB7)); (0x5CEF,(0x95,0xF5)); (0x5CF0,(0x95,0xF4)); (0x5CF5,(0xFA,0xAE)); (0x5CF6,(0x93,0x87)); (0x5CFA,(0x9B,0xB6)); (0x5CFB,(0x8F,0x73)); (0x5CFD,(0x9B,0xB5));
  (0x5D07,(0x90,0x92)); (0x5D0B,(0x9B,0xBA)); (0x5D0E,(0x8D,0xE8)); (0x5D11,(0x9B,0xC0)); (0x5D14,(0x9B,0xC1)); (0x5D15,(0x9B,0xBB)); (0x5D16,(0x8A,0x52)); (0x5D17,(0x9B,0xBC));
  (0x5D18,(0x9B,0xC5)); (0x5D19,(0x9B,0xC4)); (0x5D1A,(0x9B,0xC3)); (0x5D1B,(0x9B,0xBF)); (0x5D1F,(0x9B,0xBE)); (0x5D22,(0x9B,0xC2)); (0x5D27,(0xFA,0xAF)); (0x5D29,(0x95,0xF6));
  (0x5D42,(0xFA,0xB2)); (0x5D4B,(0x9B,0xC9)); (0x5D4C,(0x9B,0xC6)); (0x5D4E,(0x9B,0xC8)); (0x5D50,(0x97,0x92)); (0x5D52,(0x9B,0xC7)); (0x5D53,(0xFA,0xB0)); (0x5D5C,(0x9B,0xBD));
  (0x5D69,(0x90,0x93)); (0x5D6C,(0x9B,0xCA)); (0x5D6D,(0xFA,0xB3)); (0x5D6F,(0x8D,0xB5)); (0x5D73,(0x9B,0xCB)); (0x5D76,(0x9B,0xCC)); (0x5D82,(0x9B,0xCF)); (0x5D84,(0x9B,0xCE));
  (0x5D87,(0x9B,0xCD)); (0x5D8B,(0x93,0x88)); (0x5D8C,(0x9B,0xB8)); (0x5D90,(0x9B,0xD5)); (0x5D9D,(0x9B,0xD1)); (0x5DA2,(0x9B,0xD0)); (0x5DAC,(0x9B,0xD2)); (0x5DAE,(0x9B,0xD3));
  (0x5DB7,(0x9B,0xD6)); (0x5DB8,(0xFA,0xB4)); (0x5DB9,(0xFA,0xB5)); (0x5DBA,(0x97,0xE4)); (0x5DBC,(0x9B,0xD7)); (0x5DBD,(0x9B,0xD4)); (0x5DC9,(0x9B,0xD8)); (0x5DCC,(0x8A,0xDE));
  (0x5DCD,(0x9B,0xD9)); (0x5DD0,(0xFA,0xB6)); (0x5DD2,(0x9B,0xDB)); (0x5DD3,(0x9B,0xDA)); (0x5DD6,(0x9B,0xDC)); (0x5DDB,(0x9B,0xDD)); (0x5DDD,(0x90,0xEC)); (0x5DDE,(0x8F,0x42));
  (0x5DE1,(0x8F,0x84)); (0x5DE3,(0x91,0x83)); (0x5DE5,(0x8D,0x48)); (0x5DE6,(0x8D,0xB6)); (0x5DE7,(0x8D,0x49)); (0x5DE8,(0x8B,0x90)); (0x5DEB,(0x9B,0xDE)); (0x5DEE,(0x8D,0xB7));
  (0x5DF1,(0x8C,0xC8)); (0x5DF2,(0x9B,0xDF)); (0x5DF3,(0x96,0xA4)); (0x5DF4,(0x94,0x62)); (0x5DF5,(0x9B,0xE0)); (0x5DF7,(0x8D,0x4A)); (0x5DFB,(0x8A,0xAA)); (0x5DFD,(0x92,0x46));
  (0x5DFE,(0x8B,0xD0)); (0x5E02,(0x8E,0x73)); (0x5E03,(0x95,0x7A)); (0x5E06,(0x94,0xBF)); (0x5E0B,(0x9B,0xE1)); (0x5E0C,(0x8A,0xF3)); (0x5E11,(0x9B,0xE4)); (0x5E16,(0x92,0x9F));
  (0x5E19,(0x9B,0xE3)); (0x5E1A,(0x9B,0xE2)); (0x5E1B,(0x9B,0xE5)); (0x5E1D,(0x92,0xE9)); (0x5E25,(0x90,0x83)); (0x5E2B,(0x8E,0x74)); (0x5E2D,(0x90,0xC8)); (0x5E2F,(0x91,0xD1));
  (0x5E30,(0x8B,0x41)); (0x5E33,(0x92,0xA0)); (0x5E36,(0x9B,0xE6)); (0x5E37,(0x9B,0xE7)); (0x5E38,(0x8F,0xED)); (0x5E3D,(0x96,0x58)); (0x5E40,(0x9B,0xEA)); (0x5E43,(0x9B,0xE9));
  (0x5E44,(0x9B,0xE8)); (0x5E45,(0x95,0x9D)); (0x5E47,(0x9B,0xF1)); (0x5E4C,(0x96,0x79)); (0x5E4E,(0x9B,0xEB)); (0x5E54,(0x9B,0xED)); (0x5E55,(0x96,0x8B)); (0x5E57,(0x9B,0xEC));
  (0x5E5F,(0x9B,0xEE)); (0x5E61,(0x94,0xA6)); (0x5E62,(0x9B,0xEF)); (0x5E63,(0x95,0xBC)); (0x5E64,(0x9B,0xF0)); (0x5E72,(0x8A,0xB1)); (0x5E73,(0x95,0xBD)); (0x5E74,(0x94,0x4E));
  (0x5E75,(0x9B,0xF2)); (0x5E76,(0x9B,0xF3)); (0x5E78,(0x8D,0x4B)); (0x5E79,(0x8A,0xB2)); (0x5E7A,(0x9B,0xF4)); (0x5E7B,(0x8C,0xB6)); (0x5E7C,(0x97,0x63)); (0x5E7D,(0x97,0x48));
  (0x5E7E,(0x8A,0xF4)); (0x5E7F,(0x9B,0xF6)); (0x5E81,(0x92,0xA1)); (0x5E83,(0x8D,0x4C)); (0x5E84,(0x8F,0xAF)); (0x5E87,(0x94,0xDD)); (0x5E8A,(0x8F,0xB0)); (0x5E8F,(0x8F,0x98));
  (0x5E95,(0x92,0xEA)); (0x5E96,(0x95,0xF7)); (0x5E97,(0x93,0x58)); (0x5E9A,(0x8D,0x4D)); (0x5E9C,(0x95,0x7B)); (0x5EA0,(0x9B,0xF7)); (0x5EA6,(0x93,0x78)); (0x5EA7,(0x8D,0xC0));
  (0x5EAB,(0x8C,0xC9)); (0x5EAD,(0x92,0xEB)); (0x5EB5,(0x88,0xC1)); (0x5EB6,(0x8F,0x8E)); (0x5EB7,(0x8D,0x4E)); (0x5EB8,(0x97,0x66)); (0x5EC1,(0x9B,0xF8)); (0x5EC2,(0x9B,0xF9));
  (0x5EC3,(0x94,0x70)); (0x5EC8,(0x9B,0xFA)); (0x5EC9,(0x97,0xF5)); (0x5ECA,(0x98,0x4C)); (0x5ECF,(0x9B,0xFC)); (0x5ED0,(0x9B,0xFB)); (0x5ED3,(0x8A,0x66)); (0x5ED6,(0x9C,0x40));
  (0x5EDA,(0x9C,0x43)); (0x5EDB,(0x9C,0x44)); (0x5EDD,(0x9C,0x42)); (0x5EDF,(0x95,0x5F)); (0x5EE0,(0x8F,0xB1)); (0x5EE1,(0x9C,0x46)); (0x5EE2,(0x9C,0x45)); (0x5EE3,(0x9C,0x41))
].
(* src/generated/whatwg/shiftjis_whatwg_tables.rs.inc:1395-3838 ENCODE_TABLE, entries 2048..2303 *)
Definition sjis_encode_table_8 : list (N * (N * N)) := [
  (0x5EE8,(0x9C,0x47)); (0x5EE9,(0x9C,0x48)); (0x5EEC,(0x9C,0x49)); (0x5EF0,(0x9C,0x4C)); (0x5EF1,(0x9C,0x4A)); (0x5EF3,(0x9C,0x4B)); (0x5EF4,(0x9C,0x4D)); (0x5EF6,(0x89,0x84));
  (0x5EF7,(0x92,0xEC)); (0x5EF8,(0x9C,0x4E)); (0x5EFA,(0x8C,0x9A)); (0x5EFB,(0x89,0xF4)); (0x5EFC,(0x94,0x55)); (0x5EFE,(0x9C,0x4F)); (0x5EFF,(0x93,0xF9)); (0x5F01,(0x95,0xD9));
  (0x5F03,(0x9C,0x50)); (0x5F04,(0x98,0x4D)); (0x5F09,(0x9C,0x51)); (0x5F0A,(0x95,0xBE)); (0x5F0B,(0x9C,0x54)); (0x5F0C,(0x98,0x9F)); (0x5F0D,(0x98,0xAF)); (0x5F0F,(0x8E,0xAE));
  (0x5F10,(0x93,0xF3)); (0x5F11,(0x9C,0x55)); (0x5F13,(0x8B,0x7C)); (0x5F14,(0x92,0xA2)); (0x5F15,(0x88,0xF8)); (0x5F16,(0x9C,0x56)); (0x5F17,(0x95,0xA4)); (0x5F18,(0x8D,0x4F));
  (0x5F1B,(0x92,0x6F)); (0x5F1F,(0x92,0xED)); (0x5F21,(0xFA,0xB7)); (0x5F25,(0x96,0xED)); (0x5F26,(0x8C,0xB7)); (0x5F27,(0x8C,0xCA)); (0x5F29,(0x9C,0x57)); (0x5F2D,(0x9C,0x58));
  (0x5F2F,(0x9C,0x5E)); (0x5F31,(0x8E,0xE3)); (0x5F34,(0xFA,0xB8)); (0x5F35,(0x92,0xA3)); (0x5F37,(0x8B,0xAD)); (0x5F38,(0x9C,0x59)); (0x5F3C,(0x95,0x4A)); (0x5F3E,(0x92,0x65));
  (0x5F41,(0x9C,0x5A)); (0x5F45,(0xFA,0x67)); (0x5F48,(0x9C,0x5B)); (0x5F4A,(0x8B,0xAE)); (0x5F4C,(0x9C,0x5C)); (0x5F4E,(0x9C,0x5D)); (0x5F51,(0x9C,0x5F)); (0x5F53,(0x93,0x96));
  (0x5F56,(0x9C,0x60)); (0x5F57,(0x9C,0x61)); (0x5F59,(0x9C,0x62)); (0x5F5C,(0x9C,0x53)); (0x5F5D,(0x9C,0x52)); (0x5F61,(0x9C,0x63)); (0x5F62,(0x8C,0x60)); (0x5F66,(0x95,0x46));
  (0x5F67,(0xFA,0xB9)); (0x5F69,(0x8D,0xCA)); (0x5F6A,(0x95,0x56)); (0x5F6B,(0x92,0xA4)); (0x5F6C,(0x95,0x6A)); (0x5F6D,(0x9C,0x64)); (0x5F70,(0x8F,0xB2)); (0x5F71,(0x89,0x65));
  (0x5F73,(0x9C,0x65)); (0x5F77,(0x9C,0x66)); (0x5F79,(0x96,0xF0)); (0x5F7C,(0x94,0xDE)); (0x5F7F,(0x9C,0x69)); (0x5F80,(0x89,0x9D)); (0x5F81,(0x90,0xAA)); (0x5F82,(0x9C,0x68));
  (0x5F83,(0x9C,0x67)); (0x5F84,(0x8C,0x61)); (0x5F85,(0x91,0xD2)); (0x5F87,(0x9C,0x6D)); (0x5F88,(0x9C,0x6B)); (0x5F8A,(0x9C,0x6A)); (0x5F8B,(0x97,0xA5)); (0x5F8C,(0x8C,0xE3));
  (0x5F90,(0x8F,0x99)); (0x5F91,(0x9C,0x6C)); (0x5F92,(0x93,0x6B)); (0x5F93,(0x8F,0x5D)); (0x5F97,(0x93,0xBE)); (0x5F98,(0x9C,0x70)); (0x5F99,(0x9C,0x6F)); (0x5F9E,(0x9C,0x6E));
  (0x5FA0,(0x9C,0x71)); (0x5FA1,(0x8C,0xE4)); (0x5FA8,(0x9C,0x72)); (0x5FA9,(0x95,0x9C)); (0x5FAA,(0x8F,0x7A)); (0x5FAD,(0x9C,0x73)); (0x5FAE,(0x94,0xF7)); (0x5FB3,(0x93,0xBF));
  (0x5FB4,(0x92,0xA5)); (0x5FB7,(0xFA,0xBA)); (0x5FB9,(0x93,0x4F)); (0x5FBC,(0x9C,0x74)); (0x5FBD,(0x8B,0x4A)); (0x5FC3,(0x90,0x53)); (0x5FC5,(0x95,0x4B)); (0x5FCC,(0x8A,0xF5));
  (0x5FCD,(0x94,0x45)); (0x5FD6,(0x9C,0x75)); (0x5FD7,(0x8E,0x75)); (0x5FD8,(0x96,0x59)); (0x5FD9,(0x96,0x5A)); (0x5FDC,(0x89,0x9E)); (0x5FDD,(0x9C,0x7A)); (0x5FDE,(0xFA,0xBB));
  (0x5FE0,(0x92,0x89)); (0x5FE4,(0x9C,0x77)); (0x5FEB,(0x89,0xF5)); (0x5FF0,(0x9C,0xAB)); (0x5FF1,(0x9C,0x79)); (0x5FF5,(0x94,0x4F)); (0x5FF8,(0x9C,0x78)); (0x5FFB,(0x9C,0x76));
  (0x5FFD,(0x8D,0x9A)); (0x5FFF,(0x9C,0x7C)); (0x600E,(0x9C,0x83)); (0x600F,(0x9C,0x89)); (0x6010,(0x9C,0x81)); (0x6012,(0x93,0x7B)); (0x6015,(0x9C,0x86)); (0x6016,(0x95,0x7C));
  (0x6019,(0x9C,0x80)); (0x601B,(0x9C,0x85)); (0x601C,(0x97,0xE5)); (0x601D,(0x8E,0x76)); (0x6020,(0x91,0xD3)); (0x6021,(0x9C,0x7D)); (0x6025,(0x8B,0x7D)); (0x6026,(0x9C,0x88));
  (0x6027,(0x90,0xAB)); (0x6028,(0x89,0x85)); (0x6029,(0x9C,0x82)); (0x602A,(0x89,0xF6)); (0x602B,(0x9C,0x87)); (0x602F,(0x8B,0xAF)); (0x6031,(0x9C,0x84)); (0x603A,(0x9C,0x8A));
  (0x6041,(0x9C,0x8C)); (0x6042,(0x9C,0x96)); (0x6043,(0x9C,0x94)); (0x6046,(0x9C,0x91)); (0x604A,(0x9C,0x90)); (0x604B,(0x97,0xF6)); (0x604D,(0x9C,0x92)); (0x6050,(0x8B,0xB0));
  (0x6052,(0x8D,0x50)); (0x6055,(0x8F,0x9A)); (0x6059,(0x9C,0x99)); (0x605A,(0x9C,0x8B)); (0x605D,(0xFA,0xBC)); (0x605F,(0x9C,0x8F)); (0x6060,(0x9C,0x7E)); (0x6062,(0x89,0xF8));
  (0x6063,(0x9C,0x93)); (0x6064,(0x9C,0x95)); (0x6065,(0x92,0x70)); (0x6068,(0x8D,0xA6)); (0x6069,(0x89,0xB6)); (0x606A,(0x9C,0x8D)); (0x606B,(0x9C,0x98)); (0x606C,(0x9C,0x97));
  (0x606D,(0x8B,0xB1)); (0x606F,(0x91,0xA7)); (0x6070,(0x8A,0x86)); (0x6075,(0x8C,0x62)); (0x6077,(0x9C,0x8E)); (0x6081,(0x9C,0x9A)); (0x6083,(0x9C,0x9D)); (0x6084,(0x9C,0x9F));
  (0x6085,(0xFA,0xBD)); (0x6089,(0x8E,0xBB)); (0x608A,(0xFA,0xBE)); (0x608B,(0x9C,0xA5)); (0x608C,(0x92,0xEE)); (0x608D,(0x9C,0x9B)); (0x6092,(0x9C,0xA3)); (0x6094,(0x89,0xF7));
  (0x6096,(0x9C,0xA1)); (0x6097,(0x9C,0xA2)); (0x609A,(0x9C,0x9E)); (0x609B,(0x9C,0xA0)); (0x609F,(0x8C,0xE5)); (0x60A0,(0x97,0x49)); (0x60A3,(0x8A,0xB3)); (0x60A6,(0x89,0x78));
  (0x60A7,(0x9C,0xA4)); (0x60A9,(0x94,0x59)); (0x60AA,(0x88,0xAB)); (0x60B2,(0x94,0xDF)); (0x60B3,(0x9C,0x7B)); (0x60B4,(0x9C,0xAA)); (0x60B5,(0x9C,0xAE)); (0x60B6,(0x96,0xE3));
  (0x60B8,(0x9C,0xA7)); (0x60BC,(0x93,0x89)); (0x60BD,(0x9C,0xAC)); (0x60C5,(0x8F,0xEE)); (0x60C6,(0x9C,0xAD)); (0x60C7,(0x93,0xD5)); (0x60D1,(0x98,0x66)); (0x60D3,(0x9C,0xA9));
  (0x60D5,(0xFA,0xC0)); (0x60D8,(0x9C,0xAF)); (0x60DA,(0x8D,0x9B)); (0x60DC,(0x90,0xC9)); (0x60DE,(0xFA,0xBF)); (0x60DF,(0x88,0xD2)); (0x60E0,(0x9C,0xA8)); (0x60E1,(0x9C,0xA6));
  (0x60E3,(0x91,0x79)); (0x60E7,(0x9C,0x9C)); (0x60E8,(0x8E,0x53)); (0x60F0,(0x91,0xC4)); (0x60F1,(0x9C,0xBB)); (0x60F2,(0xFA,0xC2)); (0x60F3,(0x91,0x7A)); (0x60F4,(0x9C,0xB6));
  (0x60F6,(0x9C,0xB3)); (0x60F7,(0x9C,0xB4)); (0x60F9,(0x8E,0xE4)); (0x60FA,(0x9C,0xB7)); (0x60FB,(0x9C,0xBA)); (0x6100,(0x9C,0xB5)); (0x6101,(0x8F,0x44)); (0x6103,(0x9C,0xB8));
  (0x6106,(0x9C,0xB2)); (0x6108,(0x96,0xFA)); (0x6109,(0x96,0xF9)); (0x610D,(0x9C,0xBC)); (0x610E,(0x9C,0xBD)); (0x610F,(0x88,0xD3)); (0x6111,(0xFA,0xC3)); (0x6115,(0x9C,0xB1));
  (0x611A,(0x8B,0xF0)); (0x611B,(0x88,0xA4)); (0x611F,(0x8A,0xB4)); (0x6120,(0xFA,0xC1)); (0x6121,(0x9C,0xB9)); (0x6127,(0x9C,0xC1)); (0x6128,(0x9C,0xC0)); (0x612C,(0x9C,0xC5))
].
(* src/generated/whatwg/shiftjis_whatwg_tables.rs.inc:1395-3838 ENCODE_TABLE, entries 2304..2559 *)
Definition sjis_encode_table_9 : list (N * (N * N)) := [
  (0x6130,(0xFA,0xC5)); (0x6134,(0x9C,0xC6)); (0x6137,(0xFA,0xC4)); (0x613C,(0x9C,0xC4)); (0x613D,(0x9C,0xC7)); (0x613E,(0x9C,0xBF)); (0x613F,(0x9C,0xC3)); (0x6142,(0x9C,0xC8));
  (0x6144,(0x9C,0xC9)); (0x6147,(0x9C,0xBE)); (0x6148,(0x8E,0x9C)); (0x614A,(0x9C,0xC2)); (0x614B,(0x91,0xD4)); (0x614C,(0x8D,0x51)); (0x614D,(0x9C,0xB0)); (0x614E,(0x90,0x54));
  (0x6153,(0x9C,0xD6)); (0x6155,(0x95,0xE7)); (0x6158,(0x9C,0xCC)); (0x6159,(0x9C,0xCD)); (0x615A,(0x9C,0xCE)); (0x615D,(0x9C,0xD5)); (0x615F,(0x9C,0xD4)); (0x6162,(0x96,0x9D));
  (0x6163,(0x8A,0xB5)); (0x6165,(0x9C,0xD2)); (0x6167,(0x8C,0x64)); (0x6168,(0x8A,0x53)); (0x616B,(0x9C,0xCF)); (0x616E,(0x97,0xB6)); (0x616F,(0x9C,0xD1)); (0x6170,(0x88,0xD4));
  (0x6171,(0x9C,0xD3)); (0x6173,(0x9C,0xCA)); (0x6174,(0x9C,0xD0)); (0x6175,(0x9C,0xD7)); (0x6176,(0x8C,0x63)); (0x6177,(0x9C,0xCB)); (0x617E,(0x97,0x7C)); (0x6182,(0x97,0x4A));
  (0x6187,(0x9C,0xDA)); (0x618A,(0x9C,0xDE)); (0x618E,(0x91,0x9E)); (0x6190,(0x97,0xF7)); (0x6191,(0x9C,0xDF)); (0x6194,(0x9C,0xDC)); (0x6196,(0x9C,0xD9)); (0x6198,(0xFA,0xC6));
  (0x6199,(0x9C,0xD8)); (0x619A,(0x9C,0xDD)); (0x61A4,(0x95,0xAE)); (0x61A7,(0x93,0xB2)); (0x61A9,(0x8C,0x65)); (0x61AB,(0x9C,0xE0)); (0x61AC,(0x9C,0xDB)); (0x61AE,(0x9C,0xE1));
  (0x61B2,(0x8C,0x9B)); (0x61B6,(0x89,0xAF)); (0x61BA,(0x9C,0xE9)); (0x61BE,(0x8A,0xB6)); (0x61C3,(0x9C,0xE7)); (0x61C6,(0x9C,0xE8)); (0x61C7,(0x8D,0xA7)); (0x61C8,(0x9C,0xE6));
  (0x61C9,(0x9C,0xE4)); (0x61CA,(0x9C,0xE3)); (0x61CB,(0x9C,0xEA)); (0x61CC,(0x9C,0xE2)); (0x61CD,(0x9C,0xEC)); (0x61D0,(0x89,0xF9)); (0x61E3,(0x9C,0xEE)); (0x61E6,(0x9C,0xED));
  (0x61F2,(0x92,0xA6)); (0x61F4,(0x9C,0xF1)); (0x61F6,(0x9C,0xEF)); (0x61F7,(0x9C,0xE5)); (0x61F8,(0x8C,0x9C)); (0x61FA,(0x9C,0xF0)); (0x61FC,(0x9C,0xF4)); (0x61FD,(0x9C,0xF3));
  (0x61FE,(0x9C,0xF5)); (0x61FF,(0x9C,0xF2)); (0x6200,(0x9C,0xF6)); (0x6208,(0x9C,0xF7)); (0x6209,(0x9C,0xF8)); (0x620A,(0x95,0xE8)); (0x620C,(0x9C,0xFA)); (0x620D,(0x9C,0xF9));
  (0x620E,(0x8F,0x5E)); (0x6210,(0x90,0xAC)); (0x6211,(0x89,0xE4)); (0x6212,(0x89,0xFA)); (0x6213,(0xFA,0xC7)); (0x6214,(0x9C,0xFB)); (0x6216,(0x88,0xBD)); (0x621A,(0x90,0xCA));
  (0x621B,(0x9C,0xFC)); (0x621D,(0xE6,0xC1)); (0x621E,(0x9D,0x40)); (0x621F,(0x8C,0x81)); (0x6221,(0x9D,0x41)); (0x6226,(0x90,0xED)); (0x622A,(0x9D,0x42)); (0x622E,(0x9D,0x43));
  (0x622F,(0x8B,0x59)); (0x6230,(0x9D,0x44)); (0x6232,(0x9D,0x45)); (0x6233,(0x9D,0x46)); (0x6234,(0x91,0xD5)); (0x6238,(0x8C,0xCB)); (0x623B,(0x96,0xDF)); (0x623F,(0x96,0x5B));
  (0x6240,(0x8F,0x8A)); (0x6241,(0x9D,0x47)); (0x6247,(0x90,0xEE)); (0x6248,(0xE7,0xBB)); (0x6249,(0x94,0xE0)); (0x624B,(0x8E,0xE8)); (0x624D,(0x8D,0xCB)); (0x624E,(0x9D,0x48));
  (0x6253,(0x91,0xC5)); (0x6255,(0x95,0xA5)); (0x6258,(0x91,0xEF)); (0x625B,(0x9D,0x4B)); (0x625E,(0x9D,0x49)); (0x6260,(0x9D,0x4C)); (0x6263,(0x9D,0x4A)); (0x6268,(0x9D,0x4D));
  (0x626E,(0x95,0xAF)); (0x6271,(0x88,0xB5)); (0x6276,(0x95,0x7D)); (0x6279,(0x94,0xE1)); (0x627C,(0x9D,0x4E)); (0x627E,(0x9D,0x51)); (0x627F,(0x8F,0xB3)); (0x6280,(0x8B,0x5A));
  (0x6282,(0x9D,0x4F)); (0x6283,(0x9D,0x56)); (0x6284,(0x8F,0xB4)); (0x6289,(0x9D,0x50)); (0x628A,(0x94,0x63)); (0x6291,(0x97,0x7D)); (0x6292,(0x9D,0x52)); (0x6293,(0x9D,0x53));
  (0x6294,(0x9D,0x57)); (0x6295,(0x93,0x8A)); (0x6296,(0x9D,0x54)); (0x6297,(0x8D,0x52)); (0x6298,(0x90,0xDC)); (0x629B,(0x9D,0x65)); (0x629C,(0x94,0xB2)); (0x629E,(0x91,0xF0));
  (0x62A6,(0xFA,0xC8)); (0x62AB,(0x94,0xE2)); (0x62AC,(0x9D,0xAB)); (0x62B1,(0x95,0xF8)); (0x62B5,(0x92,0xEF)); (0x62B9,(0x96,0x95)); (0x62BB,(0x9D,0x5A)); (0x62BC,(0x89,0x9F));
  (0x62BD,(0x92,0x8A)); (0x62C2,(0x9D,0x63)); (0x62C5,(0x92,0x53)); (0x62C6,(0x9D,0x5D)); (0x62C7,(0x9D,0x64)); (0x62C8,(0x9D,0x5F)); (0x62C9,(0x9D,0x66)); (0x62CA,(0x9D,0x62));
  (0x62CC,(0x9D,0x61)); (0x62CD,(0x94,0x8F)); (0x62CF,(0x9D,0x5B)); (0x62D0,(0x89,0xFB)); (0x62D1,(0x9D,0x59)); (0x62D2,(0x8B,0x91)); (0x62D3,(0x91,0xF1)); (0x62D4,(0x9D,0x55));
  (0x62D7,(0x9D,0x58)); (0x62D8,(0x8D,0x53)); (0x62D9,(0x90,0xD9)); (0x62DB,(0x8F,0xB5)); (0x62DC,(0x9D,0x60)); (0x62DD,(0x94,0x71)); (0x62E0,(0x8B,0x92)); (0x62E1,(0x8A,0x67));
  (0x62EC,(0x8A,0x87)); (0x62ED,(0x90,0x40)); (0x62EE,(0x9D,0x68)); (0x62EF,(0x9D,0x6D)); (0x62F1,(0x9D,0x69)); (0x62F3,(0x8C,0x9D)); (0x62F5,(0x9D,0x6E)); (0x62F6,(0x8E,0x41));
  (0x62F7,(0x8D,0x89)); (0x62FE,(0x8F,0x45)); (0x62FF,(0x9D,0x5C)); (0x6301,(0x8E,0x9D)); (0x6302,(0x9D,0x6B)); (0x6307,(0x8E,0x77)); (0x6308,(0x9D,0x6C)); (0x6309,(0x88,0xC2));
  (0x630C,(0x9D,0x67)); (0x6311,(0x92,0xA7)); (0x6319,(0x8B,0x93)); (0x631F,(0x8B,0xB2)); (0x6327,(0x9D,0x6A)); (0x6328,(0x88,0xA5)); (0x632B,(0x8D,0xC1)); (0x632F,(0x90,0x55));
  (0x633A,(0x92,0xF0)); (0x633D,(0x94,0xD2)); (0x633E,(0x9D,0x70)); (0x633F,(0x91,0x7D)); (0x6349,(0x91,0xA8)); (0x634C,(0x8E,0x4A)); (0x634D,(0x9D,0x71)); (0x634F,(0x9D,0x73));
  (0x6350,(0x9D,0x6F)); (0x6355,(0x95,0xDF)); (0x6357,(0x92,0xBB)); (0x635C,(0x91,0x7B)); (0x6367,(0x95,0xF9)); (0x6368,(0x8E,0xCC)); (0x6369,(0x9D,0x80)); (0x636B,(0x9D,0x7E));
  (0x636E,(0x90,0x98)); (0x6372,(0x8C,0x9E)); (0x6376,(0x9D,0x78)); (0x6377,(0x8F,0xB7)); (0x637A,(0x93,0xE6)); (0x637B,(0x94,0x50)); (0x6380,(0x9D,0x76)); (0x6383,(0x91,0x7C));
  (0x6388,(0x8E,0xF6)); (0x6389,(0x9D,0x7B)); (0x638C,(0x8F,0xB6)); (0x638E,(0x9D,0x75)); (0x638F,(0x9D,0x7A)); (0x6392,(0x94,0x72)); (0x6396,(0x9D,0x74)); (0x6398,(0x8C,0x40));
  (0x639B,(0x8A,0x7C)); (0x639F,(0x9D,0x7C)); (0x63A0,(0x97,0xA9)); (0x63A1,(0x8D,0xCC)); (0x63A2,(0x92,0x54)); (0x63A3,(0x9D,0x79)); (0x63A5,(0x90,0xDA)); (0x63A7,(0x8D,0x54));
  (0x63A8,(0x90,0x84)); (0x63A9,(0x89,0x86)); (0x63AA,(0x91,0x5B)); (0x63AB,(0x9D,0x77)); (0x63AC,(0x8B,0x64)); (0x63B2,(0x8C,0x66)); (0x63B4,(0x92,0xCD)); (0x63B5,(0x9D,0x7D))
].
(* src/generated/whatwg/shiftjis_whatwg_tables.rs.inc:1395-3838 ENCODE_TABLE, entries 2560..2815 *)
Definition sjis_encode_table_10 : list (N * (N * N)) := [
  (0x63BB,(0x91,0x7E)); (0x63BE,(0x9D,0x81)); (0x63C0,(0x9D,0x83)); (0x63C3,(0x91,0xB5)); (0x63C4,(0x9D,0x89)); (0x63C6,(0x9D,0x84)); (0x63C9,(0x9D,0x86)); (0x63CF,(0x95,0x60));
  (0x63D0,(0x92,0xF1)); (0x63D2,(0x9D,0x87)); (0x63D6,(0x97,0x4B)); (0x63DA,(0x97,0x67)); (0x63DB,(0x8A,0xB7)); (0x63E1,(0x88,0xAC)); (0x63E3,(0x9D,0x85)); (0x63E9,(0x9D,0x82));
  (0x63EE,(0x8A,0xF6)); (0x63F4,(0x89,0x87)); (0x63F5,(0xFA,0xC9)); (0x63F6,(0x9D,0x88)); (0x63FA,(0x97,0x68)); (0x6406,(0x9D,0x8C)); (0x640D,(0x91,0xB9)); (0x640F,(0x9D,0x93));
  (0x6413,(0x9D,0x8D)); (0x6416,(0x9D,0x8A)); (0x6417,(0x9D,0x91)); (0x641C,(0x9D,0x72)); (0x6426,(0x9D,0x8E)); (0x6428,(0x9D,0x92)); (0x642C,(0x94,0xC0)); (0x642D,(0x93,0x8B));
  (0x6434,(0x9D,0x8B)); (0x6436,(0x9D,0x8F)); (0x643A,(0x8C,0x67)); (0x643E,(0x8D,0xEF)); (0x6442,(0x90,0xDB)); (0x644E,(0x9D,0x97)); (0x6458,(0x93,0x45)); (0x6460,(0xFA,0xCA));
  (0x6467,(0x9D,0x94)); (0x6469,(0x96,0x80)); (0x646F,(0x9D,0x95)); (0x6476,(0x9D,0x96)); (0x6478,(0x96,0xCC)); (0x647A,(0x90,0xA0)); (0x6483,(0x8C,0x82)); (0x6488,(0x9D,0x9D));
  (0x6492,(0x8E,0x54)); (0x6493,(0x9D,0x9A)); (0x6495,(0x9D,0x99)); (0x649A,(0x94,0x51)); (0x649D,(0xFA,0xCB)); (0x649E,(0x93,0xB3)); (0x64A4,(0x93,0x50)); (0x64A5,(0x9D,0x9B));
  (0x64A9,(0x9D,0x9C)); (0x64AB,(0x95,0x8F)); (0x64AD,(0x94,0x64)); (0x64AE,(0x8E,0x42)); (0x64B0,(0x90,0xEF)); (0x64B2,(0x96,0x6F)); (0x64B9,(0x8A,0x68)); (0x64BB,(0x9D,0xA3));
  (0x64BC,(0x9D,0x9E)); (0x64C1,(0x97,0x69)); (0x64C2,(0x9D,0xA5)); (0x64C5,(0x9D,0xA1)); (0x64C7,(0x9D,0xA2)); (0x64CD,(0x91,0x80)); (0x64CE,(0xFA,0xCC)); (0x64D2,(0x9D,0xA0));
  (0x64D4,(0x9D,0x5E)); (0x64D8,(0x9D,0xA4)); (0x64DA,(0x9D,0x9F)); (0x64E0,(0x9D,0xA9)); (0x64E1,(0x9D,0xAA)); (0x64E2,(0x93,0x46)); (0x64E3,(0x9D,0xAC)); (0x64E6,(0x8E,0x43));
  (0x64E7,(0x9D,0xA7)); (0x64EC,(0x8B,0x5B)); (0x64EF,(0x9D,0xAD)); (0x64F1,(0x9D,0xA6)); (0x64F2,(0x9D,0xB1)); (0x64F4,(0x9D,0xB0)); (0x64F6,(0x9D,0xAF)); (0x64FA,(0x9D,0xB2));
  (0x64FD,(0x9D,0xB4)); (0x64FE,(0x8F,0xEF)); (0x6500,(0x9D,0xB3)); (0x6505,(0x9D,0xB7)); (0x6518,(0x9D,0xB5)); (0x651C,(0x9D,0xB6)); (0x651D,(0x9D,0x90)); (0x6523,(0x9D,0xB9));
  (0x6524,(0x9D,0xB8)); (0x652A,(0x9D,0x98)); (0x652B,(0x9D,0xBA)); (0x652C,(0x9D,0xAE)); (0x652F,(0x8E,0x78)); (0x6534,(0x9D,0xBB)); (0x6535,(0x9D,0xBC)); (0x6536,(0x9D,0xBE));
  (0x6537,(0x9D,0xBD)); (0x6538,(0x9D,0xBF)); (0x6539,(0x89,0xFC)); (0x653B,(0x8D,0x55)); (0x653E,(0x95,0xFA)); (0x653F,(0x90,0xAD)); (0x6545,(0x8C,0xCC)); (0x6548,(0x9D,0xC1));
  (0x654D,(0x9D,0xC4)); (0x654E,(0xFA,0xCD)); (0x654F,(0x95,0x71)); (0x6551,(0x8B,0x7E)); (0x6555,(0x9D,0xC3)); (0x6556,(0x9D,0xC2)); (0x6557,(0x94,0x73)); (0x6558,(0x9D,0xC5));
  (0x6559,(0x8B,0xB3)); (0x655D,(0x9D,0xC7)); (0x655E,(0x9D,0xC6)); (0x6562,(0x8A,0xB8)); (0x6563,(0x8E,0x55)); (0x6566,(0x93,0xD6)); (0x656C,(0x8C,0x68)); (0x6570,(0x90,0x94));
  (0x6572,(0x9D,0xC8)); (0x6574,(0x90,0xAE)); (0x6575,(0x93,0x47)); (0x6577,(0x95,0x7E)); (0x6578,(0x9D,0xC9)); (0x6582,(0x9D,0xCA)); (0x6583,(0x9D,0xCB)); (0x6587,(0x95,0xB6));
  (0x6588,(0x9B,0x7C)); (0x6589,(0x90,0xC4)); (0x658C,(0x95,0x6B)); (0x658E,(0x8D,0xD6)); (0x6590,(0x94,0xE3)); (0x6591,(0x94,0xC1)); (0x6597,(0x93,0x6C)); (0x6599,(0x97,0xBF));
  (0x659B,(0x9D,0xCD)); (0x659C,(0x8E,0xCE)); (0x659F,(0x9D,0xCE)); (0x65A1,(0x88,0xB4)); (0x65A4,(0x8B,0xD2)); (0x65A5,(0x90,0xCB)); (0x65A7,(0x95,0x80)); (0x65AB,(0x9D,0xCF));
  (0x65AC,(0x8E,0x61)); (0x65AD,(0x92,0x66)); (0x65AF,(0x8E,0x7A)); (0x65B0,(0x90,0x56)); (0x65B7,(0x9D,0xD0)); (0x65B9,(0x95,0xFB)); (0x65BC,(0x89,0x97)); (0x65BD,(0x8E,0x7B));
  (0x65C1,(0x9D,0xD3)); (0x65C3,(0x9D,0xD1)); (0x65C4,(0x9D,0xD4)); (0x65C5,(0x97,0xB7)); (0x65C6,(0x9D,0xD2)); (0x65CB,(0x90,0xF9)); (0x65CC,(0x9D,0xD5)); (0x65CF,(0x91,0xB0));
  (0x65D2,(0x9D,0xD6)); (0x65D7,(0x8A,0xF8)); (0x65D9,(0x9D,0xD8)); (0x65DB,(0x9D,0xD7)); (0x65E0,(0x9D,0xD9)); (0x65E1,(0x9D,0xDA)); (0x65E2,(0x8A,0xF9)); (0x65E5,(0x93,0xFA));
  (0x65E6,(0x92,0x55)); (0x65E7,(0x8B,0x8C)); (0x65E8,(0x8E,0x7C)); (0x65E9,(0x91,0x81)); (0x65EC,(0x8F,0x7B)); (0x65ED,(0x88,0xAE)); (0x65F1,(0x9D,0xDB)); (0x65FA,(0x89,0xA0));
  (0x65FB,(0x9D,0xDF)); (0x6600,(0xFA,0xCE)); (0x6602,(0x8D,0x56)); (0x6603,(0x9D,0xDE)); (0x6606,(0x8D,0xA9)); (0x6607,(0x8F,0xB8)); (0x6609,(0xFA,0xD1)); (0x660A,(0x9D,0xDD));
  (0x660C,(0x8F,0xB9)); (0x660E,(0x96,0xBE)); (0x660F,(0x8D,0xA8)); (0x6613,(0x88,0xD5)); (0x6614,(0x90,0xCC)); (0x6615,(0xFA,0xCF)); (0x661C,(0x9D,0xE4)); (0x661E,(0xFA,0xD3));
  (0x661F,(0x90,0xAF)); (0x6620,(0x89,0x66)); (0x6624,(0xFA,0xD4)); (0x6625,(0x8F,0x74)); (0x6627,(0x96,0x86)); (0x6628,(0x8D,0xF0)); (0x662D,(0x8F,0xBA)); (0x662E,(0xFA,0xD2));
  (0x662F,(0x90,0xA5)); (0x6631,(0xFA,0x63)); (0x6634,(0x9D,0xE3)); (0x6635,(0x9D,0xE1)); (0x6636,(0x9D,0xE2)); (0x663B,(0xFA,0xD0)); (0x663C,(0x92,0x8B)); (0x663F,(0x9E,0x45));
  (0x6641,(0x9D,0xE8)); (0x6642,(0x8E,0x9E)); (0x6643,(0x8D,0x57)); (0x6644,(0x9D,0xE6)); (0x6649,(0x9D,0xE7)); (0x664B,(0x90,0x57)); (0x664F,(0x9D,0xE5)); (0x6652,(0x8E,0x4E));
  (0x6657,(0xFA,0xD6)); (0x6659,(0xFA,0xD7)); (0x665D,(0x9D,0xEA)); (0x665E,(0x9D,0xE9)); (0x665F,(0x9D,0xEE)); (0x6662,(0x9D,0xEF)); (0x6664,(0x9D,0xEB)); (0x6665,(0xFA,0xD5));
  (0x6666,(0x8A,0x41)); (0x6667,(0x9D,0xEC)); (0x6668,(0x9D,0xED)); (0x6669,(0x94,0xD3)); (0x666E,(0x95,0x81)); (0x666F,(0x8C,0x69)); (0x6670,(0x9D,0xF0)); (0x6673,(0xFA,0xD9));
  (0x6674,(0x90,0xB0)); (0x6676,(0x8F,0xBB)); (0x667A,(0x92,0x71)); (0x6681,(0x8B,0xC5)); (0x6683,(0x9D,0xF1)); (0x6684,(0x9D,0xF5)); (0x6687,(0x89,0xC9)); (0x6688,(0x9D,0xF2));
  (0x6689,(0x9D,0xF4)); (0x668E,(0x9D,0xF3)); (0x6691,(0x8F,0x8B)); (0x6696,(0x92,0x67)); (0x6697,(0x88,0xC3)); (0x6698,(0x9D,0xF6)); (0x6699,(0xFA,0xDA)); (0x669D,(0x9D,0xF7))
].
(* src/generated/whatwg/shiftjis_whatwg_tables.rs.inc:1395-3838 ENCODE_TABLE, entries 2816..3071 *)
Definition sjis_encode_table_11 : list (N * (N * N)) := [
  (0x66A0,(0xFA,0xDB)); (0x66A2,(0x92,0xA8)); (0x66A6,(0x97,0xEF)); (0x66AB,(0x8E,0x62)); (0x66AE,(0x95,0xE9)); (0x66B2,(0xFA,0xDC)); (0x66B4,(0x96,0x5C)); (0x66B8,(0x9E,0x41));
  (0x66B9,(0x9D,0xF9)); (0x66BC,(0x9D,0xFC)); (0x66BE,(0x9D,0xFB)); (0x66BF,(0xFA,0xDD)); (0x66C1,(0x9D,0xF8)); (0x66C4,(0x9E,0x40)); (0x66C7,(0x93,0xDC)); (0x66C9,(0x9D,0xFA));
  (0x66D6,(0x9E,0x42)); (0x66D9,(0x8F,0x8C)); (0x66DA,(0x9E,0x43)); (0x66DC,(0x97,0x6A)); (0x66DD,(0x94,0x98)); (0x66E0,(0x9E,0x44)); (0x66E6,(0x9E,0x46)); (0x66E9,(0x9E,0x47));
  (0x66F0,(0x9E,0x48)); (0x66F2,(0x8B,0xC8)); (0x66F3,(0x89,0x67)); (0x66F4,(0x8D,0x58)); (0x66F5,(0x9E,0x49)); (0x66F7,(0x9E,0x4A)); (0x66F8,(0x8F,0x91)); (0x66F9,(0x91,0x82));
  (0x66FA,(0xFA,0xDE)); (0x66FB,(0xFA,0x66)); (0x66FC,(0x99,0xD6)); (0x66FD,(0x91,0x5D)); (0x66FE,(0x91,0x5C)); (0x66FF,(0x91,0xD6)); (0x6700,(0x8D,0xC5)); (0x6703,(0x98,0xF0));
  (0x6708,(0x8C,0x8E)); (0x6709,(0x97,0x4C)); (0x670B,(0x95,0xFC)); (0x670D,(0x95,0x9E)); (0x670E,(0xFA,0xDF)); (0x670F,(0x9E,0x4B)); (0x6714,(0x8D,0xF1)); (0x6715,(0x92,0xBD));
  (0x6716,(0x9E,0x4C)); (0x6717,(0x98,0x4E)); (0x671B,(0x96,0x5D)); (0x671D,(0x92,0xA9)); (0x671E,(0x9E,0x4D)); (0x671F,(0x8A,0xFA)); (0x6726,(0x9E,0x4E)); (0x6727,(0x9E,0x4F));
  (0x6728,(0x96,0xD8)); (0x672A,(0x96,0xA2)); (0x672B,(0x96,0x96)); (0x672C,(0x96,0x7B)); (0x672D,(0x8E,0x44)); (0x672E,(0x9E,0x51)); (0x6731,(0x8E,0xE9)); (0x6734,(0x96,0x70));
  (0x6736,(0x9E,0x53)); (0x6737,(0x9E,0x56)); (0x6738,(0x9E,0x55)); (0x673A,(0x8A,0xF7)); (0x673D,(0x8B,0x80)); (0x673F,(0x9E,0x52)); (0x6741,(0x9E,0x54)); (0x6746,(0x9E,0x57));
  (0x6749,(0x90,0x99)); (0x674E,(0x97,0x9B)); (0x674F,(0x88,0xC7)); (0x6750,(0x8D,0xDE)); (0x6751,(0x91,0xBA)); (0x6753,(0x8E,0xDB)); (0x6756,(0x8F,0xF1)); (0x6759,(0x9E,0x5A));
  (0x675C,(0x93,0x6D)); (0x675E,(0x9E,0x58)); (0x675F,(0x91,0xA9)); (0x6760,(0x9E,0x59)); (0x6761,(0x8F,0xF0)); (0x6762,(0x96,0xDB)); (0x6763,(0x9E,0x5B)); (0x6764,(0x9E,0x5C));
  (0x6765,(0x97,0x88)); (0x6766,(0xFA,0xE1)); (0x676A,(0x9E,0x61)); (0x676D,(0x8D,0x59)); (0x676F,(0x94,0x74)); (0x6770,(0x9E,0x5E)); (0x6771,(0x93,0x8C)); (0x6772,(0x9D,0xDC));
  (0x6773,(0x9D,0xE0)); (0x6775,(0x8B,0x6E)); (0x6777,(0x94,0x66)); (0x677C,(0x9E,0x60)); (0x677E,(0x8F,0xBC)); (0x677F,(0x94,0xC2)); (0x6785,(0x9E,0x66)); (0x6787,(0x94,0xF8));
  (0x6789,(0x9E,0x5D)); (0x678B,(0x9E,0x63)); (0x678C,(0x9E,0x62)); (0x6790,(0x90,0xCD)); (0x6795,(0x96,0x8D)); (0x6797,(0x97,0xD1)); (0x679A,(0x96,0x87)); (0x679C,(0x89,0xCA));
  (0x679D,(0x8E,0x7D)); (0x67A0,(0x98,0x67)); (0x67A1,(0x9E,0x65)); (0x67A2,(0x90,0x95)); (0x67A6,(0x9E,0x64)); (0x67A9,(0x9E,0x5F)); (0x67AF,(0x8C,0xCD)); (0x67B3,(0x9E,0x6B));
  (0x67B4,(0x9E,0x69)); (0x67B6,(0x89,0xCB)); (0x67B7,(0x9E,0x67)); (0x67B8,(0x9E,0x6D)); (0x67B9,(0x9E,0x73)); (0x67BB,(0xFA,0xE2)); (0x67C0,(0xFA,0xE4)); (0x67C1,(0x91,0xC6));
  (0x67C4,(0x95,0xBF)); (0x67C6,(0x9E,0x75)); (0x67CA,(0x95,0x41)); (0x67CE,(0x9E,0x74)); (0x67CF,(0x94,0x90)); (0x67D0,(0x96,0x5E)); (0x67D1,(0x8A,0xB9)); (0x67D3,(0x90,0xF5));
  (0x67D4,(0x8F,0x5F)); (0x67D8,(0x92,0xD1)); (0x67DA,(0x97,0x4D)); (0x67DD,(0x9E,0x70)); (0x67DE,(0x9E,0x6F)); (0x67E2,(0x9E,0x71)); (0x67E4,(0x9E,0x6E)); (0x67E7,(0x9E,0x76));
  (0x67E9,(0x9E,0x6C)); (0x67EC,(0x9E,0x6A)); (0x67EE,(0x9E,0x72)); (0x67EF,(0x9E,0x68)); (0x67F1,(0x92,0x8C)); (0x67F3,(0x96,0xF6)); (0x67F4,(0x8E,0xC4)); (0x67F5,(0x8D,0xF2));
  (0x67FB,(0x8D,0xB8)); (0x67FE,(0x96,0x8F)); (0x67FF,(0x8A,0x60)); (0x6801,(0xFA,0xE5)); (0x6802,(0x92,0xCC)); (0x6803,(0x93,0xC8)); (0x6804,(0x89,0x68)); (0x6813,(0x90,0xF0));
  (0x6816,(0x90,0xB2)); (0x6817,(0x8C,0x49)); (0x681E,(0x9E,0x78)); (0x6821,(0x8D,0x5A)); (0x6822,(0x8A,0x9C)); (0x6829,(0x9E,0x7A)); (0x682A,(0x8A,0x94)); (0x682B,(0x9E,0x81));
  (0x6832,(0x9E,0x7D)); (0x6834,(0x90,0xF1)); (0x6838,(0x8A,0x6A)); (0x6839,(0x8D,0xAA)); (0x683C,(0x8A,0x69)); (0x683D,(0x8D,0xCD)); (0x6840,(0x9E,0x7B)); (0x6841,(0x8C,0x85));
  (0x6842,(0x8C,0x6A)); (0x6843,(0x93,0x8D)); (0x6844,(0xFA,0xE6)); (0x6846,(0x9E,0x79)); (0x6848,(0x88,0xC4)); (0x684D,(0x9E,0x7C)); (0x684E,(0x9E,0x7E)); (0x6850,(0x8B,0xCB));
  (0x6851,(0x8C,0x4B)); (0x6852,(0xFA,0xE3)); (0x6853,(0x8A,0xBA)); (0x6854,(0x8B,0x6A)); (0x6859,(0x9E,0x82)); (0x685C,(0x8D,0xF7)); (0x685D,(0x96,0x91)); (0x685F,(0x8E,0x56));
  (0x6863,(0x9E,0x83)); (0x6867,(0x95,0x4F)); (0x6874,(0x9E,0x8F)); (0x6876,(0x89,0xB1)); (0x6877,(0x9E,0x84)); (0x687E,(0x9E,0x95)); (0x687F,(0x9E,0x85)); (0x6881,(0x97,0xC0));
  (0x6883,(0x9E,0x8C)); (0x6885,(0x94,0x7E)); (0x688D,(0x9E,0x94)); (0x688F,(0x9E,0x87)); (0x6893,(0x88,0xB2)); (0x6894,(0x9E,0x89)); (0x6897,(0x8D,0x5B)); (0x689B,(0x9E,0x8B));
  (0x689D,(0x9E,0x8A)); (0x689F,(0x9E,0x86)); (0x68A0,(0x9E,0x91)); (0x68A2,(0x8F,0xBD)); (0x68A6,(0x9A,0xEB)); (0x68A7,(0x8C,0xE6)); (0x68A8,(0x97,0x9C)); (0x68AD,(0x9E,0x88));
  (0x68AF,(0x92,0xF2)); (0x68B0,(0x8A,0x42)); (0x68B1,(0x8D,0xAB)); (0x68B3,(0x9E,0x80)); (0x68B5,(0x9E,0x90)); (0x68B6,(0x8A,0x81)); (0x68B9,(0x9E,0x8E)); (0x68BA,(0x9E,0x92));
  (0x68BC,(0x93,0x8E)); (0x68C4,(0x8A,0xFC)); (0x68C6,(0x9E,0xB0)); (0x68C8,(0xFA,0x64)); (0x68C9,(0x96,0xC7)); (0x68CA,(0x9E,0x97)); (0x68CB,(0x8A,0xFB)); (0x68CD,(0x9E,0x9E));
  (0x68CF,(0xFA,0xE7)); (0x68D2,(0x96,0x5F)); (0x68D4,(0x9E,0x9F)); (0x68D5,(0x9E,0xA1)); (0x68D7,(0x9E,0xA5)); (0x68D8,(0x9E,0x99)); (0x68DA,(0x92,0x49)); (0x68DF,(0x93,0x8F));
  (0x68E0,(0x9E,0xA9)); (0x68E1,(0x9E,0x9C)); (0x68E3,(0x9E,0xA6)); (0x68E7,(0x9E,0xA0)); (0x68EE,(0x90,0x58)); (0x68EF,(0x9E,0xAA)); (0x68F2,(0x90,0xB1)); (0x68F9,(0x9E,0xA8));
  (0x68FA,(0x8A,0xBB)); (0x6900,(0x98,0x6F)); (0x6901,(0x9E,0x96)); (0x6904,(0x9E,0xA4)); (0x6905,(0x88,0xD6)); (0x6908,(0x9E,0x98)); (0x690B,(0x96,0xB8)); (0x690C,(0x9E,0x9D))
].
(* src/generated/whatwg/shiftjis_whatwg_tables.rs.inc:1395-3838 ENCODE_TABLE, entries 3072..3327 *)
Definition sjis_encode_table_12 : list (N * (N * N)) := [
  (0x690D,(0x90,0x41)); (0x690E,(0x92,0xC5)); (0x690F,(0x9E,0x93)); (0x6912,(0x9E,0xA3)); (0x6919,(0x90,0x9A)); (0x691A,(0x9E,0xAD)); (0x691B,(0x8A,0x91)); (0x691C,(0x8C,0x9F));
  (0x6921,(0x9E,0xAF)); (0x6922,(0x9E,0x9A)); (0x6923,(0x9E,0xAE)); (0x6925,(0x9E,0xA7)); (0x6926,(0x9E,0x9B)); (0x6928,(0x9E,0xAB)); (0x692A,(0x9E,0xAC)); (0x6930,(0x9E,0xBD));
  (0x6934,(0x93,0xCC)); (0x6936,(0x9E,0xA2)); (0x6939,(0x9E,0xB9)); (0x693D,(0x9E,0xBB)); (0x693F,(0x92,0xD6)); (0x694A,(0x97,0x6B)); (0x6953,(0x95,0x96)); (0x6954,(0x9E,0xB6));
  (0x6955,(0x91,0xC8)); (0x6959,(0x9E,0xBC)); (0x695A,(0x91,0x5E)); (0x695C,(0x9E,0xB3)); (0x695D,(0x9E,0xC0)); (0x695E,(0x9E,0xBF)); (0x6960,(0x93,0xED)); (0x6961,(0x9E,0xBE));
  (0x6962,(0x93,0xE8)); (0x6968,(0xFA,0xE9)); (0x696A,(0x9E,0xC2)); (0x696B,(0x9E,0xB5)); (0x696D,(0x8B,0xC6)); (0x696E,(0x9E,0xB8)); (0x696F,(0x8F,0x7C)); (0x6973,(0x94,0x80));
  (0x6974,(0x9E,0xBA)); (0x6975,(0x8B,0xC9)); (0x6977,(0x9E,0xB2)); (0x6978,(0x9E,0xB4)); (0x6979,(0x9E,0xB1)); (0x697C,(0x98,0x4F)); (0x697D,(0x8A,0x79)); (0x697E,(0x9E,0xB7));
  (0x6981,(0x9E,0xC1)); (0x6982,(0x8A,0x54)); (0x698A,(0x8D,0xE5)); (0x698E,(0x89,0x7C)); (0x6991,(0x9E,0xD2)); (0x6994,(0x98,0x50)); (0x6995,(0x9E,0xD5)); (0x6998,(0xFA,0xEB));
  (0x699B,(0x90,0x59)); (0x699C,(0x9E,0xD4)); (0x69A0,(0x9E,0xD3)); (0x69A7,(0x9E,0xD0)); (0x69AE,(0x9E,0xC4)); (0x69B1,(0x9E,0xE1)); (0x69B2,(0x9E,0xC3)); (0x69B4,(0x9E,0xD6));
  (0x69BB,(0x9E,0xCE)); (0x69BE,(0x9E,0xC9)); (0x69BF,(0x9E,0xC6)); (0x69C1,(0x9E,0xC7)); (0x69C3,(0x9E,0xCF)); (0x69C7,(0xEA,0xA0)); (0x69CA,(0x9E,0xCC)); (0x69CB,(0x8D,0x5C));
  (0x69CC,(0x92,0xC6)); (0x69CD,(0x91,0x84)); (0x69CE,(0x9E,0xCA)); (0x69D0,(0x9E,0xC5)); (0x69D3,(0x9E,0xC8)); (0x69D8,(0x97,0x6C)); (0x69D9,(0x96,0x8A)); (0x69DD,(0x9E,0xCD));
  (0x69DE,(0x9E,0xD7)); (0x69E2,(0xFA,0xEC)); (0x69E7,(0x9E,0xDF)); (0x69E8,(0x9E,0xD8)); (0x69EB,(0x9E,0xE5)); (0x69ED,(0x9E,0xE3)); (0x69F2,(0x9E,0xDE)); (0x69F9,(0x9E,0xDD));
  (0x69FB,(0x92,0xCE)); (0x69FD,(0x91,0x85)); (0x69FF,(0x9E,0xDB)); (0x6A02,(0x9E,0xD9)); (0x6A05,(0x9E,0xE0)); (0x6A0A,(0x9E,0xE6)); (0x6A0B,(0x94,0xF3)); (0x6A0C,(0x9E,0xEC));
  (0x6A12,(0x9E,0xE7)); (0x6A13,(0x9E,0xEA)); (0x6A14,(0x9E,0xE4)); (0x6A17,(0x92,0x94)); (0x6A19,(0x95,0x57)); (0x6A1B,(0x9E,0xDA)); (0x6A1E,(0x9E,0xE2)); (0x6A1F,(0x8F,0xBE));
  (0x6A21,(0x96,0xCD)); (0x6A22,(0x9E,0xF6)); (0x6A23,(0x9E,0xE9)); (0x6A29,(0x8C,0xA0)); (0x6A2A,(0x89,0xA1)); (0x6A2B,(0x8A,0x7E)); (0x6A2E,(0x9E,0xD1)); (0x6A30,(0xFA,0xED));
  (0x6A35,(0x8F,0xBF)); (0x6A36,(0x9E,0xEE)); (0x6A38,(0x9E,0xF5)); (0x6A39,(0x8E,0xF7)); (0x6A3A,(0x8A,0x92)); (0x6A3D,(0x92,0x4D)); (0x6A44,(0x9E,0xEB)); (0x6A46,(0xFA,0xEF));
  (0x6A47,(0x9E,0xF0)); (0x6A48,(0x9E,0xF4)); (0x6A4B,(0x8B,0xB4)); (0x6A58,(0x8B,0x6B)); (0x6A59,(0x9E,0xF2)); (0x6A5F,(0x8B,0x40)); (0x6A61,(0x93,0xC9)); (0x6A62,(0x9E,0xF1));
  (0x6A66,(0x9E,0xF3)); (0x6A6B,(0xFA,0xEE)); (0x6A72,(0x9E,0xED)); (0x6A73,(0xFA,0xF0)); (0x6A78,(0x9E,0xEF)); (0x6A7E,(0xFA,0xF1)); (0x6A7F,(0x8A,0x80)); (0x6A80,(0x92,0x68));
  (0x6A84,(0x9E,0xFA)); (0x6A8D,(0x9E,0xF8)); (0x6A8E,(0x8C,0xE7)); (0x6A90,(0x9E,0xF7)); (0x6A97,(0x9F,0x40)); (0x6A9C,(0x9E,0x77)); (0x6AA0,(0x9E,0xF9)); (0x6AA2,(0x9E,0xFB));
  (0x6AA3,(0x9E,0xFC)); (0x6AAA,(0x9F,0x4B)); (0x6AAC,(0x9F,0x47)); (0x6AAE,(0x9E,0x8D)); (0x6AB3,(0x9F,0x46)); (0x6AB8,(0x9F,0x45)); (0x6ABB,(0x9F,0x42)); (0x6AC1,(0x9E,0xE8));
  (0x6AC2,(0x9F,0x44)); (0x6AC3,(0x9F,0x43)); (0x6AD1,(0x9F,0x49)); (0x6AD3,(0x98,0x45)); (0x6ADA,(0x9F,0x4C)); (0x6ADB,(0x8B,0xF9)); (0x6ADE,(0x9F,0x48)); (0x6ADF,(0x9F,0x4A));
  (0x6AE2,(0xFA,0xF2)); (0x6AE4,(0xFA,0xF3)); (0x6AE8,(0x94,0xA5)); (0x6AEA,(0x9F,0x4D)); (0x6AFA,(0x9F,0x51)); (0x6AFB,(0x9F,0x4E)); (0x6B04,(0x97,0x93)); (0x6B05,(0x9F,0x4F));
  (0x6B0A,(0x9E,0xDC)); (0x6B12,(0x9F,0x52)); (0x6B16,(0x9F,0x53)); (0x6B1D,(0x89,0x54)); (0x6B1F,(0x9F,0x55)); (0x6B20,(0x8C,0x87)); (0x6B21,(0x8E,0x9F)); (0x6B23,(0x8B,0xD3));
  (0x6B27,(0x89,0xA2)); (0x6B32,(0x97,0x7E)); (0x6B37,(0x9F,0x57)); (0x6B38,(0x9F,0x56)); (0x6B39,(0x9F,0x59)); (0x6B3A,(0x8B,0x5C)); (0x6B3D,(0x8B,0xD4)); (0x6B3E,(0x8A,0xBC));
  (0x6B43,(0x9F,0x5C)); (0x6B47,(0x9F,0x5B)); (0x6B49,(0x9F,0x5D)); (0x6B4C,(0x89,0xCC)); (0x6B4E,(0x92,0x56)); (0x6B50,(0x9F,0x5E)); (0x6B53,(0x8A,0xBD)); (0x6B54,(0x9F,0x60));
  (0x6B59,(0x9F,0x5F)); (0x6B5B,(0x9F,0x61)); (0x6B5F,(0x9F,0x62)); (0x6B61,(0x9F,0x63)); (0x6B62,(0x8E,0x7E)); (0x6B63,(0x90,0xB3)); (0x6B64,(0x8D,0x9F)); (0x6B66,(0x95,0x90));
  (0x6B69,(0x95,0xE0)); (0x6B6A,(0x98,0x63)); (0x6B6F,(0x8E,0x95)); (0x6B73,(0x8D,0xCE)); (0x6B74,(0x97,0xF0)); (0x6B78,(0x9F,0x64)); (0x6B79,(0x9F,0x65)); (0x6B7B,(0x8E,0x80));
  (0x6B7F,(0x9F,0x66)); (0x6B80,(0x9F,0x67)); (0x6B83,(0x9F,0x69)); (0x6B84,(0x9F,0x68)); (0x6B86,(0x96,0x77)); (0x6B89,(0x8F,0x7D)); (0x6B8A,(0x8E,0xEA)); (0x6B8B,(0x8E,0x63));
  (0x6B8D,(0x9F,0x6A)); (0x6B95,(0x9F,0x6C)); (0x6B96,(0x90,0x42)); (0x6B98,(0x9F,0x6B)); (0x6B9E,(0x9F,0x6D)); (0x6BA4,(0x9F,0x6E)); (0x6BAA,(0x9F,0x6F)); (0x6BAB,(0x9F,0x70));
  (0x6BAF,(0x9F,0x71)); (0x6BB1,(0x9F,0x73)); (0x6BB2,(0x9F,0x72)); (0x6BB3,(0x9F,0x74)); (0x6BB4,(0x89,0xA3)); (0x6BB5,(0x92,0x69)); (0x6BB7,(0x9F,0x75)); (0x6BBA,(0x8E,0x45));
  (0x6BBB,(0x8A,0x6B)); (0x6BBC,(0x9F,0x76)); (0x6BBF,(0x93,0x61)); (0x6BC0,(0x9A,0xCA)); (0x6BC5,(0x8B,0x42)); (0x6BC6,(0x9F,0x77)); (0x6BCB,(0x9F,0x78)); (0x6BCD,(0x95,0xEA));
  (0x6BCE,(0x96,0x88)); (0x6BD2,(0x93,0xC5)); (0x6BD3,(0x9F,0x79)); (0x6BD4,(0x94,0xE4)); (0x6BD6,(0xFA,0xF4)); (0x6BD8,(0x94,0xF9)); (0x6BDB,(0x96,0xD1)); (0x6BDF,(0x9F,0x7A));
  (0x6BEB,(0x9F,0x7C)); (0x6BEC,(0x9F,0x7B)); (0x6BEF,(0x9F,0x7E)); (0x6BF3,(0x9F,0x7D)); (0x6C08,(0x9F,0x81)); (0x6C0F,(0x8E,0x81)); (0x6C11,(0x96,0xAF)); (0x6C13,(0x9F,0x82))
].
(* src/generated/whatwg/shiftjis_whatwg_tables.rs.inc:1395-3838 ENCODE_TABLE, entries 3328..3583 *)
Definition sjis_encode_table_13 : list (N * (N * N)) := [
  (0x6C14,(0x9F,0x83)); (0x6C17,(0x8B,0x43)); (0x6C1B,(0x9F,0x84)); (0x6C23,(0x9F,0x86)); (0x6C24,(0x9F,0x85)); (0x6C34,(0x90,0x85)); (0x6C37,(0x95,0x58)); (0x6C38,(0x89,0x69));
  (0x6C3E,(0x94,0xC3)); (0x6C3F,(0xFA,0xF5)); (0x6C40,(0x92,0xF3)); (0x6C41,(0x8F,0x60)); (0x6C42,(0x8B,0x81)); (0x6C4E,(0x94,0xC4)); (0x6C50,(0x8E,0xAC)); (0x6C55,(0x9F,0x88));
  (0x6C57,(0x8A,0xBE)); (0x6C5A,(0x89,0x98)); (0x6C5C,(0xFA,0xF6)); (0x6C5D,(0x93,0xF0)); (0x6C5E,(0x9F,0x87)); (0x6C5F,(0x8D,0x5D)); (0x6C60,(0x92,0x72)); (0x6C62,(0x9F,0x89));
  (0x6C68,(0x9F,0x91)); (0x6C6A,(0x9F,0x8A)); (0x6C6F,(0xFA,0xF8)); (0x6C70,(0x91,0xBF)); (0x6C72,(0x8B,0x82)); (0x6C73,(0x9F,0x92)); (0x6C7A,(0x8C,0x88)); (0x6C7D,(0x8B,0x44));
  (0x6C7E,(0x9F,0x90)); (0x6C81,(0x9F,0x8E)); (0x6C82,(0x9F,0x8B)); (0x6C83,(0x97,0x80)); (0x6C86,(0xFA,0xF7)); (0x6C88,(0x92,0xBE)); (0x6C8C,(0x93,0xD7)); (0x6C8D,(0x9F,0x8C));
  (0x6C90,(0x9F,0x94)); (0x6C92,(0x9F,0x93)); (0x6C93,(0x8C,0x42)); (0x6C96,(0x89,0xAB)); (0x6C99,(0x8D,0xB9)); (0x6C9A,(0x9F,0x8D)); (0x6C9B,(0x9F,0x8F)); (0x6CA1,(0x96,0x76));
  (0x6CA2,(0x91,0xF2)); (0x6CAB,(0x96,0x97)); (0x6CAE,(0x9F,0x9C)); (0x6CB1,(0x9F,0x9D)); (0x6CB3,(0x89,0xCD)); (0x6CB8,(0x95,0xA6)); (0x6CB9,(0x96,0xFB)); (0x6CBA,(0x9F,0x9F));
  (0x6CBB,(0x8E,0xA1)); (0x6CBC,(0x8F,0xC0)); (0x6CBD,(0x9F,0x98)); (0x6CBE,(0x9F,0x9E)); (0x6CBF,(0x89,0x88)); (0x6CC1,(0x8B,0xB5)); (0x6CC4,(0x9F,0x95)); (0x6CC5,(0x9F,0x9A));
  (0x6CC9,(0x90,0xF2)); (0x6CCA,(0x94,0x91)); (0x6CCC,(0x94,0xE5)); (0x6CD3,(0x9F,0x97)); (0x6CD5,(0x96,0x40)); (0x6CD7,(0x9F,0x99)); (0x6CD9,(0x9F,0xA2)); (0x6CDA,(0xFA,0xF9));
  (0x6CDB,(0x9F,0xA0)); (0x6CDD,(0x9F,0x9B)); (0x6CE1,(0x96,0x41)); (0x6CE2,(0x94,0x67)); (0x6CE3,(0x8B,0x83)); (0x6CE5,(0x93,0x44)); (0x6CE8,(0x92,0x8D)); (0x6CEA,(0x9F,0xA3));
  (0x6CEF,(0x9F,0xA1)); (0x6CF0,(0x91,0xD7)); (0x6CF1,(0x9F,0x96)); (0x6CF3,(0x89,0x6A)); (0x6D04,(0xFA,0xFA)); (0x6D0B,(0x97,0x6D)); (0x6D0C,(0x9F,0xAE)); (0x6D12,(0x9F,0xAD));
  (0x6D17,(0x90,0xF4)); (0x6D19,(0x9F,0xAA)); (0x6D1B,(0x97,0x8C)); (0x6D1E,(0x93,0xB4)); (0x6D1F,(0x9F,0xA4)); (0x6D25,(0x92,0xC3)); (0x6D29,(0x89,0x6B)); (0x6D2A,(0x8D,0x5E));
  (0x6D2B,(0x9F,0xA7)); (0x6D32,(0x8F,0x46)); (0x6D33,(0x9F,0xAC)); (0x6D35,(0x9F,0xAB)); (0x6D36,(0x9F,0xA6)); (0x6D38,(0x9F,0xA9)); (0x6D3B,(0x8A,0x88)); (0x6D3D,(0x9F,0xA8));
  (0x6D3E,(0x94,0x68)); (0x6D41,(0x97,0xAC)); (0x6D44,(0x8F,0xF2)); (0x6D45,(0x90,0xF3)); (0x6D59,(0x9F,0xB4)); (0x6D5A,(0x9F,0xB2)); (0x6D5C,(0x95,0x6C)); (0x6D63,(0x9F,0xAF));
  (0x6D64,(0x9F,0xB1)); (0x6D66,(0x89,0x59)); (0x6D69,(0x8D,0x5F)); (0x6D6A,(0x98,0x51)); (0x6D6C,(0x8A,0x5C)); (0x6D6E,(0x95,0x82)); (0x6D6F,(0xFA,0xFC)); (0x6D74,(0x97,0x81));
  (0x6D77,(0x8A,0x43)); (0x6D78,(0x90,0x5A)); (0x6D79,(0x9F,0xB3)); (0x6D85,(0x9F,0xB8)); (0x6D87,(0xFA,0xFB)); (0x6D88,(0x8F,0xC1)); (0x6D8C,(0x97,0x4F)); (0x6D8E,(0x9F,0xB5));
  (0x6D93,(0x9F,0xB0)); (0x6D95,(0x9F,0xB6)); (0x6D96,(0xFB,0x40)); (0x6D99,(0x97,0xDC)); (0x6D9B,(0x93,0x93)); (0x6D9C,(0x93,0xC0)); (0x6DAC,(0xFB,0x41)); (0x6DAF,(0x8A,0x55));
  (0x6DB2,(0x89,0x74)); (0x6DB5,(0x9F,0xBC)); (0x6DB8,(0x9F,0xBF)); (0x6DBC,(0x97,0xC1)); (0x6DC0,(0x97,0x84)); (0x6DC5,(0x9F,0xC6)); (0x6DC6,(0x9F,0xC0)); (0x6DC7,(0x9F,0xBD));
  (0x6DCB,(0x97,0xD2)); (0x6DCC,(0x9F,0xC3)); (0x6DCF,(0xFB,0x42)); (0x6DD1,(0x8F,0x69)); (0x6DD2,(0x9F,0xC5)); (0x6DD5,(0x9F,0xCA)); (0x6DD8,(0x93,0x91)); (0x6DD9,(0x9F,0xC8));
  (0x6DDE,(0x9F,0xC2)); (0x6DE1,(0x92,0x57)); (0x6DE4,(0x9F,0xC9)); (0x6DE6,(0x9F,0xBE)); (0x6DE8,(0x9F,0xC4)); (0x6DEA,(0x9F,0xCB)); (0x6DEB,(0x88,0xFA)); (0x6DEC,(0x9F,0xC1));
  (0x6DEE,(0x9F,0xCC)); (0x6DF1,(0x90,0x5B)); (0x6DF2,(0xFB,0x44)); (0x6DF3,(0x8F,0x7E)); (0x6DF5,(0x95,0xA3)); (0x6DF7,(0x8D,0xAC)); (0x6DF8,(0xFB,0x43)); (0x6DF9,(0x9F,0xB9));
  (0x6DFA,(0x9F,0xC7)); (0x6DFB,(0x93,0x59)); (0x6DFC,(0xFB,0x45)); (0x6E05,(0x90,0xB4)); (0x6E07,(0x8A,0x89)); (0x6E08,(0x8D,0xCF)); (0x6E09,(0x8F,0xC2)); (0x6E0A,(0x9F,0xBB));
  (0x6E0B,(0x8F,0x61)); (0x6E13,(0x8C,0x6B)); (0x6E15,(0x9F,0xBA)); (0x6E19,(0x9F,0xD0)); (0x6E1A,(0x8F,0x8D)); (0x6E1B,(0x8C,0xB8)); (0x6E1D,(0x9F,0xDF)); (0x6E1F,(0x9F,0xD9));
  (0x6E20,(0x8B,0x94)); (0x6E21,(0x93,0x6E)); (0x6E23,(0x9F,0xD4)); (0x6E24,(0x9F,0xDD)); (0x6E25,(0x88,0xAD)); (0x6E26,(0x89,0x51)); (0x6E27,(0xFB,0x48)); (0x6E29,(0x89,0xB7));
  (0x6E2B,(0x9F,0xD6)); (0x6E2C,(0x91,0xAA)); (0x6E2D,(0x9F,0xCD)); (0x6E2E,(0x9F,0xCF)); (0x6E2F,(0x8D,0x60)); (0x6E38,(0x9F,0xE0)); (0x6E39,(0xFB,0x46)); (0x6E3A,(0x9F,0xDB));
  (0x6E3C,(0xFB,0x49)); (0x6E3E,(0x9F,0xD3)); (0x6E43,(0x9F,0xDA)); (0x6E4A,(0x96,0xA9)); (0x6E4D,(0x9F,0xD8)); (0x6E4E,(0x9F,0xDC)); (0x6E56,(0x8C,0xCE)); (0x6E58,(0x8F,0xC3));
  (0x6E5B,(0x92,0x58)); (0x6E5C,(0xFB,0x47)); (0x6E5F,(0x9F,0xD2)); (0x6E67,(0x97,0x4E)); (0x6E6B,(0x9F,0xD5)); (0x6E6E,(0x9F,0xCE)); (0x6E6F,(0x93,0x92)); (0x6E72,(0x9F,0xD1));
  (0x6E76,(0x9F,0xD7)); (0x6E7E,(0x98,0x70)); (0x6E7F,(0x8E,0xBC)); (0x6E80,(0x96,0x9E)); (0x6E82,(0x9F,0xE1)); (0x6E8C,(0x94,0xAC)); (0x6E8F,(0x9F,0xED)); (0x6E90,(0x8C,0xB9));
  (0x6E96,(0x8F,0x80)); (0x6E98,(0x9F,0xE3)); (0x6E9C,(0x97,0xAD)); (0x6E9D,(0x8D,0x61)); (0x6E9F,(0x9F,0xF0)); (0x6EA2,(0x88,0xEC)); (0x6EA5,(0x9F,0xEE)); (0x6EAA,(0x9F,0xE2));
  (0x6EAF,(0x9F,0xE8)); (0x6EB2,(0x9F,0xEA)); (0x6EB6,(0x97,0x6E)); (0x6EB7,(0x9F,0xE5)); (0x6EBA,(0x93,0x4D)); (0x6EBD,(0x9F,0xE7)); (0x6EBF,(0xFB,0x4A)); (0x6EC2,(0x9F,0xEF));
  (0x6EC4,(0x9F,0xE9)); (0x6EC5,(0x96,0xC5)); (0x6EC9,(0x9F,0xE4)); (0x6ECB,(0x8E,0xA0)); (0x6ECC,(0x9F,0xFC)); (0x6ED1,(0x8A,0x8A)); (0x6ED3,(0x9F,0xE6)); (0x6ED4,(0x9F,0xEB));
  (0x6ED5,(0x9F,0xEC)); (0x6EDD,(0x91,0xEA)); (0x6EDE,(0x91,0xD8)); (0x6EEC,(0x9F,0xF4)); (0x6EEF,(0x9F,0xFA)); (0x6EF2,(0x9F,0xF8)); (0x6EF4,(0x93,0x48)); (0x6EF7,(0xE0,0x42))
].
(* src/generated/whatwg/shiftjis_whatwg_tables.rs.inc:1395-3838 ENCODE_TABLE, entries 3584..3839 *)
Definition sjis_encode_table_14 : list (N * (N * N)) := [
  (0x6EF8,(0x9F,0xF5)); (0x6EFE,(0x9F,0xF6)); (0x6EFF,(0x9F,0xDE)); (0x6F01,(0x8B,0x99)); (0x6F02,(0x95,0x59)); (0x6F06,(0x8E,0xBD)); (0x6F09,(0x8D,0x97)); (0x6F0F,(0x98,0x52));
  (0x6F11,(0x9F,0xF2)); (0x6F13,(0xE0,0x41)); (0x6F14,(0x89,0x89)); (0x6F15,(0x91,0x86)); (0x6F20,(0x94,0x99)); (0x6F22,(0x8A,0xBF)); (0x6F23,(0x97,0xF8)); (0x6F2B,(0x96,0x9F));
  (0x6F2C,(0x92,0xD0)); (0x6F31,(0x9F,0xF9)); (0x6F32,(0x9F,0xFB)); (0x6F38,(0x91,0x51)); (0x6F3E,(0xE0,0x40)); (0x6F3F,(0x9F,0xF7)); (0x6F41,(0x9F,0xF1)); (0x6F45,(0x8A,0xC1));
  (0x6F54,(0x8C,0x89)); (0x6F58,(0xE0,0x4E)); (0x6F5B,(0xE0,0x49)); (0x6F5C,(0x90,0xF6)); (0x6F5F,(0x8A,0x83)); (0x6F64,(0x8F,0x81)); (0x6F66,(0xE0,0x52)); (0x6F6D,(0xE0,0x4B));
  (0x6F6E,(0x92,0xAA)); (0x6F6F,(0xE0,0x48)); (0x6F70,(0x92,0xD7)); (0x6F74,(0xE0,0x6B)); (0x6F78,(0xE0,0x45)); (0x6F7A,(0xE0,0x44)); (0x6F7C,(0xE0,0x4D)); (0x6F80,(0xE0,0x47));
  (0x6F81,(0xE0,0x46)); (0x6F82,(0xE0,0x4C)); (0x6F84,(0x90,0x9F)); (0x6F86,(0xE0,0x43)); (0x6F88,(0xFB,0x4B)); (0x6F8E,(0xE0,0x4F)); (0x6F91,(0xE0,0x50)); (0x6F97,(0x8A,0xC0));
  (0x6FA1,(0xE0,0x55)); (0x6FA3,(0xE0,0x54)); (0x6FA4,(0xE0,0x56)); (0x6FAA,(0xE0,0x59)); (0x6FB1,(0x93,0x62)); (0x6FB3,(0xE0,0x53)); (0x6FB5,(0xFB,0x4C)); (0x6FB9,(0xE0,0x57));
  (0x6FC0,(0x8C,0x83)); (0x6FC1,(0x91,0xF7)); (0x6FC2,(0xE0,0x51)); (0x6FC3,(0x94,0x5A)); (0x6FC6,(0xE0,0x58)); (0x6FD4,(0xE0,0x5D)); (0x6FD5,(0xE0,0x5B)); (0x6FD8,(0xE0,0x5E));
  (0x6FDB,(0xE0,0x61)); (0x6FDF,(0xE0,0x5A)); (0x6FE0,(0x8D,0x8A)); (0x6FE1,(0x94,0x47)); (0x6FE4,(0x9F,0xB7)); (0x6FEB,(0x97,0x94)); (0x6FEC,(0xE0,0x5C)); (0x6FEE,(0xE0,0x60));
  (0x6FEF,(0x91,0xF3)); (0x6FF1,(0xE0,0x5F)); (0x6FF3,(0xE0,0x4A)); (0x6FF5,(0xFB,0x4D)); (0x6FF6,(0xE8,0x89)); (0x6FFA,(0xE0,0x64)); (0x6FFE,(0xE0,0x68)); (0x7001,(0xE0,0x66));
  (0x7005,(0xFB,0x4E)); (0x7007,(0xFB,0x4F)); (0x7009,(0xE0,0x62)); (0x700B,(0xE0,0x63)); (0x700F,(0xE0,0x67)); (0x7011,(0xE0,0x65)); (0x7015,(0x95,0x6D)); (0x7018,(0xE0,0x6D));
  (0x701A,(0xE0,0x6A)); (0x701B,(0xE0,0x69)); (0x701D,(0xE0,0x6C)); (0x701E,(0x93,0xD2)); (0x701F,(0xE0,0x6E)); (0x7026,(0x92,0x95)); (0x7027,(0x91,0xEB)); (0x7028,(0xFB,0x50));
  (0x702C,(0x90,0xA3)); (0x7030,(0xE0,0x6F)); (0x7032,(0xE0,0x71)); (0x703E,(0xE0,0x70)); (0x704C,(0x9F,0xF3)); (0x7051,(0xE0,0x72)); (0x7058,(0x93,0xE5)); (0x7063,(0xE0,0x73));
  (0x706B,(0x89,0xCE)); (0x706F,(0x93,0x94)); (0x7070,(0x8A,0x44)); (0x7078,(0x8B,0x84)); (0x707C,(0x8E,0xDC)); (0x707D,(0x8D,0xD0)); (0x7085,(0xFB,0x51)); (0x7089,(0x98,0x46));
  (0x708A,(0x90,0x86)); (0x708E,(0x89,0x8A)); (0x7092,(0xE0,0x75)); (0x7099,(0xE0,0x74)); (0x70AB,(0xFB,0x52)); (0x70AC,(0xE0,0x78)); (0x70AD,(0x92,0x59)); (0x70AE,(0xE0,0x7B));
  (0x70AF,(0xE0,0x76)); (0x70B3,(0xE0,0x7A)); (0x70B8,(0xE0,0x79)); (0x70B9,(0x93,0x5F)); (0x70BA,(0x88,0xD7)); (0x70BB,(0xFA,0x62)); (0x70C8,(0x97,0xF3)); (0x70CB,(0xE0,0x7D));
  (0x70CF,(0x89,0x47)); (0x70D9,(0xE0,0x80)); (0x70DD,(0xE0,0x7E)); (0x70DF,(0xE0,0x7C)); (0x70F1,(0xE0,0x77)); (0x70F9,(0x96,0x42)); (0x70FD,(0xE0,0x82)); (0x7104,(0xFB,0x54));
  (0x7109,(0xE0,0x81)); (0x710F,(0xFB,0x53)); (0x7114,(0x89,0x8B)); (0x7119,(0xE0,0x84)); (0x711A,(0x95,0xB0)); (0x711C,(0xE0,0x83)); (0x7121,(0x96,0xB3)); (0x7126,(0x8F,0xC5));
  (0x7136,(0x91,0x52)); (0x713C,(0x8F,0xC4)); (0x7146,(0xFB,0x56)); (0x7147,(0xFB,0x57)); (0x7149,(0x97,0xF9)); (0x714C,(0xE0,0x8A)); (0x714E,(0x90,0xF7)); (0x7155,(0xE0,0x86));
  (0x7156,(0xE0,0x8B)); (0x7159,(0x89,0x8C)); (0x715C,(0xFB,0x55)); (0x7162,(0xE0,0x89)); (0x7164,(0x94,0x81)); (0x7165,(0xE0,0x85)); (0x7166,(0xE0,0x88)); (0x7167,(0x8F,0xC6));
  (0x7169,(0x94,0xCF)); (0x716C,(0xE0,0x8C)); (0x716E,(0x8E,0xCF)); (0x717D,(0x90,0xF8)); (0x7184,(0xE0,0x8F)); (0x7188,(0xE0,0x87)); (0x718A,(0x8C,0x46)); (0x718F,(0xE0,0x8D));
  (0x7194,(0x97,0x6F)); (0x7195,(0xE0,0x90)); (0x7199,(0xEA,0xA4)); (0x719F,(0x8F,0x6E)); (0x71A8,(0xE0,0x91)); (0x71AC,(0xE0,0x92)); (0x71B1,(0x94,0x4D)); (0x71B9,(0xE0,0x94));
  (0x71BE,(0xE0,0x95)); (0x71C1,(0xFB,0x59)); (0x71C3,(0x94,0x52)); (0x71C8,(0x93,0x95)); (0x71C9,(0xE0,0x97)); (0x71CE,(0xE0,0x99)); (0x71D0,(0x97,0xD3)); (0x71D2,(0xE0,0x96));
  (0x71D4,(0xE0,0x98)); (0x71D5,(0x89,0x8D)); (0x71D7,(0xE0,0x93)); (0x71DF,(0x9A,0x7A)); (0x71E0,(0xE0,0x9A)); (0x71E5,(0x91,0x87)); (0x71E6,(0x8E,0x57)); (0x71E7,(0xE0,0x9C));
  (0x71EC,(0xE0,0x9B)); (0x71ED,(0x90,0x43)); (0x71EE,(0x99,0xD7)); (0x71F5,(0xE0,0x9D)); (0x71F9,(0xE0,0x9F)); (0x71FB,(0xE0,0x8E)); (0x71FC,(0xE0,0x9E)); (0x71FE,(0xFB,0x5A));
  (0x71FF,(0xE0,0xA0)); (0x7206,(0x94,0x9A)); (0x720D,(0xE0,0xA1)); (0x7210,(0xE0,0xA2)); (0x721B,(0xE0,0xA3)); (0x7228,(0xE0,0xA4)); (0x722A,(0x92,0xDC)); (0x722C,(0xE0,0xA6));
  (0x722D,(0xE0,0xA5)); (0x7230,(0xE0,0xA7)); (0x7232,(0xE0,0xA8)); (0x7235,(0x8E,0xDD)); (0x7236,(0x95,0x83)); (0x723A,(0x96,0xEA)); (0x723B,(0xE0,0xA9)); (0x723C,(0xE0,0xAA));
  (0x723D,(0x91,0x75)); (0x723E,(0x8E,0xA2)); (0x723F,(0xE0,0xAB)); (0x7240,(0xE0,0xAC)); (0x7246,(0xE0,0xAD)); (0x7247,(0x95,0xD0)); (0x7248,(0x94,0xC5)); (0x724B,(0xE0,0xAE));
  (0x724C,(0x94,0x76)); (0x7252,(0x92,0xAB)); (0x7258,(0xE0,0xAF)); (0x7259,(0x89,0xE5)); (0x725B,(0x8B,0x8D)); (0x725D,(0x96,0xC4)); (0x725F,(0x96,0xB4)); (0x7261,(0x89,0xB2));
  (0x7262,(0x98,0x53)); (0x7267,(0x96,0x71)); (0x7269,(0x95,0xA8)); (0x7272,(0x90,0xB5)); (0x7274,(0xE0,0xB0)); (0x7279,(0x93,0xC1)); (0x727D,(0x8C,0xA1)); (0x727E,(0xE0,0xB1));
  (0x7280,(0x8D,0xD2)); (0x7281,(0xE0,0xB3)); (0x7282,(0xE0,0xB2)); (0x7287,(0xE0,0xB4)); (0x7292,(0xE0,0xB5)); (0x7296,(0xE0,0xB6)); (0x72A0,(0x8B,0x5D)); (0x72A2,(0xE0,0xB7));
  (0x72A7,(0xE0,0xB8)); (0x72AC,(0x8C,0xA2)); (0x72AF,(0x94,0xC6)); (0x72B1,(0xFB,0x5B)); (0x72B2,(0xE0,0xBA)); (0x72B6,(0x8F,0xF3)); (0x72B9,(0xE0,0xB9)); (0x72BE,(0xFB,0x5C))
].
(* src/generated/whatwg/shiftjis_whatwg_tables.rs.inc:1395-3838 ENCODE_TABLE, entries 3840..4095 *)
Definition sjis_encode_table_15 : list (N * (N * N)) := [
  (0x72C2,(0x8B,0xB6)); (0x72C3,(0xE0,0xBB)); (0x72C4,(0xE0,0xBD)); (0x72C6,(0xE0,0xBC)); (0x72CE,(0xE0,0xBE)); (0x72D0,(0x8C,0xCF)); (0x72D2,(0xE0,0xBF)); (0x72D7,(0x8B,0xE7));
  (0x72D9,(0x91,0x5F)); (0x72DB,(0x8D,0x9D)); (0x72E0,(0xE0,0xC1)); (0x72E1,(0xE0,0xC2)); (0x72E2,(0xE0,0xC0)); (0x72E9,(0x8E,0xEB)); (0x72EC,(0x93,0xC6)); (0x72ED,(0x8B,0xB7));
  (0x72F7,(0xE0,0xC4)); (0x72F8,(0x92,0x4B)); (0x72F9,(0xE0,0xC3)); (0x72FC,(0x98,0x54)); (0x72FD,(0x94,0x82)); (0x730A,(0xE0,0xC7)); (0x7316,(0xE0,0xC9)); (0x7317,(0xE0,0xC6));
  (0x731B,(0x96,0xD2)); (0x731C,(0xE0,0xC8)); (0x731D,(0xE0,0xCA)); (0x731F,(0x97,0xC2)); (0x7324,(0xFB,0x5D)); (0x7325,(0xE0,0xCE)); (0x7329,(0xE0,0xCD)); (0x732A,(0x92,0x96));
  (0x732B,(0x94,0x4C)); (0x732E,(0x8C,0xA3)); (0x732F,(0xE0,0xCC)); (0x7334,(0xE0,0xCB)); (0x7336,(0x97,0x50)); (0x7337,(0x97,0x51)); (0x733E,(0xE0,0xCF)); (0x733F,(0x89,0x8E));
  (0x7344,(0x8D,0x96)); (0x7345,(0x8E,0x82)); (0x734E,(0xE0,0xD0)); (0x734F,(0xE0,0xD1)); (0x7357,(0xE0,0xD3)); (0x7363,(0x8F,0x62)); (0x7368,(0xE0,0xD5)); (0x736A,(0xE0,0xD4));
  (0x7370,(0xE0,0xD6)); (0x7372,(0x8A,0x6C)); (0x7375,(0xE0,0xD8)); (0x7377,(0xFB,0x5F)); (0x7378,(0xE0,0xD7)); (0x737A,(0xE0,0xDA)); (0x737B,(0xE0,0xD9)); (0x7384,(0x8C,0xBA));
  (0x7387,(0x97,0xA6)); (0x7389,(0x8B,0xCA)); (0x738B,(0x89,0xA4)); (0x7396,(0x8B,0xE8)); (0x73A9,(0x8A,0xDF)); (0x73B2,(0x97,0xE6)); (0x73B3,(0xE0,0xDC)); (0x73BB,(0xE0,0xDE));
  (0x73BD,(0xFB,0x60)); (0x73C0,(0xE0,0xDF)); (0x73C2,(0x89,0xCF)); (0x73C8,(0xE0,0xDB)); (0x73C9,(0xFB,0x61)); (0x73CA,(0x8E,0x58)); (0x73CD,(0x92,0xBF)); (0x73CE,(0xE0,0xDD));
  (0x73D2,(0xFB,0x64)); (0x73D6,(0xFB,0x62)); (0x73DE,(0xE0,0xE2)); (0x73E0,(0x8E,0xEC)); (0x73E3,(0xFB,0x63)); (0x73E5,(0xE0,0xE0)); (0x73EA,(0x8C,0x5D)); (0x73ED,(0x94,0xC7));
  (0x73EE,(0xE0,0xE1)); (0x73F1,(0xE0,0xFC)); (0x73F5,(0xFB,0x66)); (0x73F8,(0xE0,0xE7)); (0x73FE,(0x8C,0xBB)); (0x7403,(0x8B,0x85)); (0x7405,(0xE0,0xE4)); (0x7406,(0x97,0x9D));
  (0x7407,(0xFB,0x65)); (0x7409,(0x97,0xAE)); (0x7422,(0x91,0xF4)); (0x7425,(0xE0,0xE6)); (0x7426,(0xFB,0x67)); (0x7429,(0xFB,0x69)); (0x742A,(0xFB,0x68)); (0x742E,(0xFB,0x6A));
  (0x7432,(0xE0,0xE8)); (0x7433,(0x97,0xD4)); (0x7434,(0x8B,0xD5)); (0x7435,(0x94,0xFA)); (0x7436,(0x94,0x69)); (0x743A,(0xE0,0xE9)); (0x743F,(0xE0,0xEB)); (0x7441,(0xE0,0xEE));
  (0x7455,(0xE0,0xEA)); (0x7459,(0xE0,0xED)); (0x745A,(0x8C,0xE8)); (0x745B,(0x89,0x6C)); (0x745C,(0xE0,0xEF)); (0x745E,(0x90,0x90)); (0x745F,(0xE0,0xEC)); (0x7460,(0x97,0xDA));
  (0x7462,(0xFB,0x6B)); (0x7463,(0xE0,0xF2)); (0x7464,(0xEA,0xA2)); (0x7469,(0xE0,0xF0)); (0x746A,(0xE0,0xF3)); (0x746F,(0xE0,0xE5)); (0x7470,(0xE0,0xF1)); (0x7473,(0x8D,0xBA));
  (0x7476,(0xE0,0xF4)); (0x747E,(0xE0,0xF5)); (0x7483,(0x97,0x9E)); (0x7489,(0xFB,0x6C)); (0x748B,(0xE0,0xF6)); (0x749E,(0xE0,0xF7)); (0x749F,(0xFB,0x6D)); (0x74A2,(0xE0,0xE3));
  (0x74A7,(0xE0,0xF8)); (0x74B0,(0x8A,0xC2)); (0x74BD,(0x8E,0xA3)); (0x74CA,(0xE0,0xF9)); (0x74CF,(0xE0,0xFA)); (0x74D4,(0xE0,0xFB)); (0x74DC,(0x89,0x5A)); (0x74E0,(0xE1,0x40));
  (0x74E2,(0x95,0x5A)); (0x74E3,(0xE1,0x41)); (0x74E6,(0x8A,0xA2)); (0x74E7,(0xE1,0x42)); (0x74E9,(0xE1,0x43)); (0x74EE,(0xE1,0x44)); (0x74F0,(0xE1,0x46)); (0x74F1,(0xE1,0x47));
  (0x74F2,(0xE1,0x45)); (0x74F6,(0x95,0x72)); (0x74F7,(0xE1,0x49)); (0x74F8,(0xE1,0x48)); (0x7501,(0xFB,0x6E)); (0x7503,(0xE1,0x4B)); (0x7504,(0xE1,0x4A)); (0x7505,(0xE1,0x4C));
  (0x750C,(0xE1,0x4D)); (0x750D,(0xE1,0x4F)); (0x750E,(0xE1,0x4E)); (0x7511,(0x8D,0x99)); (0x7513,(0xE1,0x51)); (0x7515,(0xE1,0x50)); (0x7518,(0x8A,0xC3)); (0x751A,(0x90,0x72));
  (0x751C,(0x93,0x5B)); (0x751E,(0xE1,0x52)); (0x751F,(0x90,0xB6)); (0x7523,(0x8E,0x59)); (0x7525,(0x89,0x99)); (0x7526,(0xE1,0x53)); (0x7528,(0x97,0x70)); (0x752B,(0x95,0xE1));
  (0x752C,(0xE1,0x54)); (0x752F,(0xFA,0xA8)); (0x7530,(0x93,0x63)); (0x7531,(0x97,0x52)); (0x7532,(0x8D,0x62)); (0x7533,(0x90,0x5C)); (0x7537,(0x92,0x6A)); (0x7538,(0x99,0xB2));
  (0x753A,(0x92,0xAC)); (0x753B,(0x89,0xE6)); (0x753C,(0xE1,0x55)); (0x7544,(0xE1,0x56)); (0x7546,(0xE1,0x5B)); (0x7549,(0xE1,0x59)); (0x754A,(0xE1,0x58)); (0x754B,(0x9D,0xC0));
  (0x754C,(0x8A,0x45)); (0x754D,(0xE1,0x57)); (0x754F,(0x88,0xD8)); (0x7551,(0x94,0xA8)); (0x7554,(0x94,0xC8)); (0x7559,(0x97,0xAF)); (0x755A,(0xE1,0x5C)); (0x755B,(0xE1,0x5A));
  (0x755C,(0x92,0x7B)); (0x755D,(0x90,0xA4)); (0x7560,(0x94,0xA9)); (0x7562,(0x95,0x4C)); (0x7564,(0xE1,0x5E)); (0x7565,(0x97,0xAA)); (0x7566,(0x8C,0x6C)); (0x7567,(0xE1,0x5F));
  (0x7569,(0xE1,0x5D)); (0x756A,(0x94,0xD4)); (0x756B,(0xE1,0x60)); (0x756D,(0xE1,0x61)); (0x756F,(0xFB,0x6F)); (0x7570,(0x88,0xD9)); (0x7573,(0x8F,0xF4)); (0x7574,(0xE1,0x66));
  (0x7576,(0xE1,0x63)); (0x7577,(0x93,0xEB)); (0x7578,(0xE1,0x62)); (0x757F,(0x8B,0x45)); (0x7582,(0xE1,0x69)); (0x7586,(0xE1,0x64)); (0x7587,(0xE1,0x65)); (0x7589,(0xE1,0x68));
  (0x758A,(0xE1,0x67)); (0x758B,(0x95,0x44)); (0x758E,(0x91,0x61)); (0x758F,(0x91,0x60)); (0x7591,(0x8B,0x5E)); (0x7594,(0xE1,0x6A)); (0x759A,(0xE1,0x6B)); (0x759D,(0xE1,0x6C));
  (0x75A3,(0xE1,0x6E)); (0x75A5,(0xE1,0x6D)); (0x75AB,(0x89,0x75)); (0x75B1,(0xE1,0x76)); (0x75B2,(0x94,0xE6)); (0x75B3,(0xE1,0x70)); (0x75B5,(0xE1,0x72)); (0x75B8,(0xE1,0x74));
  (0x75B9,(0x90,0x5D)); (0x75BC,(0xE1,0x75)); (0x75BD,(0xE1,0x73)); (0x75BE,(0x8E,0xBE)); (0x75C2,(0xE1,0x6F)); (0x75C3,(0xE1,0x71)); (0x75C5,(0x95,0x61)); (0x75C7,(0x8F,0xC7));
  (0x75CA,(0xE1,0x78)); (0x75CD,(0xE1,0x77)); (0x75D2,(0xE1,0x79)); (0x75D4,(0x8E,0xA4)); (0x75D5,(0x8D,0xAD)); (0x75D8,(0x93,0x97)); (0x75D9,(0xE1,0x7A)); (0x75DB,(0x92,0xC9));
  (0x75DE,(0xE1,0x7C)); (0x75E2,(0x97,0x9F)); (0x75E3,(0xE1,0x7B)); (0x75E9,(0x91,0x89)); (0x75F0,(0xE1,0x82)); (0x75F2,(0xE1,0x84)); (0x75F3,(0xE1,0x85)); (0x75F4,(0x92,0x73))
].
(* src/generated/whatwg/shiftjis_whatwg_tables.rs.inc:1395-3838 ENCODE_TABLE, entries 4096..4351 *)
Definition sjis_encode_table_16 : list (N * (N * N)) := [
  (0x75FA,(0xE1,0x83)); (0x75FC,(0xE1,0x80)); (0x75FE,(0xE1,0x7D)); (0x75FF,(0xE1,0x7E)); (0x7601,(0xE1,0x81)); (0x7609,(0xE1,0x88)); (0x760B,(0xE1,0x86)); (0x760D,(0xE1,0x87));
  (0x761F,(0xE1,0x89)); (0x7620,(0xE1,0x8B)); (0x7621,(0xE1,0x8C)); (0x7622,(0xE1,0x8D)); (0x7624,(0xE1,0x8E)); (0x7627,(0xE1,0x8A)); (0x7630,(0xE1,0x90)); (0x7634,(0xE1,0x8F));
  (0x763B,(0xE1,0x91)); (0x7642,(0x97,0xC3)); (0x7646,(0xE1,0x94)); (0x7647,(0xE1,0x92)); (0x7648,(0xE1,0x93)); (0x764C,(0x8A,0xE0)); (0x7652,(0x96,0xFC)); (0x7656,(0x95,0xC8));
  (0x7658,(0xE1,0x96)); (0x765C,(0xE1,0x95)); (0x7661,(0xE1,0x97)); (0x7662,(0xE1,0x98)); (0x7667,(0xE1,0x9C)); (0x7668,(0xE1,0x99)); (0x7669,(0xE1,0x9A)); (0x766A,(0xE1,0x9B));
  (0x766C,(0xE1,0x9D)); (0x7670,(0xE1,0x9E)); (0x7672,(0xE1,0x9F)); (0x7676,(0xE1,0xA0)); (0x7678,(0xE1,0xA1)); (0x767A,(0x94,0xAD)); (0x767B,(0x93,0x6F)); (0x767C,(0xE1,0xA2));
  (0x767D,(0x94,0x92)); (0x767E,(0x95,0x53)); (0x7680,(0xE1,0xA3)); (0x7682,(0xFB,0x70)); (0x7683,(0xE1,0xA4)); (0x7684,(0x93,0x49)); (0x7686,(0x8A,0x46)); (0x7687,(0x8D,0x63));
  (0x7688,(0xE1,0xA5)); (0x768B,(0xE1,0xA6)); (0x768E,(0xE1,0xA7)); (0x7690,(0x8E,0x48)); (0x7693,(0xE1,0xA9)); (0x7696,(0xE1,0xA8)); (0x7699,(0xE1,0xAA)); (0x769A,(0xE1,0xAB));
  (0x769B,(0xFB,0x73)); (0x769C,(0xFB,0x71)); (0x769E,(0xFB,0x72)); (0x76A6,(0xFB,0x74)); (0x76AE,(0x94,0xE7)); (0x76B0,(0xE1,0xAC)); (0x76B4,(0xE1,0xAD)); (0x76B7,(0xEA,0x89));
  (0x76B8,(0xE1,0xAE)); (0x76B9,(0xE1,0xAF)); (0x76BA,(0xE1,0xB0)); (0x76BF,(0x8E,0x4D)); (0x76C2,(0xE1,0xB1)); (0x76C3,(0x94,0x75)); (0x76C6,(0x96,0x7E)); (0x76C8,(0x89,0x6D));
  (0x76CA,(0x89,0x76)); (0x76CD,(0xE1,0xB2)); (0x76D2,(0xE1,0xB4)); (0x76D6,(0xE1,0xB3)); (0x76D7,(0x93,0x90)); (0x76DB,(0x90,0xB7)); (0x76DC,(0x9F,0x58)); (0x76DE,(0xE1,0xB5));
  (0x76DF,(0x96,0xBF)); (0x76E1,(0xE1,0xB6)); (0x76E3,(0x8A,0xC4)); (0x76E4,(0x94,0xD5)); (0x76E5,(0xE1,0xB7)); (0x76E7,(0xE1,0xB8)); (0x76EA,(0xE1,0xB9)); (0x76EE,(0x96,0xDA));
  (0x76F2,(0x96,0xD3)); (0x76F4,(0x92,0xBC)); (0x76F8,(0x91,0x8A)); (0x76FB,(0xE1,0xBB)); (0x76FE,(0x8F,0x82)); (0x7701,(0x8F,0xC8)); (0x7704,(0xE1,0xBE)); (0x7707,(0xE1,0xBD));
  (0x7708,(0xE1,0xBC)); (0x7709,(0x94,0xFB)); (0x770B,(0x8A,0xC5)); (0x770C,(0x8C,0xA7)); (0x771B,(0xE1,0xC4)); (0x771E,(0xE1,0xC1)); (0x771F,(0x90,0x5E)); (0x7720,(0x96,0xB0));
  (0x7724,(0xE1,0xC0)); (0x7725,(0xE1,0xC2)); (0x7726,(0xE1,0xC3)); (0x7729,(0xE1,0xBF)); (0x7737,(0xE1,0xC5)); (0x7738,(0xE1,0xC6)); (0x773A,(0x92,0xAD)); (0x773C,(0x8A,0xE1));
  (0x7740,(0x92,0x85)); (0x7746,(0xFB,0x76)); (0x7747,(0xE1,0xC7)); (0x775A,(0xE1,0xC8)); (0x775B,(0xE1,0xCB)); (0x7761,(0x90,0x87)); (0x7763,(0x93,0xC2)); (0x7765,(0xE1,0xCC));
  (0x7766,(0x96,0x72)); (0x7768,(0xE1,0xC9)); (0x776B,(0xE1,0xCA)); (0x7779,(0xE1,0xCF)); (0x777E,(0xE1,0xCE)); (0x777F,(0xE1,0xCD)); (0x778B,(0xE1,0xD1)); (0x778E,(0xE1,0xD0));
  (0x7791,(0xE1,0xD2)); (0x779E,(0xE1,0xD4)); (0x77A0,(0xE1,0xD3)); (0x77A5,(0x95,0xCB)); (0x77AC,(0x8F,0x75)); (0x77AD,(0x97,0xC4)); (0x77B0,(0xE1,0xD5)); (0x77B3,(0x93,0xB5));
  (0x77B6,(0xE1,0xD6)); (0x77B9,(0xE1,0xD7)); (0x77BB,(0xE1,0xDB)); (0x77BC,(0xE1,0xD9)); (0x77BD,(0xE1,0xDA)); (0x77BF,(0xE1,0xD8)); (0x77C7,(0xE1,0xDC)); (0x77CD,(0xE1,0xDD));
  (0x77D7,(0xE1,0xDE)); (0x77DA,(0xE1,0xDF)); (0x77DB,(0x96,0xB5)); (0x77DC,(0xE1,0xE0)); (0x77E2,(0x96,0xEE)); (0x77E3,(0xE1,0xE1)); (0x77E5,(0x92,0x6D)); (0x77E7,(0x94,0x8A));
  (0x77E9,(0x8B,0xE9)); (0x77ED,(0x92,0x5A)); (0x77EE,(0xE1,0xE2)); (0x77EF,(0x8B,0xB8)); (0x77F3,(0x90,0xCE)); (0x77FC,(0xE1,0xE3)); (0x7802,(0x8D,0xBB)); (0x780C,(0xE1,0xE4));
  (0x7812,(0xE1,0xE5)); (0x7814,(0x8C,0xA4)); (0x7815,(0x8D,0xD3)); (0x7820,(0xE1,0xE7)); (0x7821,(0xFB,0x78)); (0x7825,(0x93,0x75)); (0x7826,(0x8D,0xD4)); (0x7827,(0x8B,0x6D));
  (0x7832,(0x96,0x43)); (0x7834,(0x94,0x6A)); (0x783A,(0x93,0x76)); (0x783F,(0x8D,0x7B)); (0x7845,(0xE1,0xE9)); (0x784E,(0xFB,0x79)); (0x785D,(0x8F,0xC9)); (0x7864,(0xFB,0x7A));
  (0x786B,(0x97,0xB0)); (0x786C,(0x8D,0x64)); (0x786F,(0x8C,0xA5)); (0x7872,(0x94,0xA1)); (0x7874,(0xE1,0xEB)); (0x787A,(0xFB,0x7B)); (0x787C,(0xE1,0xED)); (0x7881,(0x8C,0xE9));
  (0x7886,(0xE1,0xEC)); (0x7887,(0x92,0xF4)); (0x788C,(0xE1,0xEF)); (0x788D,(0x8A,0x56)); (0x788E,(0xE1,0xEA)); (0x7891,(0x94,0xE8)); (0x7893,(0x89,0x4F)); (0x7895,(0x8D,0xEA));
  (0x7897,(0x98,0x71)); (0x789A,(0xE1,0xEE)); (0x78A3,(0xE1,0xF0)); (0x78A7,(0x95,0xC9)); (0x78A9,(0x90,0xD7)); (0x78AA,(0xE1,0xF2)); (0x78AF,(0xE1,0xF3)); (0x78B5,(0xE1,0xF1));
  (0x78BA,(0x8A,0x6D)); (0x78BC,(0xE1,0xF9)); (0x78BE,(0xE1,0xF8)); (0x78C1,(0x8E,0xA5)); (0x78C5,(0xE1,0xFA)); (0x78C6,(0xE1,0xF5)); (0x78CA,(0xE1,0xFB)); (0x78CB,(0xE1,0xF6));
  (0x78D0,(0x94,0xD6)); (0x78D1,(0xE1,0xF4)); (0x78D4,(0xE1,0xF7)); (0x78DA,(0xE2,0x41)); (0x78E7,(0xE2,0x40)); (0x78E8,(0x96,0x81)); (0x78EC,(0xE1,0xFC)); (0x78EF,(0x88,0xE9));
  (0x78F4,(0xE2,0x43)); (0x78FD,(0xE2,0x42)); (0x7901,(0x8F,0xCA)); (0x7907,(0xE2,0x44)); (0x790E,(0x91,0x62)); (0x7911,(0xE2,0x46)); (0x7912,(0xE2,0x45)); (0x7919,(0xE2,0x47));
  (0x7926,(0xE1,0xE6)); (0x792A,(0xE1,0xE8)); (0x792B,(0xE2,0x49)); (0x792C,(0xE2,0x48)); (0x7930,(0xFB,0x7C)); (0x793A,(0x8E,0xA6)); (0x793C,(0x97,0xE7)); (0x793E,(0x8E,0xD0));
  (0x7940,(0xE2,0x4A)); (0x7941,(0x8C,0x56)); (0x7947,(0x8B,0x5F)); (0x7948,(0x8B,0x46)); (0x7949,(0x8E,0x83)); (0x7950,(0x97,0x53)); (0x7953,(0xE2,0x50)); (0x7955,(0xE2,0x4F));
  (0x7956,(0x91,0x63)); (0x7957,(0xE2,0x4C)); (0x795A,(0xE2,0x4E)); (0x795D,(0x8F,0x6A)); (0x795E,(0x90,0x5F)); (0x795F,(0xE2,0x4D)); (0x7960,(0xE2,0x4B)); (0x7962,(0x94,0x49));
  (0x7965,(0x8F,0xCB)); (0x7968,(0x95,0x5B)); (0x796D,(0x8D,0xD5)); (0x7977,(0x93,0x98)); (0x797A,(0xE2,0x51)); (0x797F,(0xE2,0x52)); (0x7980,(0xE2,0x68)); (0x7981,(0x8B,0xD6))
].
(* src/generated/whatwg/shiftjis_whatwg_tables.rs.inc:1395-3838 ENCODE_TABLE, entries 4352..4607 *)
Definition sjis_encode_table_17 : list (N * (N * N)) := [
  (0x7984,(0x98,0x5C)); (0x7985,(0x91,0x54)); (0x798A,(0xE2,0x53)); (0x798D,(0x89,0xD0)); (0x798E,(0x92,0xF5)); (0x798F,(0x95,0x9F)); (0x7994,(0xFB,0x81)); (0x799B,(0xFB,0x83));
  (0x799D,(0xE2,0x54)); (0x79A6,(0x8B,0x9A)); (0x79A7,(0xE2,0x55)); (0x79AA,(0xE2,0x57)); (0x79AE,(0xE2,0x58)); (0x79B0,(0x94,0x48)); (0x79B3,(0xE2,0x59)); (0x79B9,(0xE2,0x5A));
  (0x79BA,(0xE2,0x5B)); (0x79BD,(0x8B,0xD7)); (0x79BE,(0x89,0xD1)); (0x79BF,(0x93,0xC3)); (0x79C0,(0x8F,0x47)); (0x79C1,(0x8E,0x84)); (0x79C9,(0xE2,0x5C)); (0x79CB,(0x8F,0x48));
  (0x79D1,(0x89,0xC8)); (0x79D2,(0x95,0x62)); (0x79D5,(0xE2,0x5D)); (0x79D8,(0x94,0xE9)); (0x79DF,(0x91,0x64)); (0x79E1,(0xE2,0x60)); (0x79E3,(0xE2,0x61)); (0x79E4,(0x94,0x89));
  (0x79E6,(0x90,0x60)); (0x79E7,(0xE2,0x5E)); (0x79E9,(0x92,0x81)); (0x79EC,(0xE2,0x5F)); (0x79F0,(0x8F,0xCC)); (0x79FB,(0x88,0xDA)); (0x7A00,(0x8B,0x48)); (0x7A08,(0xE2,0x62));
  (0x7A0B,(0x92,0xF6)); (0x7A0D,(0xE2,0x63)); (0x7A0E,(0x90,0xC5)); (0x7A14,(0x96,0xAB)); (0x7A17,(0x95,0x42)); (0x7A18,(0xE2,0x64)); (0x7A19,(0xE2,0x65)); (0x7A1A,(0x92,0x74));
  (0x7A1C,(0x97,0xC5)); (0x7A1F,(0xE2,0x67)); (0x7A20,(0xE2,0x66)); (0x7A2E,(0x8E,0xED)); (0x7A31,(0xE2,0x69)); (0x7A32,(0x88,0xEE)); (0x7A37,(0xE2,0x6C)); (0x7A3B,(0xE2,0x6A));
  (0x7A3C,(0x89,0xD2)); (0x7A3D,(0x8C,0x6D)); (0x7A3E,(0xE2,0x6B)); (0x7A3F,(0x8D,0x65)); (0x7A40,(0x8D,0x92)); (0x7A42,(0x95,0xE4)); (0x7A43,(0xE2,0x6D)); (0x7A46,(0x96,0x73));
  (0x7A49,(0xE2,0x6F)); (0x7A4D,(0x90,0xCF)); (0x7A4E,(0x89,0x6E)); (0x7A4F,(0x89,0xB8)); (0x7A50,(0x88,0xAA)); (0x7A57,(0xE2,0x6E)); (0x7A61,(0xE2,0x70)); (0x7A62,(0xE2,0x71));
  (0x7A63,(0x8F,0xF5)); (0x7A69,(0xE2,0x72)); (0x7A6B,(0x8A,0x6E)); (0x7A70,(0xE2,0x74)); (0x7A74,(0x8C,0x8A)); (0x7A76,(0x8B,0x86)); (0x7A79,(0xE2,0x75)); (0x7A7A,(0x8B,0xF3));
  (0x7A7D,(0xE2,0x76)); (0x7A7F,(0x90,0xFA)); (0x7A81,(0x93,0xCB)); (0x7A83,(0x90,0xDE)); (0x7A84,(0x8D,0xF3)); (0x7A88,(0xE2,0x77)); (0x7A92,(0x92,0x82)); (0x7A93,(0x91,0x8B));
  (0x7A95,(0xE2,0x79)); (0x7A96,(0xE2,0x7B)); (0x7A97,(0xE2,0x78)); (0x7A98,(0xE2,0x7A)); (0x7A9F,(0x8C,0x41)); (0x7AA9,(0xE2,0x7C)); (0x7AAA,(0x8C,0x45)); (0x7AAE,(0x8B,0x87));
  (0x7AAF,(0x97,0x71)); (0x7AB0,(0xE2,0x7E)); (0x7AB6,(0xE2,0x80)); (0x7ABA,(0x89,0x4D)); (0x7ABF,(0xE2,0x83)); (0x7AC3,(0x8A,0x96)); (0x7AC4,(0xE2,0x82)); (0x7AC5,(0xE2,0x81));
  (0x7AC7,(0xE2,0x85)); (0x7AC8,(0xE2,0x7D)); (0x7ACA,(0xE2,0x86)); (0x7ACB,(0x97,0xA7)); (0x7ACD,(0xE2,0x87)); (0x7ACF,(0xE2,0x88)); (0x7AD1,(0xFB,0x84)); (0x7AD2,(0x9A,0xF2));
  (0x7AD3,(0xE2,0x8A)); (0x7AD5,(0xE2,0x89)); (0x7AD9,(0xE2,0x8B)); (0x7ADA,(0xE2,0x8C)); (0x7ADC,(0x97,0xB3)); (0x7ADD,(0xE2,0x8D)); (0x7ADF,(0xE8,0xED)); (0x7AE0,(0x8F,0xCD));
  (0x7AE1,(0xE2,0x8E)); (0x7AE2,(0xE2,0x8F)); (0x7AE3,(0x8F,0x76)); (0x7AE5,(0x93,0xB6)); (0x7AE6,(0xE2,0x90)); (0x7AE7,(0xFB,0x85)); (0x7AEA,(0x92,0x47)); (0x7AEB,(0xFB,0x87));
  (0x7AED,(0xE2,0x91)); (0x7AEF,(0x92,0x5B)); (0x7AF0,(0xE2,0x92)); (0x7AF6,(0x8B,0xA3)); (0x7AF8,(0x99,0x5E)); (0x7AF9,(0x92,0x7C)); (0x7AFA,(0x8E,0xB1)); (0x7AFF,(0x8A,0xC6));
  (0x7B02,(0xE2,0x93)); (0x7B04,(0xE2,0xA0)); (0x7B06,(0xE2,0x96)); (0x7B08,(0x8B,0x88)); (0x7B0A,(0xE2,0x95)); (0x7B0B,(0xE2,0xA2)); (0x7B0F,(0xE2,0x94)); (0x7B11,(0x8F,0xCE));
  (0x7B18,(0xE2,0x98)); (0x7B19,(0xE2,0x99)); (0x7B1B,(0x93,0x4A)); (0x7B1E,(0xE2,0x9A)); (0x7B20,(0x8A,0x7D)); (0x7B25,(0x90,0x79)); (0x7B26,(0x95,0x84)); (0x7B28,(0xE2,0x9C));
  (0x7B2C,(0x91,0xE6)); (0x7B33,(0xE2,0x97)); (0x7B35,(0xE2,0x9B)); (0x7B36,(0xE2,0x9D)); (0x7B39,(0x8D,0xF9)); (0x7B45,(0xE2,0xA4)); (0x7B46,(0x95,0x4D)); (0x7B48,(0x94,0xA4));
  (0x7B49,(0x93,0x99)); (0x7B4B,(0x8B,0xD8)); (0x7B4C,(0xE2,0xA3)); (0x7B4D,(0xE2,0xA1)); (0x7B4F,(0x94,0xB3)); (0x7B50,(0xE2,0x9E)); (0x7B51,(0x92,0x7D)); (0x7B52,(0x93,0x9B));
  (0x7B54,(0x93,0x9A)); (0x7B56,(0x8D,0xF4)); (0x7B5D,(0xE2,0xB6)); (0x7B65,(0xE2,0xA6)); (0x7B67,(0xE2,0xA8)); (0x7B6C,(0xE2,0xAB)); (0x7B6E,(0xE2,0xAC)); (0x7B70,(0xE2,0xA9));
  (0x7B71,(0xE2,0xAA)); (0x7B74,(0xE2,0xA7)); (0x7B75,(0xE2,0xA5)); (0x7B7A,(0xE2,0x9F)); (0x7B86,(0x95,0xCD)); (0x7B87,(0x89,0xD3)); (0x7B8B,(0xE2,0xB3)); (0x7B8D,(0xE2,0xB0));
  (0x7B8F,(0xE2,0xB5)); (0x7B92,(0xE2,0xB4)); (0x7B94,(0x94,0x93)); (0x7B95,(0x96,0xA5)); (0x7B97,(0x8E,0x5A)); (0x7B98,(0xE2,0xAE)); (0x7B99,(0xE2,0xB7)); (0x7B9A,(0xE2,0xB2));
  (0x7B9C,(0xE2,0xB1)); (0x7B9D,(0xE2,0xAD)); (0x7B9E,(0xFB,0x88)); (0x7B9F,(0xE2,0xAF)); (0x7BA1,(0x8A,0xC7)); (0x7BAA,(0x92,0x5C)); (0x7BAD,(0x90,0xFB)); (0x7BB1,(0x94,0xA0));
  (0x7BB4,(0xE2,0xBC)); (0x7BB8,(0x94,0xA2)); (0x7BC0,(0x90,0xDF)); (0x7BC1,(0xE2,0xB9)); (0x7BC4,(0x94,0xCD)); (0x7BC6,(0xE2,0xBD)); (0x7BC7,(0x95,0xD1)); (0x7BC9,(0x92,0x7A));
  (0x7BCB,(0xE2,0xB8)); (0x7BCC,(0xE2,0xBA)); (0x7BCF,(0xE2,0xBB)); (0x7BDD,(0xE2,0xBE)); (0x7BE0,(0x8E,0xC2)); (0x7BE4,(0x93,0xC4)); (0x7BE5,(0xE2,0xC3)); (0x7BE6,(0xE2,0xC2));
  (0x7BE9,(0xE2,0xBF)); (0x7BED,(0x98,0x55)); (0x7BF3,(0xE2,0xC8)); (0x7BF6,(0xE2,0xCC)); (0x7BF7,(0xE2,0xC9)); (0x7C00,(0xE2,0xC5)); (0x7C07,(0xE2,0xC6)); (0x7C0D,(0xE2,0xCB));
  (0x7C11,(0xE2,0xC0)); (0x7C12,(0x99,0xD3)); (0x7C13,(0xE2,0xC7)); (0x7C14,(0xE2,0xC1)); (0x7C17,(0xE2,0xCA)); (0x7C1F,(0xE2,0xD0)); (0x7C21,(0x8A,0xC8)); (0x7C23,(0xE2,0xCD));
  (0x7C27,(0xE2,0xCE)); (0x7C2A,(0xE2,0xCF)); (0x7C2B,(0xE2,0xD2)); (0x7C37,(0xE2,0xD1)); (0x7C38,(0x94,0xF4)); (0x7C3D,(0xE2,0xD3)); (0x7C3E,(0x97,0xFA)); (0x7C3F,(0x95,0xEB));
  (0x7C40,(0xE2,0xD8)); (0x7C43,(0xE2,0xD5)); (0x7C4C,(0xE2,0xD4)); (0x7C4D,(0x90,0xD0)); (0x7C4F,(0xE2,0xD7)); (0x7C50,(0xE2,0xD9)); (0x7C54,(0xE2,0xD6)); (0x7C56,(0xE2,0xDD));
  (0x7C58,(0xE2,0xDA)); (0x7C5F,(0xE2,0xDB)); (0x7C60,(0xE2,0xC4)); (0x7C64,(0xE2,0xDC)); (0x7C65,(0xE2,0xDE)); (0x7C6C,(0xE2,0xDF)); (0x7C73,(0x95,0xC4)); (0x7C75,(0xE2,0xE0))
].
(* src/generated/whatwg/shiftjis_whatwg_tables.rs.inc:1395-3838 ENCODE_TABLE, entries 4608..4863 *)
Definition sjis_encode_table_18 : list (N * (N * N)) := [
  (0x7C7E,(0x96,0xE0)); (0x7C81,(0x8B,0xCC)); (0x7C82,(0x8C,0x48)); (0x7C83,(0xE2,0xE1)); (0x7C89,(0x95,0xB2)); (0x7C8B,(0x90,0x88)); (0x7C8D,(0x96,0xAE)); (0x7C90,(0xE2,0xE2));
  (0x7C92,(0x97,0xB1)); (0x7C95,(0x94,0x94)); (0x7C97,(0x91,0x65)); (0x7C98,(0x94,0x53)); (0x7C9B,(0x8F,0x6C)); (0x7C9F,(0x88,0xBE)); (0x7CA1,(0xE2,0xE7)); (0x7CA2,(0xE2,0xE5));
  (0x7CA4,(0xE2,0xE3)); (0x7CA5,(0x8A,0x9F)); (0x7CA7,(0x8F,0xCF)); (0x7CA8,(0xE2,0xE8)); (0x7CAB,(0xE2,0xE6)); (0x7CAD,(0xE2,0xE4)); (0x7CAE,(0xE2,0xEC)); (0x7CB1,(0xE2,0xEB));
  (0x7CB2,(0xE2,0xEA)); (0x7CB3,(0xE2,0xE9)); (0x7CB9,(0xE2,0xED)); (0x7CBD,(0xE2,0xEE)); (0x7CBE,(0x90,0xB8)); (0x7CC0,(0xE2,0xEF)); (0x7CC2,(0xE2,0xF1)); (0x7CC5,(0xE2,0xF0));
  (0x7CCA,(0x8C,0xD0)); (0x7CCE,(0x91,0x57)); (0x7CD2,(0xE2,0xF3)); (0x7CD6,(0x93,0x9C)); (0x7CD8,(0xE2,0xF2)); (0x7CDC,(0xE2,0xF4)); (0x7CDE,(0x95,0xB3)); (0x7CDF,(0x91,0x8C));
  (0x7CE0,(0x8D,0x66)); (0x7CE2,(0xE2,0xF5)); (0x7CE7,(0x97,0xC6)); (0x7CEF,(0xE2,0xF7)); (0x7CF2,(0xE2,0xF8)); (0x7CF4,(0xE2,0xF9)); (0x7CF6,(0xE2,0xFA)); (0x7CF8,(0x8E,0x85));
  (0x7CFA,(0xE2,0xFB)); (0x7CFB,(0x8C,0x6E)); (0x7CFE,(0x8B,0x8A)); (0x7D00,(0x8B,0x49)); (0x7D02,(0xE3,0x40)); (0x7D04,(0x96,0xF1)); (0x7D05,(0x8D,0x67)); (0x7D06,(0xE2,0xFC));
  (0x7D0A,(0xE3,0x43)); (0x7D0B,(0x96,0xE4)); (0x7D0D,(0x94,0x5B)); (0x7D10,(0x95,0x52)); (0x7D14,(0x8F,0x83)); (0x7D15,(0xE3,0x42)); (0x7D17,(0x8E,0xD1)); (0x7D18,(0x8D,0x68));
  (0x7D19,(0x8E,0x86)); (0x7D1A,(0x8B,0x89)); (0x7D1B,(0x95,0xB4)); (0x7D1C,(0xE3,0x41)); (0x7D20,(0x91,0x66)); (0x7D21,(0x96,0x61)); (0x7D22,(0x8D,0xF5)); (0x7D2B,(0x8E,0x87));
  (0x7D2C,(0x92,0xDB)); (0x7D2E,(0xE3,0x46)); (0x7D2F,(0x97,0xDD)); (0x7D30,(0x8D,0xD7)); (0x7D32,(0xE3,0x47)); (0x7D33,(0x90,0x61)); (0x7D35,(0xE3,0x49)); (0x7D39,(0x8F,0xD0));
  (0x7D3A,(0x8D,0xAE)); (0x7D3F,(0xE3,0x48)); (0x7D42,(0x8F,0x49)); (0x7D43,(0x8C,0xBC)); (0x7D44,(0x91,0x67)); (0x7D45,(0xE3,0x44)); (0x7D46,(0xE3,0x4A)); (0x7D48,(0xFB,0x8A));
  (0x7D4B,(0xE3,0x45)); (0x7D4C,(0x8C,0x6F)); (0x7D4E,(0xE3,0x4D)); (0x7D4F,(0xE3,0x51)); (0x7D50,(0x8C,0x8B)); (0x7D56,(0xE3,0x4C)); (0x7D5B,(0xE3,0x55)); (0x7D5C,(0xFB,0x8B));
  (0x7D5E,(0x8D,0x69)); (0x7D61,(0x97,0x8D)); (0x7D62,(0x88,0xBA)); (0x7D63,(0xE3,0x52)); (0x7D66,(0x8B,0x8B)); (0x7D68,(0xE3,0x4F)); (0x7D6E,(0xE3,0x50)); (0x7D71,(0x93,0x9D));
  (0x7D72,(0xE3,0x4E)); (0x7D73,(0xE3,0x4B)); (0x7D75,(0x8A,0x47)); (0x7D76,(0x90,0xE2)); (0x7D79,(0x8C,0xA6)); (0x7D7D,(0xE3,0x57)); (0x7D89,(0xE3,0x54)); (0x7D8F,(0xE3,0x56));
  (0x7D93,(0xE3,0x53)); (0x7D99,(0x8C,0x70)); (0x7D9A,(0x91,0xB1)); (0x7D9B,(0xE3,0x58)); (0x7D9C,(0x91,0x8E)); (0x7D9F,(0xE3,0x65)); (0x7DA0,(0xFB,0x8D)); (0x7DA2,(0xE3,0x61));
  (0x7DA3,(0xE3,0x5B)); (0x7DAB,(0xE3,0x5F)); (0x7DAC,(0x8E,0xF8)); (0x7DAD,(0x88,0xDB)); (0x7DAE,(0xE3,0x5A)); (0x7DAF,(0xE3,0x62)); (0x7DB0,(0xE3,0x66)); (0x7DB1,(0x8D,0x6A));
  (0x7DB2,(0x96,0xD4)); (0x7DB4,(0x92,0xD4)); (0x7DB5,(0xE3,0x5C)); (0x7DB7,(0xFB,0x8C)); (0x7DB8,(0xE3,0x64)); (0x7DBA,(0xE3,0x59)); (0x7DBB,(0x92,0x5D)); (0x7DBD,(0xE3,0x5E));
  (0x7DBE,(0x88,0xBB)); (0x7DBF,(0x96,0xC8)); (0x7DC7,(0xE3,0x5D)); (0x7DCA,(0x8B,0xD9)); (0x7DCB,(0x94,0xEA)); (0x7DCF,(0x91,0x8D)); (0x7DD1,(0x97,0xCE)); (0x7DD2,(0x8F,0x8F));
  (0x7DD5,(0xE3,0x8E)); (0x7DD6,(0xFB,0x8E)); (0x7DD8,(0xE3,0x67)); (0x7DDA,(0x90,0xFC)); (0x7DDC,(0xE3,0x63)); (0x7DDD,(0xE3,0x68)); (0x7DDE,(0xE3,0x6A)); (0x7DE0,(0x92,0xF7));
  (0x7DE1,(0xE3,0x6D)); (0x7DE4,(0xE3,0x69)); (0x7DE8,(0x95,0xD2)); (0x7DE9,(0x8A,0xC9)); (0x7DEC,(0x96,0xC9)); (0x7DEF,(0x88,0xDC)); (0x7DF2,(0xE3,0x6C)); (0x7DF4,(0x97,0xFB));
  (0x7DFB,(0xE3,0x6B)); (0x7E01,(0x89,0x8F)); (0x7E04,(0x93,0xEA)); (0x7E05,(0xE3,0x6E)); (0x7E09,(0xE3,0x75)); (0x7E0A,(0xE3,0x6F)); (0x7E0B,(0xE3,0x76)); (0x7E12,(0xE3,0x72));
  (0x7E1B,(0x94,0x9B)); (0x7E1E,(0x8E,0xC8)); (0x7E1F,(0xE3,0x74)); (0x7E21,(0xE3,0x71)); (0x7E22,(0xE3,0x77)); (0x7E23,(0xE3,0x70)); (0x7E26,(0x8F,0x63)); (0x7E2B,(0x96,0x44));
  (0x7E2E,(0x8F,0x6B)); (0x7E31,(0xE3,0x73)); (0x7E32,(0xE3,0x80)); (0x7E35,(0xE3,0x7B)); (0x7E37,(0xE3,0x7E)); (0x7E39,(0xE3,0x7C)); (0x7E3A,(0xE3,0x81)); (0x7E3B,(0xE3,0x7A));
  (0x7E3D,(0xE3,0x60)); (0x7E3E,(0x90,0xD1)); (0x7E41,(0x94,0xC9)); (0x7E43,(0xE3,0x7D)); (0x7E46,(0xE3,0x78)); (0x7E4A,(0x91,0x40)); (0x7E4B,(0x8C,0x71)); (0x7E4D,(0x8F,0x4A));
  (0x7E52,(0xFB,0x8F)); (0x7E54,(0x90,0x44)); (0x7E55,(0x91,0x55)); (0x7E56,(0xE3,0x84)); (0x7E59,(0xE3,0x86)); (0x7E5A,(0xE3,0x87)); (0x7E5D,(0xE3,0x83)); (0x7E5E,(0xE3,0x85));
  (0x7E66,(0xE3,0x79)); (0x7E67,(0xE3,0x82)); (0x7E69,(0xE3,0x8A)); (0x7E6A,(0xE3,0x89)); (0x7E6D,(0x96,0x9A)); (0x7E70,(0x8C,0x4A)); (0x7E79,(0xE3,0x88)); (0x7E7B,(0xE3,0x8C));
  (0x7E7C,(0xE3,0x8B)); (0x7E7D,(0xE3,0x8F)); (0x7E7F,(0xE3,0x91)); (0x7E82,(0x8E,0x5B)); (0x7E83,(0xE3,0x8D)); (0x7E88,(0xE3,0x92)); (0x7E89,(0xE3,0x93)); (0x7E8A,(0xFA,0x5C));
  (0x7E8C,(0xE3,0x94)); (0x7E8E,(0xE3,0x9A)); (0x7E8F,(0x93,0x5A)); (0x7E90,(0xE3,0x96)); (0x7E92,(0xE3,0x95)); (0x7E93,(0xE3,0x97)); (0x7E94,(0xE3,0x98)); (0x7E96,(0xE3,0x99));
  (0x7E9B,(0xE3,0x9B)); (0x7E9C,(0xE3,0x9C)); (0x7F36,(0x8A,0xCA)); (0x7F38,(0xE3,0x9D)); (0x7F3A,(0xE3,0x9E)); (0x7F45,(0xE3,0x9F)); (0x7F47,(0xFB,0x90)); (0x7F4C,(0xE3,0xA0));
  (0x7F4D,(0xE3,0xA1)); (0x7F4E,(0xE3,0xA2)); (0x7F50,(0xE3,0xA3)); (0x7F51,(0xE3,0xA4)); (0x7F54,(0xE3,0xA6)); (0x7F55,(0xE3,0xA5)); (0x7F58,(0xE3,0xA7)); (0x7F5F,(0xE3,0xA8));
  (0x7F60,(0xE3,0xA9)); (0x7F67,(0xE3,0xAC)); (0x7F68,(0xE3,0xAA)); (0x7F69,(0xE3,0xAB)); (0x7F6A,(0x8D,0xDF)); (0x7F6B,(0x8C,0x72)); (0x7F6E,(0x92,0x75)); (0x7F70,(0x94,0xB1));
  (0x7F72,(0x8F,0x90)); (0x7F75,(0x94,0x6C)); (0x7F77,(0x94,0xEB)); (0x7F78,(0xE3,0xAD)); (0x7F79,(0x9C,0xEB)); (0x7F82,(0xE3,0xAE)); (0x7F83,(0xE3,0xB0)); (0x7F85,(0x97,0x85))
].
(* src/generated/whatwg/shiftjis_whatwg_tables.rs.inc:1395-3838 ENCODE_TABLE, entries 4864..5119 *)
Definition sjis_encode_table_19 : list (N * (N * N)) := [
  (0x7F86,(0xE3,0xAF)); (0x7F87,(0xE3,0xB2)); (0x7F88,(0xE3,0xB1)); (0x7F8A,(0x97,0x72)); (0x7F8C,(0xE3,0xB3)); (0x7F8E,(0x94,0xFC)); (0x7F94,(0xE3,0xB4)); (0x7F9A,(0xE3,0xB7));
  (0x7F9D,(0xE3,0xB6)); (0x7F9E,(0xE3,0xB5)); (0x7FA1,(0xFB,0x91)); (0x7FA3,(0xE3,0xB8)); (0x7FA4,(0x8C,0x51)); (0x7FA8,(0x91,0x41)); (0x7FA9,(0x8B,0x60)); (0x7FAE,(0xE3,0xBC));
  (0x7FAF,(0xE3,0xB9)); (0x7FB2,(0xE3,0xBA)); (0x7FB6,(0xE3,0xBD)); (0x7FB8,(0xE3,0xBE)); (0x7FB9,(0xE3,0xBB)); (0x7FBD,(0x89,0x48)); (0x7FC1,(0x89,0xA5)); (0x7FC5,(0xE3,0xC0));
  (0x7FC6,(0xE3,0xC1)); (0x7FCA,(0xE3,0xC2)); (0x7FCC,(0x97,0x82)); (0x7FD2,(0x8F,0x4B)); (0x7FD4,(0xE3,0xC4)); (0x7FD5,(0xE3,0xC3)); (0x7FE0,(0x90,0x89)); (0x7FE1,(0xE3,0xC5));
  (0x7FE6,(0xE3,0xC6)); (0x7FE9,(0xE3,0xC7)); (0x7FEB,(0x8A,0xE3)); (0x7FF0,(0x8A,0xCB)); (0x7FF3,(0xE3,0xC8)); (0x7FF9,(0xE3,0xC9)); (0x7FFB,(0x96,0x7C)); (0x7FFC,(0x97,0x83));
  (0x8000,(0x97,0x73)); (0x8001,(0x98,0x56)); (0x8003,(0x8D,0x6C)); (0x8004,(0xE3,0xCC)); (0x8005,(0x8E,0xD2)); (0x8006,(0xE3,0xCB)); (0x800B,(0xE3,0xCD)); (0x800C,(0x8E,0xA7));
  (0x8010,(0x91,0xCF)); (0x8012,(0xE3,0xCE)); (0x8015,(0x8D,0x6B)); (0x8017,(0x96,0xD5)); (0x8018,(0xE3,0xCF)); (0x8019,(0xE3,0xD0)); (0x801C,(0xE3,0xD1)); (0x8021,(0xE3,0xD2));
  (0x8028,(0xE3,0xD3)); (0x8033,(0x8E,0xA8)); (0x8036,(0x96,0xEB)); (0x803B,(0xE3,0xD5)); (0x803D,(0x92,0x5E)); (0x803F,(0xE3,0xD4)); (0x8046,(0xE3,0xD7)); (0x804A,(0xE3,0xD6));
  (0x8052,(0xE3,0xD8)); (0x8056,(0x90,0xB9)); (0x8058,(0xE3,0xD9)); (0x805A,(0xE3,0xDA)); (0x805E,(0x95,0xB7)); (0x805F,(0xE3,0xDB)); (0x8061,(0x91,0x8F)); (0x8062,(0xE3,0xDC));
  (0x8068,(0xE3,0xDD)); (0x806F,(0x97,0xFC)); (0x8070,(0xE3,0xE0)); (0x8072,(0xE3,0xDF)); (0x8073,(0xE3,0xDE)); (0x8074,(0x92,0xAE)); (0x8076,(0xE3,0xE1)); (0x8077,(0x90,0x45));
  (0x8079,(0xE3,0xE2)); (0x807D,(0xE3,0xE3)); (0x807E,(0x98,0x57)); (0x807F,(0xE3,0xE4)); (0x8084,(0xE3,0xE5)); (0x8085,(0xE3,0xE7)); (0x8086,(0xE3,0xE6)); (0x8087,(0x94,0xA3));
  (0x8089,(0x93,0xF7)); (0x808B,(0x98,0x5D)); (0x808C,(0x94,0xA7)); (0x8093,(0xE3,0xE9)); (0x8096,(0x8F,0xD1)); (0x8098,(0x95,0x49)); (0x809A,(0xE3,0xEA)); (0x809B,(0xE3,0xE8));
  (0x809D,(0x8A,0xCC)); (0x80A1,(0x8C,0xD2)); (0x80A2,(0x8E,0x88)); (0x80A5,(0x94,0xEC)); (0x80A9,(0x8C,0xA8)); (0x80AA,(0x96,0x62)); (0x80AC,(0xE3,0xED)); (0x80AD,(0xE3,0xEB));
  (0x80AF,(0x8D,0x6D)); (0x80B1,(0x8D,0x6E)); (0x80B2,(0x88,0xE7)); (0x80B4,(0x8D,0xE6)); (0x80BA,(0x94,0x78)); (0x80C3,(0x88,0xDD)); (0x80C4,(0xE3,0xF2)); (0x80C6,(0x92,0x5F));
  (0x80CC,(0x94,0x77)); (0x80CE,(0x91,0xD9)); (0x80D6,(0xE3,0xF4)); (0x80D9,(0xE3,0xF0)); (0x80DA,(0xE3,0xF3)); (0x80DB,(0xE3,0xEE)); (0x80DD,(0xE3,0xF1)); (0x80DE,(0x96,0x45));
  (0x80E1,(0x8C,0xD3)); (0x80E4,(0x88,0xFB)); (0x80E5,(0xE3,0xEF)); (0x80EF,(0xE3,0xF6)); (0x80F1,(0xE3,0xF7)); (0x80F4,(0x93,0xB7)); (0x80F8,(0x8B,0xB9)); (0x80FC,(0xE4,0x45));
  (0x80FD,(0x94,0x5C)); (0x8102,(0x8E,0x89)); (0x8105,(0x8B,0xBA)); (0x8106,(0x90,0xC6)); (0x8107,(0x98,0x65)); (0x8108,(0x96,0xAC)); (0x8109,(0xE3,0xF5)); (0x810A,(0x90,0xD2));
  (0x811A,(0x8B,0x72)); (0x811B,(0xE3,0xF8)); (0x8123,(0xE3,0xFA)); (0x8129,(0xE3,0xF9)); (0x812F,(0xE3,0xFB)); (0x8131,(0x92,0x45)); (0x8133,(0x94,0x5D)); (0x8139,(0x92,0xAF));
  (0x813E,(0xE4,0x42)); (0x8146,(0xE4,0x41)); (0x814B,(0xE3,0xFC)); (0x814E,(0x90,0x74)); (0x8150,(0x95,0x85)); (0x8151,(0xE4,0x44)); (0x8153,(0xE4,0x43)); (0x8154,(0x8D,0x6F));
  (0x8155,(0x98,0x72)); (0x815F,(0xE4,0x54)); (0x8165,(0xE4,0x48)); (0x8166,(0xE4,0x49)); (0x816B,(0x8E,0xEE)); (0x816E,(0xE4,0x47)); (0x8170,(0x8D,0x98)); (0x8171,(0xE4,0x46));
  (0x8174,(0xE4,0x4A)); (0x8178,(0x92,0xB0)); (0x8179,(0x95,0xA0)); (0x817A,(0x91,0x42)); (0x817F,(0x91,0xDA)); (0x8180,(0xE4,0x4E)); (0x8182,(0xE4,0x4F)); (0x8183,(0xE4,0x4B));
  (0x8188,(0xE4,0x4C)); (0x818A,(0xE4,0x4D)); (0x818F,(0x8D,0x70)); (0x8193,(0xE4,0x55)); (0x8195,(0xE4,0x51)); (0x819A,(0x95,0x86)); (0x819C,(0x96,0x8C)); (0x819D,(0x95,0x47));
  (0x81A0,(0xE4,0x50)); (0x81A3,(0xE4,0x53)); (0x81A4,(0xE4,0x52)); (0x81A8,(0x96,0x63)); (0x81A9,(0xE4,0x56)); (0x81B0,(0xE4,0x57)); (0x81B3,(0x91,0x56)); (0x81B5,(0xE4,0x58));
  (0x81B8,(0xE4,0x5A)); (0x81BA,(0xE4,0x5E)); (0x81BD,(0xE4,0x5B)); (0x81BE,(0xE4,0x59)); (0x81BF,(0x94,0x5E)); (0x81C0,(0xE4,0x5C)); (0x81C2,(0xE4,0x5D)); (0x81C6,(0x89,0xB0));
  (0x81C8,(0xE4,0x64)); (0x81C9,(0xE4,0x5F)); (0x81CD,(0xE4,0x60)); (0x81D1,(0xE4,0x61)); (0x81D3,(0x91,0x9F)); (0x81D8,(0xE4,0x63)); (0x81D9,(0xE4,0x62)); (0x81DA,(0xE4,0x65));
  (0x81DF,(0xE4,0x66)); (0x81E0,(0xE4,0x67)); (0x81E3,(0x90,0x62)); (0x81E5,(0x89,0xE7)); (0x81E7,(0xE4,0x68)); (0x81E8,(0x97,0xD5)); (0x81EA,(0x8E,0xA9)); (0x81ED,(0x8F,0x4C));
  (0x81F3,(0x8E,0x8A)); (0x81F4,(0x92,0x76)); (0x81FA,(0xE4,0x69)); (0x81FB,(0xE4,0x6A)); (0x81FC,(0x89,0x50)); (0x81FE,(0xE4,0x6B)); (0x8201,(0xE4,0x6C)); (0x8202,(0xE4,0x6D));
  (0x8205,(0xE4,0x6E)); (0x8207,(0xE4,0x6F)); (0x8208,(0x8B,0xBB)); (0x8209,(0x9D,0xA8)); (0x820A,(0xE4,0x70)); (0x820C,(0x90,0xE3)); (0x820D,(0xE4,0x71)); (0x820E,(0x8E,0xC9));
  (0x8210,(0xE4,0x72)); (0x8212,(0x98,0xAE)); (0x8216,(0xE4,0x73)); (0x8217,(0x95,0xDC)); (0x8218,(0x8A,0xDA)); (0x821B,(0x91,0x43)); (0x821C,(0x8F,0x77)); (0x821E,(0x95,0x91));
  (0x821F,(0x8F,0x4D)); (0x8229,(0xE4,0x74)); (0x822A,(0x8D,0x71)); (0x822B,(0xE4,0x75)); (0x822C,(0x94,0xCA)); (0x822E,(0xE4,0x84)); (0x8233,(0xE4,0x77)); (0x8235,(0x91,0xC7));
  (0x8236,(0x94,0x95)); (0x8237,(0x8C,0xBD)); (0x8238,(0xE4,0x76)); (0x8239,(0x91,0x44)); (0x8240,(0xE4,0x78)); (0x8247,(0x92,0xF8)); (0x8258,(0xE4,0x7A)); (0x8259,(0xE4,0x79));
  (0x825A,(0xE4,0x7C)); (0x825D,(0xE4,0x7B)); (0x825F,(0xE4,0x7D)); (0x8262,(0xE4,0x80)); (0x8264,(0xE4,0x7E)); (0x8266,(0x8A,0xCD)); (0x8268,(0xE4,0x81)); (0x826A,(0xE4,0x82))
].
(* src/generated/whatwg/shiftjis_whatwg_tables.rs.inc:1395-3838 ENCODE_TABLE, entries 5120..5375 *)
Definition sjis_encode_table_20 : list (N * (N * N)) := [
  (0x826B,(0xE4,0x83)); (0x826E,(0x8D,0xAF)); (0x826F,(0x97,0xC7)); (0x8271,(0xE4,0x85)); (0x8272,(0x90,0x46)); (0x8276,(0x89,0x90)); (0x8277,(0xE4,0x86)); (0x8278,(0xE4,0x87));
  (0x827E,(0xE4,0x88)); (0x828B,(0x88,0xF0)); (0x828D,(0xE4,0x89)); (0x8292,(0xE4,0x8A)); (0x8299,(0x95,0x87)); (0x829D,(0x8E,0xC5)); (0x829F,(0xE4,0x8C)); (0x82A5,(0x8A,0x48));
  (0x82A6,(0x88,0xB0)); (0x82AB,(0xE4,0x8B)); (0x82AC,(0xE4,0x8E)); (0x82AD,(0x94,0x6D)); (0x82AF,(0x90,0x63)); (0x82B1,(0x89,0xD4)); (0x82B3,(0x96,0x46)); (0x82B8,(0x8C,0x7C));
  (0x82B9,(0x8B,0xDA)); (0x82BB,(0xE4,0x8D)); (0x82BD,(0x89,0xE8)); (0x82C5,(0x8A,0xA1)); (0x82D1,(0x89,0x91)); (0x82D2,(0xE4,0x92)); (0x82D3,(0x97,0xE8)); (0x82D4,(0x91,0xDB));
  (0x82D7,(0x95,0x63)); (0x82D9,(0xE4,0x9E)); (0x82DB,(0x89,0xD5)); (0x82DC,(0xE4,0x9C)); (0x82DE,(0xE4,0x9A)); (0x82DF,(0xE4,0x91)); (0x82E1,(0xE4,0x8F)); (0x82E3,(0xE4,0x90));
  (0x82E5,(0x8E,0xE1)); (0x82E6,(0x8B,0xEA)); (0x82E7,(0x92,0x97)); (0x82EB,(0x93,0xCF)); (0x82F1,(0x89,0x70)); (0x82F3,(0xE4,0x94)); (0x82F4,(0xE4,0x93)); (0x82F9,(0xE4,0x99));
  (0x82FA,(0xE4,0x95)); (0x82FB,(0xE4,0x98)); (0x8301,(0xFB,0x93)); (0x8302,(0x96,0xCE)); (0x8303,(0xE4,0x97)); (0x8304,(0x89,0xD6)); (0x8305,(0x8A,0x9D)); (0x8306,(0xE4,0x9B));
  (0x8309,(0xE4,0x9D)); (0x830E,(0x8C,0x73)); (0x8316,(0xE4,0xA1)); (0x8317,(0xE4,0xAA)); (0x8318,(0xE4,0xAB)); (0x831C,(0x88,0xA9)); (0x8323,(0xE4,0xB2)); (0x8328,(0x88,0xEF));
  (0x832B,(0xE4,0xA9)); (0x832F,(0xE4,0xA8)); (0x8331,(0xE4,0xA3)); (0x8332,(0xE4,0xA2)); (0x8334,(0xE4,0xA0)); (0x8335,(0xE4,0x9F)); (0x8336,(0x92,0x83)); (0x8338,(0x91,0xF9));
  (0x8339,(0xE4,0xA5)); (0x8340,(0xE4,0xA4)); (0x8345,(0xE4,0xA7)); (0x8349,(0x91,0x90)); (0x834A,(0x8C,0x74)); (0x834F,(0x89,0x60)); (0x8350,(0xE4,0xA6)); (0x8352,(0x8D,0x72));
  (0x8358,(0x91,0x91)); (0x8362,(0xFB,0x94)); (0x8373,(0xE4,0xB8)); (0x8375,(0xE4,0xB9)); (0x8377,(0x89,0xD7)); (0x837B,(0x89,0xAC)); (0x837C,(0xE4,0xB6)); (0x837F,(0xFB,0x95));
  (0x8385,(0xE4,0xAC)); (0x8387,(0xE4,0xB4)); (0x8389,(0xE4,0xBB)); (0x838A,(0xE4,0xB5)); (0x838E,(0xE4,0xB3)); (0x8393,(0xE4,0x96)); (0x8396,(0xE4,0xB1)); (0x839A,(0xE4,0xAD));
  (0x839E,(0x8A,0xCE)); (0x839F,(0xE4,0xAF)); (0x83A0,(0xE4,0xBA)); (0x83A2,(0xE4,0xB0)); (0x83A8,(0xE4,0xBC)); (0x83AA,(0xE4,0xAE)); (0x83AB,(0x94,0x9C)); (0x83B1,(0x97,0x89));
  (0x83B5,(0xE4,0xB7)); (0x83BD,(0xE4,0xCD)); (0x83C1,(0xE4,0xC5)); (0x83C5,(0x90,0x9B)); (0x83C7,(0xFB,0x96)); (0x83CA,(0x8B,0x65)); (0x83CC,(0x8B,0xDB)); (0x83CE,(0xE4,0xC0));
  (0x83D3,(0x89,0xD9)); (0x83D6,(0x8F,0xD2)); (0x83D8,(0xE4,0xC3)); (0x83DC,(0x8D,0xD8)); (0x83DF,(0x93,0x70)); (0x83E0,(0xE4,0xC8)); (0x83E9,(0x95,0xEC)); (0x83EB,(0xE4,0xBF));
  (0x83EF,(0x89,0xD8)); (0x83F0,(0x8C,0xD4)); (0x83F1,(0x95,0x48)); (0x83F2,(0xE4,0xC9)); (0x83F4,(0xE4,0xBD)); (0x83F6,(0xFB,0x97)); (0x83F7,(0xE4,0xC6)); (0x83FB,(0xE4,0xD0));
  (0x83FD,(0xE4,0xC1)); (0x8403,(0xE4,0xC2)); (0x8404,(0x93,0xB8)); (0x8407,(0xE4,0xC7)); (0x840B,(0xE4,0xC4)); (0x840C,(0x96,0x47)); (0x840D,(0xE4,0xCA)); (0x840E,(0x88,0xDE));
  (0x8413,(0xE4,0xBE)); (0x8420,(0xE4,0xCC)); (0x8422,(0xE4,0xCB)); (0x8429,(0x94,0x8B)); (0x842A,(0xE4,0xD2)); (0x842C,(0xE4,0xDD)); (0x8431,(0x8A,0x9E)); (0x8435,(0xE4,0xE0));
  (0x8438,(0xE4,0xCE)); (0x843C,(0xE4,0xD3)); (0x843D,(0x97,0x8E)); (0x8446,(0xE4,0xDC)); (0x8448,(0xFB,0x98)); (0x8449,(0x97,0x74)); (0x844E,(0x97,0xA8)); (0x8457,(0x92,0x98));
  (0x845B,(0x8A,0x8B)); (0x8461,(0x95,0x92)); (0x8462,(0xE4,0xE2)); (0x8463,(0x93,0x9F)); (0x8466,(0x88,0xAF)); (0x8469,(0xE4,0xDB)); (0x846B,(0xE4,0xD7)); (0x846C,(0x91,0x92));
  (0x846D,(0xE4,0xD1)); (0x846E,(0xE4,0xD9)); (0x846F,(0xE4,0xDE)); (0x8471,(0x94,0x4B)); (0x8475,(0x88,0xA8)); (0x8477,(0xE4,0xD6)); (0x8479,(0xE4,0xDF)); (0x847A,(0x95,0x98));
  (0x8482,(0xE4,0xDA)); (0x8484,(0xE4,0xD5)); (0x848B,(0x8F,0xD3)); (0x8490,(0x8F,0x4E)); (0x8494,(0x8E,0xAA)); (0x8499,(0x96,0xD6)); (0x849C,(0x95,0x66)); (0x849F,(0xE4,0xE5));
  (0x84A1,(0xE4,0xEE)); (0x84AD,(0xE4,0xD8)); (0x84B2,(0x8A,0x97)); (0x84B4,(0xFB,0x99)); (0x84B8,(0x8F,0xF6)); (0x84B9,(0xE4,0xE3)); (0x84BB,(0xE4,0xE8)); (0x84BC,(0x91,0x93));
  (0x84BF,(0xE4,0xE4)); (0x84C1,(0xE4,0xEB)); (0x84C4,(0x92,0x7E)); (0x84C6,(0xE4,0xEC)); (0x84C9,(0x97,0x75)); (0x84CA,(0xE4,0xE1)); (0x84CB,(0x8A,0x57)); (0x84CD,(0xE4,0xE7));
  (0x84D0,(0xE4,0xEA)); (0x84D1,(0x96,0xAA)); (0x84D6,(0xE4,0xED)); (0x84D9,(0xE4,0xE6)); (0x84DA,(0xE4,0xE9)); (0x84DC,(0xFA,0x60)); (0x84EC,(0x96,0x48)); (0x84EE,(0x98,0x40));
  (0x84F4,(0xE4,0xF1)); (0x84FC,(0xE4,0xF8)); (0x84FF,(0xE4,0xF0)); (0x8500,(0x8E,0xC1)); (0x8506,(0xE4,0xCF)); (0x8511,(0x95,0xCC)); (0x8513,(0x96,0xA0)); (0x8514,(0xE4,0xF7));
  (0x8515,(0xE4,0xF6)); (0x8517,(0xE4,0xF2)); (0x8518,(0xE4,0xF3)); (0x851A,(0x89,0x55)); (0x851F,(0xE4,0xF5)); (0x8521,(0xE4,0xEF)); (0x8526,(0x92,0xD3)); (0x852C,(0xE4,0xF4));
  (0x852D,(0x88,0xFC)); (0x8535,(0x91,0xA0)); (0x853D,(0x95,0xC1)); (0x8540,(0xE4,0xF9)); (0x8541,(0xE5,0x40)); (0x8543,(0x94,0xD7)); (0x8548,(0xE4,0xFC)); (0x8549,(0x8F,0xD4));
  (0x854A,(0x8E,0xC7)); (0x854B,(0xE5,0x42)); (0x854E,(0x8B,0xBC)); (0x8553,(0xFB,0x9A)); (0x8555,(0xE5,0x43)); (0x8557,(0x95,0x99)); (0x8558,(0xE4,0xFB)); (0x8559,(0xFB,0x9B));
  (0x855A,(0xE4,0xD4)); (0x8563,(0xE4,0xFA)); (0x8568,(0x98,0x6E)); (0x8569,(0x93,0xA0)); (0x856A,(0x95,0x93)); (0x856B,(0xFB,0x9C)); (0x856D,(0xE5,0x4A)); (0x8577,(0xE5,0x50));
  (0x857E,(0xE5,0x51)); (0x8580,(0xE5,0x44)); (0x8584,(0x94,0x96)); (0x8587,(0xE5,0x4E)); (0x8588,(0xE5,0x46)); (0x858A,(0xE5,0x48)); (0x8590,(0xE5,0x52)); (0x8591,(0xE5,0x47));
  (0x8594,(0xE5,0x4B)); (0x8597,(0x89,0x92)); (0x8599,(0x93,0xE3)); (0x859B,(0xE5,0x4C)); (0x859C,(0xE5,0x4F)); (0x85A4,(0xE5,0x45)); (0x85A6,(0x91,0x45)); (0x85A8,(0xE5,0x49))
].
(* src/generated/whatwg/shiftjis_whatwg_tables.rs.inc:1395-3838 ENCODE_TABLE, entries 5376..5631 *)
Definition sjis_encode_table_21 : list (N * (N * N)) := [
  (0x85A9,(0x8E,0x46)); (0x85AA,(0x90,0x64)); (0x85AB,(0x8C,0x4F)); (0x85AC,(0x96,0xF2)); (0x85AE,(0x96,0xF7)); (0x85AF,(0x8F,0x92)); (0x85B0,(0xFB,0x9E)); (0x85B9,(0xE5,0x56));
  (0x85BA,(0xE5,0x54)); (0x85C1,(0x98,0x6D)); (0x85C9,(0xE5,0x53)); (0x85CD,(0x97,0x95)); (0x85CF,(0xE5,0x55)); (0x85D0,(0xE5,0x57)); (0x85D5,(0xE5,0x58)); (0x85DC,(0xE5,0x5B));
  (0x85DD,(0xE5,0x59)); (0x85E4,(0x93,0xA1)); (0x85E5,(0xE5,0x5A)); (0x85E9,(0x94,0xCB)); (0x85EA,(0xE5,0x4D)); (0x85F7,(0x8F,0x93)); (0x85F9,(0xE5,0x5C)); (0x85FA,(0xE5,0x61));
  (0x85FB,(0x91,0x94)); (0x85FE,(0xE5,0x60)); (0x8602,(0xE5,0x41)); (0x8606,(0xE5,0x62)); (0x8607,(0x91,0x68)); (0x860A,(0xE5,0x5D)); (0x860B,(0xE5,0x5F)); (0x8613,(0xE5,0x5E));
  (0x8616,(0x9F,0x50)); (0x8617,(0x9F,0x41)); (0x861A,(0xE5,0x64)); (0x8622,(0xE5,0x63)); (0x862D,(0x97,0x96)); (0x862F,(0xE1,0xBA)); (0x8630,(0xE5,0x65)); (0x863F,(0xE5,0x66));
  (0x864D,(0xE5,0x67)); (0x864E,(0x8C,0xD5)); (0x8650,(0x8B,0x73)); (0x8654,(0xE5,0x69)); (0x8655,(0x99,0x7C)); (0x865A,(0x8B,0x95)); (0x865C,(0x97,0xB8)); (0x865E,(0x8B,0xF1));
  (0x865F,(0xE5,0x6A)); (0x8667,(0xE5,0x6B)); (0x866B,(0x92,0x8E)); (0x8671,(0xE5,0x6C)); (0x8679,(0x93,0xF8)); (0x867B,(0x88,0xB8)); (0x868A,(0x89,0xE1)); (0x868B,(0xE5,0x71));
  (0x868C,(0xE5,0x72)); (0x8693,(0xE5,0x6D)); (0x8695,(0x8E,0x5C)); (0x86A3,(0xE5,0x6E)); (0x86A4,(0x94,0x61)); (0x86A9,(0xE5,0x6F)); (0x86AA,(0xE5,0x70)); (0x86AB,(0xE5,0x7A));
  (0x86AF,(0xE5,0x74)); (0x86B0,(0xE5,0x77)); (0x86B6,(0xE5,0x73)); (0x86C4,(0xE5,0x75)); (0x86C6,(0xE5,0x76)); (0x86C7,(0x8E,0xD6)); (0x86C9,(0xE5,0x78)); (0x86CB,(0x92,0x60));
  (0x86CD,(0x8C,0x75)); (0x86CE,(0x8A,0x61)); (0x86D4,(0xE5,0x7B)); (0x86D9,(0x8A,0x5E)); (0x86DB,(0xE5,0x81)); (0x86DE,(0xE5,0x7C)); (0x86DF,(0xE5,0x80)); (0x86E4,(0x94,0xB8));
  (0x86E9,(0xE5,0x7D)); (0x86EC,(0xE5,0x7E)); (0x86ED,(0x95,0x67)); (0x86EE,(0x94,0xD8)); (0x86EF,(0xE5,0x82)); (0x86F8,(0x91,0xFB)); (0x86F9,(0xE5,0x8C)); (0x86FB,(0xE5,0x88));
  (0x86FE,(0x89,0xE9)); (0x8700,(0xE5,0x86)); (0x8702,(0x96,0x49)); (0x8703,(0xE5,0x87)); (0x8706,(0xE5,0x84)); (0x8708,(0xE5,0x85)); (0x8709,(0xE5,0x8A)); (0x870A,(0xE5,0x8D));
  (0x870D,(0xE5,0x8B)); (0x8711,(0xE5,0x89)); (0x8712,(0xE5,0x83)); (0x8718,(0x92,0x77)); (0x871A,(0xE5,0x94)); (0x871C,(0x96,0xA8)); (0x8725,(0xE5,0x92)); (0x8729,(0xE5,0x93));
  (0x8734,(0xE5,0x8E)); (0x8737,(0xE5,0x90)); (0x873B,(0xE5,0x91)); (0x873F,(0xE5,0x8F)); (0x8749,(0x90,0xE4)); (0x874B,(0x98,0x58)); (0x874C,(0xE5,0x98)); (0x874E,(0xE5,0x99));
  (0x8753,(0xE5,0x9F)); (0x8755,(0x90,0x49)); (0x8757,(0xE5,0x9B)); (0x8759,(0xE5,0x9E)); (0x875F,(0xE5,0x96)); (0x8760,(0xE5,0x95)); (0x8763,(0xE5,0xA0)); (0x8766,(0x89,0xDA));
  (0x8768,(0xE5,0x9C)); (0x876A,(0xE5,0xA1)); (0x876E,(0xE5,0x9D)); (0x8774,(0xE5,0x9A)); (0x8776,(0x92,0xB1)); (0x8778,(0xE5,0x97)); (0x877F,(0x94,0x88)); (0x8782,(0xE5,0xA5));
  (0x878D,(0x97,0x5A)); (0x879F,(0xE5,0xA4)); (0x87A2,(0xE5,0xA3)); (0x87AB,(0xE5,0xAC)); (0x87AF,(0xE5,0xA6)); (0x87B3,(0xE5,0xAE)); (0x87BA,(0x97,0x86)); (0x87BB,(0xE5,0xB1));
  (0x87BD,(0xE5,0xA8)); (0x87C0,(0xE5,0xA9)); (0x87C4,(0xE5,0xAD)); (0x87C6,(0xE5,0xB0)); (0x87C7,(0xE5,0xAF)); (0x87CB,(0xE5,0xA7)); (0x87D0,(0xE5,0xAA)); (0x87D2,(0xE5,0xBB));
  (0x87E0,(0xE5,0xB4)); (0x87EF,(0xE5,0xB2)); (0x87F2,(0xE5,0xB3)); (0x87F6,(0xE5,0xB8)); (0x87F7,(0xE5,0xB9)); (0x87F9,(0x8A,0x49)); (0x87FB,(0x8B,0x61)); (0x87FE,(0xE5,0xB7));
  (0x8805,(0xE5,0xA2)); (0x8807,(0xFB,0xA1)); (0x880D,(0xE5,0xB6)); (0x880E,(0xE5,0xBA)); (0x880F,(0xE5,0xB5)); (0x8811,(0xE5,0xBC)); (0x8815,(0xE5,0xBE)); (0x8816,(0xE5,0xBD));
  (0x8821,(0xE5,0xC0)); (0x8822,(0xE5,0xBF)); (0x8823,(0xE5,0x79)); (0x8827,(0xE5,0xC4)); (0x8831,(0xE5,0xC1)); (0x8836,(0xE5,0xC2)); (0x8839,(0xE5,0xC3)); (0x883B,(0xE5,0xC5));
  (0x8840,(0x8C,0x8C)); (0x8842,(0xE5,0xC7)); (0x8844,(0xE5,0xC6)); (0x8846,(0x8F,0x4F)); (0x884C,(0x8D,0x73)); (0x884D,(0x9F,0xA5)); (0x8852,(0xE5,0xC8)); (0x8853,(0x8F,0x70));
  (0x8857,(0x8A,0x58)); (0x8859,(0xE5,0xC9)); (0x885B,(0x89,0x71)); (0x885D,(0x8F,0xD5)); (0x885E,(0xE5,0xCA)); (0x8861,(0x8D,0x74)); (0x8862,(0xE5,0xCB)); (0x8863,(0x88,0xDF));
  (0x8868,(0x95,0x5C)); (0x886B,(0xE5,0xCC)); (0x8870,(0x90,0x8A)); (0x8872,(0xE5,0xD3)); (0x8875,(0xE5,0xD0)); (0x8877,(0x92,0x8F)); (0x887D,(0xE5,0xD1)); (0x887E,(0xE5,0xCE));
  (0x887F,(0x8B,0xDC)); (0x8881,(0xE5,0xCD)); (0x8882,(0xE5,0xD4)); (0x8888,(0x8C,0x55)); (0x888B,(0x91,0xDC)); (0x888D,(0xE5,0xDA)); (0x8892,(0xE5,0xD6)); (0x8896,(0x91,0xB3));
  (0x8897,(0xE5,0xD5)); (0x8899,(0xE5,0xD8)); (0x889E,(0xE5,0xCF)); (0x88A2,(0xE5,0xD9)); (0x88A4,(0xE5,0xDB)); (0x88AB,(0x94,0xED)); (0x88AE,(0xE5,0xD7)); (0x88B0,(0xE5,0xDC));
  (0x88B1,(0xE5,0xDE)); (0x88B4,(0x8C,0xD1)); (0x88B5,(0xE5,0xD2)); (0x88B7,(0x88,0xBF)); (0x88BF,(0xE5,0xDD)); (0x88C1,(0x8D,0xD9)); (0x88C2,(0x97,0xF4)); (0x88C3,(0xE5,0xDF));
  (0x88C4,(0xE5,0xE0)); (0x88C5,(0x91,0x95)); (0x88CF,(0x97,0xA0)); (0x88D4,(0xE5,0xE1)); (0x88D5,(0x97,0x54)); (0x88D8,(0xE5,0xE2)); (0x88D9,(0xE5,0xE3)); (0x88DC,(0x95,0xE2));
  (0x88DD,(0xE5,0xE4)); (0x88DF,(0x8D,0xBE)); (0x88E1,(0x97,0xA1)); (0x88E8,(0xE5,0xE9)); (0x88F2,(0xE5,0xEA)); (0x88F3,(0x8F,0xD6)); (0x88F4,(0xE5,0xE8)); (0x88F5,(0xFB,0xA2));
  (0x88F8,(0x97,0x87)); (0x88F9,(0xE5,0xE5)); (0x88FC,(0xE5,0xE7)); (0x88FD,(0x90,0xBB)); (0x88FE,(0x90,0x9E)); (0x8902,(0xE5,0xE6)); (0x8904,(0xE5,0xEB)); (0x8907,(0x95,0xA1));
  (0x890A,(0xE5,0xED)); (0x890C,(0xE5,0xEC)); (0x8910,(0x8A,0x8C)); (0x8912,(0x96,0x4A)); (0x8913,(0xE5,0xEE)); (0x891C,(0xFA,0x5D)); (0x891D,(0xE5,0xFA)); (0x891E,(0xE5,0xF0));
  (0x8925,(0xE5,0xF1)); (0x892A,(0xE5,0xF2)); (0x892B,(0xE5,0xF3)); (0x8936,(0xE5,0xF7)); (0x8938,(0xE5,0xF8)); (0x893B,(0xE5,0xF6)); (0x8941,(0xE5,0xF4)); (0x8943,(0xE5,0xEF))
].
(* src/generated/whatwg/shiftjis_whatwg_tables.rs.inc:1395-3838 ENCODE_TABLE, entries 5632..5887 *)
Definition sjis_encode_table_22 : list (N * (N * N)) := [
  (0x8944,(0xE5,0xF5)); (0x894C,(0xE5,0xF9)); (0x894D,(0xE8,0xB5)); (0x8956,(0x89,0xA6)); (0x895E,(0xE5,0xFC)); (0x895F,(0x8B,0xDD)); (0x8960,(0xE5,0xFB)); (0x8964,(0xE6,0x41));
  (0x8966,(0xE6,0x40)); (0x896A,(0xE6,0x43)); (0x896D,(0xE6,0x42)); (0x896F,(0xE6,0x44)); (0x8972,(0x8F,0x50)); (0x8974,(0xE6,0x45)); (0x8977,(0xE6,0x46)); (0x897E,(0xE6,0x47));
  (0x897F,(0x90,0xBC)); (0x8981,(0x97,0x76)); (0x8983,(0xE6,0x48)); (0x8986,(0x95,0xA2)); (0x8987,(0x94,0x65)); (0x8988,(0xE6,0x49)); (0x898A,(0xE6,0x4A)); (0x898B,(0x8C,0xA9));
  (0x898F,(0x8B,0x4B)); (0x8993,(0xE6,0x4B)); (0x8996,(0x8E,0x8B)); (0x8997,(0x94,0x60)); (0x8998,(0xE6,0x4C)); (0x899A,(0x8A,0x6F)); (0x89A1,(0xE6,0x4D)); (0x89A6,(0xE6,0x4F));
  (0x89A7,(0x97,0x97)); (0x89A9,(0xE6,0x4E)); (0x89AA,(0x90,0x65)); (0x89AC,(0xE6,0x50)); (0x89AF,(0xE6,0x51)); (0x89B2,(0xE6,0x52)); (0x89B3,(0x8A,0xCF)); (0x89BA,(0xE6,0x53));
  (0x89BD,(0xE6,0x54)); (0x89BF,(0xE6,0x55)); (0x89C0,(0xE6,0x56)); (0x89D2,(0x8A,0x70)); (0x89DA,(0xE6,0x57)); (0x89DC,(0xE6,0x58)); (0x89DD,(0xE6,0x59)); (0x89E3,(0x89,0xF0));
  (0x89E6,(0x90,0x47)); (0x89E7,(0xE6,0x5A)); (0x89F4,(0xE6,0x5B)); (0x89F8,(0xE6,0x5C)); (0x8A00,(0x8C,0xBE)); (0x8A02,(0x92,0xF9)); (0x8A03,(0xE6,0x5D)); (0x8A08,(0x8C,0x76));
  (0x8A0A,(0x90,0x75)); (0x8A0C,(0xE6,0x60)); (0x8A0E,(0x93,0xA2)); (0x8A10,(0xE6,0x5F)); (0x8A12,(0xFB,0xA3)); (0x8A13,(0x8C,0x50)); (0x8A16,(0xE6,0x5E)); (0x8A17,(0x91,0xF5));
  (0x8A18,(0x8B,0x4C)); (0x8A1B,(0xE6,0x61)); (0x8A1D,(0xE6,0x62)); (0x8A1F,(0x8F,0xD7)); (0x8A23,(0x8C,0x8D)); (0x8A25,(0xE6,0x63)); (0x8A2A,(0x96,0x4B)); (0x8A2D,(0x90,0xDD));
  (0x8A31,(0x8B,0x96)); (0x8A33,(0x96,0xF3)); (0x8A34,(0x91,0x69)); (0x8A36,(0xE6,0x64)); (0x8A37,(0xFB,0xA4)); (0x8A3A,(0x90,0x66)); (0x8A3B,(0x92,0x90)); (0x8A3C,(0x8F,0xD8));
  (0x8A41,(0xE6,0x65)); (0x8A46,(0xE6,0x68)); (0x8A48,(0xE6,0x69)); (0x8A50,(0x8D,0xBC)); (0x8A51,(0x91,0xC0)); (0x8A52,(0xE6,0x67)); (0x8A54,(0x8F,0xD9)); (0x8A55,(0x95,0x5D));
  (0x8A5B,(0xE6,0x66)); (0x8A5E,(0x8E,0x8C)); (0x8A60,(0x89,0x72)); (0x8A62,(0xE6,0x6D)); (0x8A63,(0x8C,0x77)); (0x8A66,(0x8E,0x8E)); (0x8A69,(0x8E,0x8D)); (0x8A6B,(0x98,0x6C));
  (0x8A6C,(0xE6,0x6C)); (0x8A6D,(0xE6,0x6B)); (0x8A6E,(0x91,0x46)); (0x8A70,(0x8B,0x6C)); (0x8A71,(0x98,0x62)); (0x8A72,(0x8A,0x59)); (0x8A73,(0x8F,0xDA)); (0x8A79,(0xFB,0xA5));
  (0x8A7C,(0xE6,0x6A)); (0x8A82,(0xE6,0x6F)); (0x8A84,(0xE6,0x70)); (0x8A85,(0xE6,0x6E)); (0x8A87,(0x8C,0xD6)); (0x8A89,(0x97,0x5F)); (0x8A8C,(0x8E,0x8F)); (0x8A8D,(0x94,0x46));
  (0x8A91,(0xE6,0x73)); (0x8A93,(0x90,0xBE)); (0x8A95,(0x92,0x61)); (0x8A98,(0x97,0x55)); (0x8A9A,(0xE6,0x76)); (0x8A9E,(0x8C,0xEA)); (0x8AA0,(0x90,0xBD)); (0x8AA1,(0xE6,0x72));
  (0x8AA3,(0xE6,0x77)); (0x8AA4,(0x8C,0xEB)); (0x8AA5,(0xE6,0x74)); (0x8AA6,(0xE6,0x75)); (0x8AA7,(0xFB,0xA6)); (0x8AA8,(0xE6,0x71)); (0x8AAC,(0x90,0xE0)); (0x8AAD,(0x93,0xC7));
  (0x8AB0,(0x92,0x4E)); (0x8AB2,(0x89,0xDB)); (0x8AB9,(0x94,0xEE)); (0x8ABC,(0x8B,0x62)); (0x8ABE,(0xFB,0xA7)); (0x8ABF,(0x92,0xB2)); (0x8AC2,(0xE6,0x7A)); (0x8AC4,(0xE6,0x78));
  (0x8AC7,(0x92,0x6B)); (0x8ACB,(0x90,0xBF)); (0x8ACC,(0x8A,0xD0)); (0x8ACD,(0xE6,0x79)); (0x8ACF,(0x90,0x7A)); (0x8AD2,(0x97,0xC8)); (0x8AD6,(0x98,0x5F)); (0x8ADA,(0xE6,0x7B));
  (0x8ADB,(0xE6,0x87)); (0x8ADC,(0x92,0xB3)); (0x8ADE,(0xE6,0x86)); (0x8ADF,(0xFB,0xA8)); (0x8AE0,(0xE6,0x83)); (0x8AE1,(0xE6,0x8B)); (0x8AE2,(0xE6,0x84)); (0x8AE4,(0xE6,0x80));
  (0x8AE6,(0x92,0xFA)); (0x8AE7,(0xE6,0x7E)); (0x8AEB,(0xE6,0x7C)); (0x8AED,(0x97,0x40)); (0x8AEE,(0x8E,0x90)); (0x8AF1,(0xE6,0x81)); (0x8AF3,(0xE6,0x7D)); (0x8AF6,(0xFB,0xAA));
  (0x8AF7,(0xE6,0x85)); (0x8AF8,(0x8F,0x94)); (0x8AFA,(0x8C,0xBF)); (0x8AFE,(0x91,0xF8)); (0x8B00,(0x96,0x64)); (0x8B01,(0x89,0x79)); (0x8B02,(0x88,0xE0)); (0x8B04,(0x93,0xA3));
  (0x8B07,(0xE6,0x89)); (0x8B0C,(0xE6,0x88)); (0x8B0E,(0x93,0xE4)); (0x8B10,(0xE6,0x8D)); (0x8B14,(0xE6,0x82)); (0x8B16,(0xE6,0x8C)); (0x8B17,(0xE6,0x8E)); (0x8B19,(0x8C,0xAA));
  (0x8B1A,(0xE6,0x8A)); (0x8B1B,(0x8D,0x75)); (0x8B1D,(0x8E,0xD3)); (0x8B20,(0xE6,0x8F)); (0x8B21,(0x97,0x77)); (0x8B26,(0xE6,0x92)); (0x8B28,(0xE6,0x95)); (0x8B2B,(0xE6,0x93));
  (0x8B2C,(0x95,0x54)); (0x8B33,(0xE6,0x90)); (0x8B39,(0x8B,0xDE)); (0x8B3E,(0xE6,0x94)); (0x8B41,(0xE6,0x96)); (0x8B49,(0xE6,0x9A)); (0x8B4C,(0xE6,0x97)); (0x8B4E,(0xE6,0x99));
  (0x8B4F,(0xE6,0x98)); (0x8B53,(0xFB,0xAB)); (0x8B56,(0xE6,0x9B)); (0x8B58,(0x8E,0xAF)); (0x8B5A,(0xE6,0x9D)); (0x8B5B,(0xE6,0x9C)); (0x8B5C,(0x95,0x88)); (0x8B5F,(0xE6,0x9F));
  (0x8B66,(0x8C,0x78)); (0x8B6B,(0xE6,0x9E)); (0x8B6C,(0xE6,0xA0)); (0x8B6F,(0xE6,0xA1)); (0x8B70,(0x8B,0x63)); (0x8B71,(0xE3,0xBF)); (0x8B72,(0x8F,0xF7)); (0x8B74,(0xE6,0xA2));
  (0x8B77,(0x8C,0xEC)); (0x8B7D,(0xE6,0xA3)); (0x8B7F,(0xFB,0xAC)); (0x8B80,(0xE6,0xA4)); (0x8B83,(0x8E,0x5D)); (0x8B8A,(0x9D,0xCC)); (0x8B8C,(0xE6,0xA5)); (0x8B8E,(0xE6,0xA6));
  (0x8B90,(0x8F,0x51)); (0x8B92,(0xE6,0xA7)); (0x8B93,(0xE6,0xA8)); (0x8B96,(0xE6,0xA9)); (0x8B99,(0xE6,0xAA)); (0x8B9A,(0xE6,0xAB)); (0x8C37,(0x92,0x4A)); (0x8C3A,(0xE6,0xAC));
  (0x8C3F,(0xE6,0xAE)); (0x8C41,(0xE6,0xAD)); (0x8C46,(0x93,0xA4)); (0x8C48,(0xE6,0xAF)); (0x8C4A,(0x96,0x4C)); (0x8C4C,(0xE6,0xB0)); (0x8C4E,(0xE6,0xB1)); (0x8C50,(0xE6,0xB2));
  (0x8C55,(0xE6,0xB3)); (0x8C5A,(0x93,0xD8)); (0x8C61,(0x8F,0xDB)); (0x8C62,(0xE6,0xB4)); (0x8C6A,(0x8D,0x8B)); (0x8C6B,(0x98,0xAC)); (0x8C6C,(0xE6,0xB5)); (0x8C78,(0xE6,0xB6));
  (0x8C79,(0x95,0x5E)); (0x8C7A,(0xE6,0xB7)); (0x8C7C,(0xE6,0xBF)); (0x8C82,(0xE6,0xB8)); (0x8C85,(0xE6,0xBA)); (0x8C89,(0xE6,0xB9)); (0x8C8A,(0xE6,0xBB)); (0x8C8C,(0x96,0x65));
  (0x8C8D,(0xE6,0xBC)); (0x8C8E,(0xE6,0xBD)); (0x8C94,(0xE6,0xBE)); (0x8C98,(0xE6,0xC0)); (0x8C9D,(0x8A,0x4C)); (0x8C9E,(0x92,0xE5)); (0x8CA0,(0x95,0x89)); (0x8CA1,(0x8D,0xE0))
].
(* src/generated/whatwg/shiftjis_whatwg_tables.rs.inc:1395-3838 ENCODE_TABLE, entries 5888..6143 *)
Definition sjis_encode_table_23 : list (N * (N * N)) := [
  (0x8CA2,(0x8D,0x76)); (0x8CA7,(0x95,0x6E)); (0x8CA8,(0x89,0xDD)); (0x8CA9,(0x94,0xCC)); (0x8CAA,(0xE6,0xC3)); (0x8CAB,(0x8A,0xD1)); (0x8CAC,(0x90,0xD3)); (0x8CAD,(0xE6,0xC2));
  (0x8CAE,(0xE6,0xC7)); (0x8CAF,(0x92,0x99)); (0x8CB0,(0x96,0xE1)); (0x8CB2,(0xE6,0xC5)); (0x8CB3,(0xE6,0xC6)); (0x8CB4,(0x8B,0x4D)); (0x8CB6,(0xE6,0xC8)); (0x8CB7,(0x94,0x83));
  (0x8CB8,(0x91,0xDD)); (0x8CBB,(0x94,0xEF)); (0x8CBC,(0x93,0x5C)); (0x8CBD,(0xE6,0xC4)); (0x8CBF,(0x96,0x66)); (0x8CC0,(0x89,0xEA)); (0x8CC1,(0xE6,0xCA)); (0x8CC2,(0x98,0x47));
  (0x8CC3,(0x92,0xC0)); (0x8CC4,(0x98,0x64)); (0x8CC7,(0x8E,0x91)); (0x8CC8,(0xE6,0xC9)); (0x8CCA,(0x91,0xAF)); (0x8CCD,(0xE6,0xDA)); (0x8CCE,(0x91,0x47)); (0x8CD1,(0x93,0xF6));
  (0x8CD3,(0x95,0x6F)); (0x8CDA,(0xE6,0xCD)); (0x8CDB,(0x8E,0x5E)); (0x8CDC,(0x8E,0x92)); (0x8CDE,(0x8F,0xDC)); (0x8CE0,(0x94,0x85)); (0x8CE2,(0x8C,0xAB)); (0x8CE3,(0xE6,0xCC));
  (0x8CE4,(0xE6,0xCB)); (0x8CE6,(0x95,0x8A)); (0x8CEA,(0x8E,0xBF)); (0x8CED,(0x93,0x71)); (0x8CF0,(0xFB,0xAD)); (0x8CF4,(0xFB,0xAE)); (0x8CFA,(0xE6,0xCF)); (0x8CFB,(0xE6,0xD0));
  (0x8CFC,(0x8D,0x77)); (0x8CFD,(0xE6,0xCE)); (0x8D04,(0xE6,0xD1)); (0x8D05,(0xE6,0xD2)); (0x8D07,(0xE6,0xD4)); (0x8D08,(0x91,0xA1)); (0x8D0A,(0xE6,0xD3)); (0x8D0B,(0x8A,0xE4));
  (0x8D0D,(0xE6,0xD6)); (0x8D0F,(0xE6,0xD5)); (0x8D10,(0xE6,0xD7)); (0x8D12,(0xFB,0xAF)); (0x8D13,(0xE6,0xD9)); (0x8D14,(0xE6,0xDB)); (0x8D16,(0xE6,0xDC)); (0x8D64,(0x90,0xD4));
  (0x8D66,(0x8E,0xCD)); (0x8D67,(0xE6,0xDD)); (0x8D6B,(0x8A,0x71)); (0x8D6D,(0xE6,0xDE)); (0x8D70,(0x91,0x96)); (0x8D71,(0xE6,0xDF)); (0x8D73,(0xE6,0xE0)); (0x8D74,(0x95,0x8B));
  (0x8D76,(0xFB,0xB0)); (0x8D77,(0x8B,0x4E)); (0x8D81,(0xE6,0xE1)); (0x8D85,(0x92,0xB4)); (0x8D8A,(0x89,0x7A)); (0x8D99,(0xE6,0xE2)); (0x8DA3,(0x8E,0xEF)); (0x8DA8,(0x90,0x96));
  (0x8DB3,(0x91,0xAB)); (0x8DBA,(0xE6,0xE5)); (0x8DBE,(0xE6,0xE4)); (0x8DC2,(0xE6,0xE3)); (0x8DCB,(0xE6,0xEB)); (0x8DCC,(0xE6,0xE9)); (0x8DCF,(0xE6,0xE6)); (0x8DD6,(0xE6,0xE8));
  (0x8DDA,(0xE6,0xE7)); (0x8DDB,(0xE6,0xEA)); (0x8DDD,(0x8B,0x97)); (0x8DDF,(0xE6,0xEE)); (0x8DE1,(0x90,0xD5)); (0x8DE3,(0xE6,0xEF)); (0x8DE8,(0x8C,0xD7)); (0x8DEA,(0xE6,0xEC));
  (0x8DEB,(0xE6,0xED)); (0x8DEF,(0x98,0x48)); (0x8DF3,(0x92,0xB5)); (0x8DF5,(0x91,0x48)); (0x8DFC,(0xE6,0xF0)); (0x8DFF,(0xE6,0xF3)); (0x8E08,(0xE6,0xF1)); (0x8E09,(0xE6,0xF2));
  (0x8E0A,(0x97,0x78)); (0x8E0F,(0x93,0xA5)); (0x8E10,(0xE6,0xF6)); (0x8E1D,(0xE6,0xF4)); (0x8E1E,(0xE6,0xF5)); (0x8E1F,(0xE6,0xF7)); (0x8E2A,(0xE7,0x48)); (0x8E30,(0xE6,0xFA));
  (0x8E34,(0xE6,0xFB)); (0x8E35,(0xE6,0xF9)); (0x8E42,(0xE6,0xF8)); (0x8E44,(0x92,0xFB)); (0x8E47,(0xE7,0x40)); (0x8E48,(0xE7,0x44)); (0x8E49,(0xE7,0x41)); (0x8E4A,(0xE6,0xFC));
  (0x8E4C,(0xE7,0x42)); (0x8E50,(0xE7,0x43)); (0x8E55,(0xE7,0x4A)); (0x8E59,(0xE7,0x45)); (0x8E5F,(0x90,0xD6)); (0x8E60,(0xE7,0x47)); (0x8E63,(0xE7,0x49)); (0x8E64,(0xE7,0x46));
  (0x8E72,(0xE7,0x4C)); (0x8E74,(0x8F,0x52)); (0x8E76,(0xE7,0x4B)); (0x8E7C,(0xE7,0x4D)); (0x8E81,(0xE7,0x4E)); (0x8E84,(0xE7,0x51)); (0x8E85,(0xE7,0x50)); (0x8E87,(0xE7,0x4F));
  (0x8E8A,(0xE7,0x53)); (0x8E8B,(0xE7,0x52)); (0x8E8D,(0x96,0xF4)); (0x8E91,(0xE7,0x55)); (0x8E93,(0xE7,0x54)); (0x8E94,(0xE7,0x56)); (0x8E99,(0xE7,0x57)); (0x8EA1,(0xE7,0x59));
  (0x8EAA,(0xE7,0x58)); (0x8EAB,(0x90,0x67)); (0x8EAC,(0xE7,0x5A)); (0x8EAF,(0x8B,0xEB)); (0x8EB0,(0xE7,0x5B)); (0x8EB1,(0xE7,0x5D)); (0x8EBE,(0xE7,0x5E)); (0x8EC5,(0xE7,0x5F));
  (0x8EC6,(0xE7,0x5C)); (0x8EC8,(0xE7,0x60)); (0x8ECA,(0x8E,0xD4)); (0x8ECB,(0xE7,0x61)); (0x8ECC,(0x8B,0x4F)); (0x8ECD,(0x8C,0x52)); (0x8ECF,(0xFB,0xB2)); (0x8ED2,(0x8C,0xAC));
  (0x8EDB,(0xE7,0x62)); (0x8EDF,(0x93,0xEE)); (0x8EE2,(0x93,0x5D)); (0x8EE3,(0xE7,0x63)); (0x8EEB,(0xE7,0x66)); (0x8EF8,(0x8E,0xB2)); (0x8EFB,(0xE7,0x65)); (0x8EFC,(0xE7,0x64));
  (0x8EFD,(0x8C,0x79)); (0x8EFE,(0xE7,0x67)); (0x8F03,(0x8A,0x72)); (0x8F05,(0xE7,0x69)); (0x8F09,(0x8D,0xDA)); (0x8F0A,(0xE7,0x68)); (0x8F0C,(0xE7,0x71)); (0x8F12,(0xE7,0x6B));
  (0x8F13,(0xE7,0x6D)); (0x8F14,(0x95,0xE3)); (0x8F15,(0xE7,0x6A)); (0x8F19,(0xE7,0x6C)); (0x8F1B,(0xE7,0x70)); (0x8F1C,(0xE7,0x6E)); (0x8F1D,(0x8B,0x50)); (0x8F1F,(0xE7,0x6F));
  (0x8F26,(0xE7,0x72)); (0x8F29,(0x94,0x79)); (0x8F2A,(0x97,0xD6)); (0x8F2F,(0x8F,0x53)); (0x8F33,(0xE7,0x73)); (0x8F38,(0x97,0x41)); (0x8F39,(0xE7,0x75)); (0x8F3B,(0xE7,0x74));
  (0x8F3E,(0xE7,0x78)); (0x8F3F,(0x97,0x60)); (0x8F42,(0xE7,0x77)); (0x8F44,(0x8A,0x8D)); (0x8F45,(0xE7,0x76)); (0x8F46,(0xE7,0x7B)); (0x8F49,(0xE7,0x7A)); (0x8F4C,(0xE7,0x79));
  (0x8F4D,(0x93,0x51)); (0x8F4E,(0xE7,0x7C)); (0x8F57,(0xE7,0x7D)); (0x8F5C,(0xE7,0x7E)); (0x8F5F,(0x8D,0x8C)); (0x8F61,(0x8C,0x44)); (0x8F62,(0xE7,0x80)); (0x8F63,(0xE7,0x81));
  (0x8F64,(0xE7,0x82)); (0x8F9B,(0x90,0x68)); (0x8F9C,(0xE7,0x83)); (0x8F9E,(0x8E,0xAB)); (0x8F9F,(0xE7,0x84)); (0x8FA3,(0xE7,0x85)); (0x8FA7,(0x99,0x9F)); (0x8FA8,(0x99,0x9E));
  (0x8FAD,(0xE7,0x86)); (0x8FAE,(0xE3,0x90)); (0x8FAF,(0xE7,0x87)); (0x8FB0,(0x92,0x43)); (0x8FB1,(0x90,0x4A)); (0x8FB2,(0x94,0x5F)); (0x8FB7,(0xE7,0x88)); (0x8FBA,(0x95,0xD3));
  (0x8FBB,(0x92,0xD2)); (0x8FBC,(0x8D,0x9E)); (0x8FBF,(0x92,0x48)); (0x8FC2,(0x89,0x49)); (0x8FC4,(0x96,0x98)); (0x8FC5,(0x90,0x76)); (0x8FCE,(0x8C,0x7D)); (0x8FD1,(0x8B,0xDF));
  (0x8FD4,(0x95,0xD4)); (0x8FDA,(0xE7,0x89)); (0x8FE2,(0xE7,0x8B)); (0x8FE5,(0xE7,0x8A)); (0x8FE6,(0x89,0xDE)); (0x8FE9,(0x93,0xF4)); (0x8FEA,(0xE7,0x8C)); (0x8FEB,(0x94,0x97));
  (0x8FED,(0x93,0x52)); (0x8FEF,(0xE7,0x8D)); (0x8FF0,(0x8F,0x71)); (0x8FF4,(0xE7,0x8F)); (0x8FF7,(0x96,0xC0)); (0x8FF8,(0xE7,0x9E)); (0x8FF9,(0xE7,0x91)); (0x8FFA,(0xE7,0x92));
  (0x8FFD,(0x92,0xC7)); (0x9000,(0x91,0xDE)); (0x9001,(0x91,0x97)); (0x9003,(0x93,0xA6)); (0x9005,(0xE7,0x90)); (0x9006,(0x8B,0x74)); (0x900B,(0xE7,0x99)); (0x900D,(0xE7,0x96))
].
(* src/generated/whatwg/shiftjis_whatwg_tables.rs.inc:1395-3838 ENCODE_TABLE, entries 6144..6399 *)
Definition sjis_encode_table_24 : list (N * (N * N)) := [
  (0x900E,(0xE7,0xA3)); (0x900F,(0x93,0xA7)); (0x9010,(0x92,0x80)); (0x9011,(0xE7,0x93)); (0x9013,(0x92,0xFC)); (0x9014,(0x93,0x72)); (0x9015,(0xE7,0x94)); (0x9016,(0xE7,0x98));
  (0x9017,(0x90,0x80)); (0x9019,(0x94,0x87)); (0x901A,(0x92,0xCA)); (0x901D,(0x90,0xC0)); (0x901E,(0xE7,0x97)); (0x901F,(0x91,0xAC)); (0x9020,(0x91,0xA2)); (0x9021,(0xE7,0x95));
  (0x9022,(0x88,0xA7)); (0x9023,(0x98,0x41)); (0x9027,(0xE7,0x9A)); (0x902E,(0x91,0xDF)); (0x9031,(0x8F,0x54)); (0x9032,(0x90,0x69)); (0x9035,(0xE7,0x9C)); (0x9036,(0xE7,0x9B));
  (0x9038,(0x88,0xED)); (0x9039,(0xE7,0x9D)); (0x903C,(0x95,0x4E)); (0x903E,(0xE7,0xA5)); (0x9041,(0x93,0xD9)); (0x9042,(0x90,0x8B)); (0x9045,(0x92,0x78)); (0x9047,(0x8B,0xF6));
  (0x9049,(0xE7,0xA4)); (0x904A,(0x97,0x56)); (0x904B,(0x89,0x5E)); (0x904D,(0x95,0xD5)); (0x904E,(0x89,0xDF)); (0x904F,(0xE7,0x9F)); (0x9050,(0xE7,0xA0)); (0x9051,(0xE7,0xA1));
  (0x9052,(0xE7,0xA2)); (0x9053,(0x93,0xB9)); (0x9054,(0x92,0x42)); (0x9055,(0x88,0xE1)); (0x9056,(0xE7,0xA6)); (0x9058,(0xE7,0xA7)); (0x9059,(0xEA,0xA1)); (0x905C,(0x91,0xBB));
  (0x905E,(0xE7,0xA8)); (0x9060,(0x89,0x93)); (0x9061,(0x91,0x6B)); (0x9063,(0x8C,0xAD)); (0x9065,(0x97,0x79)); (0x9067,(0xFB,0xB5)); (0x9068,(0xE7,0xA9)); (0x9069,(0x93,0x4B));
  (0x906D,(0x91,0x98)); (0x906E,(0x8E,0xD5)); (0x906F,(0xE7,0xAA)); (0x9072,(0xE7,0xAD)); (0x9075,(0x8F,0x85)); (0x9076,(0xE7,0xAB)); (0x9077,(0x91,0x4A)); (0x9078,(0x91,0x49));
  (0x907A,(0x88,0xE2)); (0x907C,(0x97,0xC9)); (0x907D,(0xE7,0xAF)); (0x907F,(0x94,0xF0)); (0x9080,(0xE7,0xB1)); (0x9081,(0xE7,0xB0)); (0x9082,(0xE7,0xAE)); (0x9083,(0xE2,0x84));
  (0x9084,(0x8A,0xD2)); (0x9087,(0xE7,0x8E)); (0x9089,(0xE7,0xB3)); (0x908A,(0xE7,0xB2)); (0x908F,(0xE7,0xB4)); (0x9091,(0x97,0x57)); (0x90A3,(0x93,0xDF)); (0x90A6,(0x96,0x4D));
  (0x90A8,(0xE7,0xB5)); (0x90AA,(0x8E,0xD7)); (0x90AF,(0xE7,0xB6)); (0x90B1,(0xE7,0xB7)); (0x90B5,(0xE7,0xB8)); (0x90B8,(0x93,0x40)); (0x90C1,(0x88,0xE8)); (0x90CA,(0x8D,0x78));
  (0x90CE,(0x98,0x59)); (0x90DB,(0xE7,0xBC)); (0x90DE,(0xFB,0xB6)); (0x90E1,(0x8C,0x53)); (0x90E2,(0xE7,0xB9)); (0x90E4,(0xE7,0xBA)); (0x90E8,(0x95,0x94)); (0x90ED,(0x8A,0x73));
  (0x90F5,(0x97,0x58)); (0x90F7,(0x8B,0xBD)); (0x90FD,(0x93,0x73)); (0x9102,(0xE7,0xBD)); (0x9112,(0xE7,0xBE)); (0x9115,(0xFB,0xB8)); (0x9119,(0xE7,0xBF)); (0x9127,(0xFB,0xB9));
  (0x912D,(0x93,0x41)); (0x9130,(0xE7,0xC1)); (0x9132,(0xE7,0xC0)); (0x9149,(0x93,0xD1)); (0x914A,(0xE7,0xC2)); (0x914B,(0x8F,0x55)); (0x914C,(0x8E,0xDE)); (0x914D,(0x94,0x7A));
  (0x914E,(0x92,0x91)); (0x9152,(0x8E,0xF0)); (0x9154,(0x90,0x8C)); (0x9156,(0xE7,0xC3)); (0x9158,(0xE7,0xC4)); (0x9162,(0x90,0x7C)); (0x9163,(0xE7,0xC5)); (0x9165,(0xE7,0xC6));
  (0x9169,(0xE7,0xC7)); (0x916A,(0x97,0x8F)); (0x916C,(0x8F,0x56)); (0x9172,(0xE7,0xC9)); (0x9173,(0xE7,0xC8)); (0x9175,(0x8D,0x79)); (0x9177,(0x8D,0x93)); (0x9178,(0x8E,0x5F));
  (0x9182,(0xE7,0xCC)); (0x9187,(0x8F,0x86)); (0x9189,(0xE7,0xCB)); (0x918B,(0xE7,0xCA)); (0x918D,(0x91,0xE7)); (0x9190,(0x8C,0xED)); (0x9192,(0x90,0xC1)); (0x9197,(0x94,0xAE));
  (0x919C,(0x8F,0x58)); (0x91A2,(0xE7,0xCD)); (0x91A4,(0x8F,0xDD)); (0x91AA,(0xE7,0xD0)); (0x91AB,(0xE7,0xCE)); (0x91AF,(0xE7,0xCF)); (0x91B4,(0xE7,0xD2)); (0x91B5,(0xE7,0xD1));
  (0x91B8,(0x8F,0xF8)); (0x91BA,(0xE7,0xD3)); (0x91C0,(0xE7,0xD4)); (0x91C1,(0xE7,0xD5)); (0x91C6,(0x94,0xCE)); (0x91C7,(0x8D,0xD1)); (0x91C8,(0x8E,0xDF)); (0x91C9,(0xE7,0xD6));
  (0x91CB,(0xE7,0xD7)); (0x91CC,(0x97,0xA2)); (0x91CD,(0x8F,0x64)); (0x91CE,(0x96,0xEC)); (0x91CF,(0x97,0xCA)); (0x91D0,(0xE7,0xD8)); (0x91D1,(0x8B,0xE0)); (0x91D6,(0xE7,0xD9));
  (0x91D7,(0xFB,0xBB)); (0x91D8,(0x93,0x42)); (0x91DA,(0xFB,0xBA)); (0x91DB,(0xE7,0xDC)); (0x91DC,(0x8A,0x98)); (0x91DD,(0x90,0x6A)); (0x91DE,(0xFB,0xBC)); (0x91DF,(0xE7,0xDA));
  (0x91E1,(0xE7,0xDB)); (0x91E3,(0x92,0xDE)); (0x91E4,(0xFB,0xBF)); (0x91E5,(0xFB,0xC0)); (0x91E6,(0x96,0x74)); (0x91E7,(0x8B,0xFA)); (0x91ED,(0xFB,0xBD)); (0x91EE,(0xFB,0xBE));
  (0x91F5,(0xE7,0xDE)); (0x91F6,(0xE7,0xDF)); (0x91FC,(0xE7,0xDD)); (0x91FF,(0xE7,0xE1)); (0x9206,(0xFB,0xC1)); (0x920A,(0xFB,0xC3)); (0x920D,(0x93,0xDD)); (0x920E,(0x8A,0x62));
  (0x9210,(0xFB,0xC2)); (0x9211,(0xE7,0xE5)); (0x9214,(0xE7,0xE2)); (0x9215,(0xE7,0xE4)); (0x921E,(0xE7,0xE0)); (0x9229,(0xE8,0x6E)); (0x922C,(0xE7,0xE3)); (0x9234,(0x97,0xE9));
  (0x9237,(0x8C,0xD8)); (0x9239,(0xFB,0xCA)); (0x923A,(0xFB,0xC4)); (0x923C,(0xFB,0xC6)); (0x923F,(0xE7,0xED)); (0x9240,(0xFB,0xC5)); (0x9244,(0x93,0x53)); (0x9245,(0xE7,0xE8));
  (0x9248,(0xE7,0xEB)); (0x9249,(0xE7,0xE9)); (0x924B,(0xE7,0xEE)); (0x924E,(0xFB,0xC7)); (0x9250,(0xE7,0xEF)); (0x9251,(0xFB,0xC9)); (0x9257,(0xE7,0xE7)); (0x9259,(0xFB,0xC8));
  (0x925A,(0xE7,0xF4)); (0x925B,(0x89,0x94)); (0x925E,(0xE7,0xE6)); (0x9262,(0x94,0xAB)); (0x9264,(0xE7,0xEA)); (0x9266,(0x8F,0xDE)); (0x9267,(0xFB,0xCB)); (0x9271,(0x8D,0x7A));
  (0x9277,(0xFB,0xCD)); (0x9278,(0xFB,0xCE)); (0x927E,(0x96,0x67)); (0x9280,(0x8B,0xE2)); (0x9283,(0x8F,0x65)); (0x9285,(0x93,0xBA)); (0x9288,(0xFA,0x5F)); (0x9291,(0x91,0x4C));
  (0x9293,(0xE7,0xF2)); (0x9295,(0xE7,0xEC)); (0x9296,(0xE7,0xF1)); (0x9298,(0x96,0xC1)); (0x929A,(0x92,0xB6)); (0x929B,(0xE7,0xF3)); (0x929C,(0xE7,0xF0)); (0x92A7,(0xFB,0xCC));
  (0x92AD,(0x91,0x4B)); (0x92B7,(0xE7,0xF7)); (0x92B9,(0xE7,0xF6)); (0x92CF,(0xE7,0xF5)); (0x92D0,(0xFB,0xD2)); (0x92D2,(0x96,0x4E)); (0x92D3,(0xFB,0xD6)); (0x92D5,(0xFB,0xD4));
  (0x92D7,(0xFB,0xD0)); (0x92D9,(0xFB,0xD1)); (0x92E0,(0xFB,0xD5)); (0x92E4,(0x8F,0x9B)); (0x92E7,(0xFB,0xCF)); (0x92E9,(0xE7,0xF8)); (0x92EA,(0x95,0xDD)); (0x92ED,(0x89,0x73));
  (0x92F2,(0x95,0x65)); (0x92F3,(0x92,0x92)); (0x92F8,(0x8B,0x98)); (0x92F9,(0xFA,0x65)); (0x92FA,(0xE7,0xFA)); (0x92FB,(0xFB,0xD9)); (0x92FC,(0x8D,0x7C)); (0x92FF,(0xFB,0xDC))
].
(* src/generated/whatwg/shiftjis_whatwg_tables.rs.inc:1395-3838 ENCODE_TABLE, entries 6400..6655 *)
Definition sjis_encode_table_25 : list (N * (N * N)) := [
  (0x9302,(0xFB,0xDE)); (0x9306,(0x8E,0x4B)); (0x930F,(0xE7,0xF9)); (0x9310,(0x90,0x8D)); (0x9318,(0x90,0x8E)); (0x9319,(0xE8,0x40)); (0x931A,(0xE8,0x42)); (0x931D,(0xFB,0xDD));
  (0x931E,(0xFB,0xDB)); (0x9320,(0x8F,0xF9)); (0x9321,(0xFB,0xD8)); (0x9322,(0xE8,0x41)); (0x9323,(0xE8,0x43)); (0x9325,(0xFB,0xD7)); (0x9326,(0x8B,0xD1)); (0x9328,(0x95,0x64));
  (0x932B,(0x8E,0xE0)); (0x932C,(0x98,0x42)); (0x932E,(0xE7,0xFC)); (0x932F,(0x8D,0xF6)); (0x9332,(0x98,0x5E)); (0x9335,(0xE8,0x45)); (0x933A,(0xE8,0x44)); (0x933B,(0xE8,0x46));
  (0x9344,(0xE7,0xFB)); (0x9348,(0xFA,0x5E)); (0x934B,(0x93,0xE7)); (0x934D,(0x93,0x74)); (0x9354,(0x92,0xD5)); (0x9356,(0xE8,0x4B)); (0x9357,(0xFB,0xE0)); (0x935B,(0x92,0x62));
  (0x935C,(0xE8,0x47)); (0x9360,(0xE8,0x48)); (0x936C,(0x8C,0x4C)); (0x936E,(0xE8,0x4A)); (0x9370,(0xFB,0xDF)); (0x9375,(0x8C,0xAE)); (0x937C,(0xE8,0x49)); (0x937E,(0x8F,0xDF));
  (0x938C,(0x8A,0x99)); (0x9394,(0xE8,0x4F)); (0x9396,(0x8D,0xBD)); (0x9397,(0x91,0x99)); (0x939A,(0x92,0xC8)); (0x93A4,(0xFB,0xE1)); (0x93A7,(0x8A,0x5A)); (0x93AC,(0xE8,0x4D));
  (0x93AD,(0xE8,0x4E)); (0x93AE,(0x92,0xC1)); (0x93B0,(0xE8,0x4C)); (0x93B9,(0xE8,0x50)); (0x93C3,(0xE8,0x56)); (0x93C6,(0xFB,0xE2)); (0x93C8,(0xE8,0x59)); (0x93D0,(0xE8,0x58));
  (0x93D1,(0x93,0x4C)); (0x93D6,(0xE8,0x51)); (0x93D7,(0xE8,0x52)); (0x93D8,(0xE8,0x55)); (0x93DD,(0xE8,0x57)); (0x93DE,(0xFB,0xE3)); (0x93E1,(0x8B,0xBE)); (0x93E4,(0xE8,0x5A));
  (0x93E5,(0xE8,0x54)); (0x93E8,(0xE8,0x53)); (0x93F8,(0xFB,0xE4)); (0x9403,(0xE8,0x5E)); (0x9407,(0xE8,0x5F)); (0x9410,(0xE8,0x60)); (0x9413,(0xE8,0x5D)); (0x9414,(0xE8,0x5C));
  (0x9418,(0x8F,0xE0)); (0x9419,(0x93,0xA8)); (0x941A,(0xE8,0x5B)); (0x9421,(0xE8,0x64)); (0x942B,(0xE8,0x62)); (0x9431,(0xFB,0xE5)); (0x9435,(0xE8,0x63)); (0x9436,(0xE8,0x61));
  (0x9438,(0x91,0xF6)); (0x943A,(0xE8,0x65)); (0x9441,(0xE8,0x66)); (0x9444,(0xE8,0x68)); (0x9445,(0xFB,0xE6)); (0x9448,(0xFB,0xE7)); (0x9451,(0x8A,0xD3)); (0x9452,(0xE8,0x67));
  (0x9453,(0x96,0xF8)); (0x945A,(0xE8,0x73)); (0x945B,(0xE8,0x69)); (0x945E,(0xE8,0x6C)); (0x9460,(0xE8,0x6A)); (0x9462,(0xE8,0x6B)); (0x946A,(0xE8,0x6D)); (0x9470,(0xE8,0x6F));
  (0x9475,(0xE8,0x70)); (0x9477,(0xE8,0x71)); (0x947C,(0xE8,0x74)); (0x947D,(0xE8,0x72)); (0x947E,(0xE8,0x75)); (0x947F,(0xE8,0x77)); (0x9481,(0xE8,0x76)); (0x9577,(0x92,0xB7));
  (0x9580,(0x96,0xE5)); (0x9582,(0xE8,0x78)); (0x9583,(0x91,0x4D)); (0x9587,(0xE8,0x79)); (0x9589,(0x95,0xC2)); (0x958A,(0xE8,0x7A)); (0x958B,(0x8A,0x4A)); (0x958F,(0x89,0x5B));
  (0x9591,(0x8A,0xD5)); (0x9592,(0xFB,0xE8)); (0x9593,(0x8A,0xD4)); (0x9594,(0xE8,0x7B)); (0x9596,(0xE8,0x7C)); (0x9598,(0xE8,0x7D)); (0x9599,(0xE8,0x7E)); (0x95A0,(0xE8,0x80));
  (0x95A2,(0x8A,0xD6)); (0x95A3,(0x8A,0x74)); (0x95A4,(0x8D,0x7D)); (0x95A5,(0x94,0xB4)); (0x95A7,(0xE8,0x82)); (0x95A8,(0xE8,0x81)); (0x95AD,(0xE8,0x83)); (0x95B2,(0x89,0x7B));
  (0x95B9,(0xE8,0x86)); (0x95BB,(0xE8,0x85)); (0x95BC,(0xE8,0x84)); (0x95BE,(0xE8,0x87)); (0x95C3,(0xE8,0x8A)); (0x95C7,(0x88,0xC5)); (0x95CA,(0xE8,0x88)); (0x95CC,(0xE8,0x8C));
  (0x95CD,(0xE8,0x8B)); (0x95D4,(0xE8,0x8E)); (0x95D5,(0xE8,0x8D)); (0x95D6,(0xE8,0x8F)); (0x95D8,(0x93,0xAC)); (0x95DC,(0xE8,0x90)); (0x95E1,(0xE8,0x91)); (0x95E2,(0xE8,0x93));
  (0x95E5,(0xE8,0x92)); (0x961C,(0x95,0x8C)); (0x9621,(0xE8,0x94)); (0x9628,(0xE8,0x95)); (0x962A,(0x8D,0xE3)); (0x962E,(0xE8,0x96)); (0x962F,(0xE8,0x97)); (0x9632,(0x96,0x68));
  (0x963B,(0x91,0x6A)); (0x963F,(0x88,0xA2)); (0x9640,(0x91,0xC9)); (0x9642,(0xE8,0x98)); (0x9644,(0x95,0x8D)); (0x964B,(0xE8,0x9B)); (0x964C,(0xE8,0x99)); (0x964D,(0x8D,0x7E));
  (0x964F,(0xE8,0x9A)); (0x9650,(0x8C,0xC0)); (0x965B,(0x95,0xC3)); (0x965C,(0xE8,0x9D)); (0x965D,(0xE8,0x9F)); (0x965E,(0xE8,0x9E)); (0x965F,(0xE8,0xA0)); (0x9662,(0x89,0x40));
  (0x9663,(0x90,0x77)); (0x9664,(0x8F,0x9C)); (0x9665,(0x8A,0xD7)); (0x9666,(0xE8,0xA1)); (0x966A,(0x94,0x86)); (0x966C,(0xE8,0xA3)); (0x9670,(0x89,0x41)); (0x9672,(0xE8,0xA2));
  (0x9673,(0x92,0xC2)); (0x9675,(0x97,0xCB)); (0x9676,(0x93,0xA9)); (0x9677,(0xE8,0x9C)); (0x9678,(0x97,0xA4)); (0x967A,(0x8C,0xAF)); (0x967D,(0x97,0x7A)); (0x9685,(0x8B,0xF7));
  (0x9686,(0x97,0xB2)); (0x9688,(0x8C,0x47)); (0x968A,(0x91,0xE0)); (0x968B,(0xE4,0x40)); (0x968D,(0xE8,0xA4)); (0x968E,(0x8A,0x4B)); (0x968F,(0x90,0x8F)); (0x9694,(0x8A,0x75));
  (0x9695,(0xE8,0xA6)); (0x9697,(0xE8,0xA7)); (0x9698,(0xE8,0xA5)); (0x9699,(0x8C,0x84)); (0x969B,(0x8D,0xDB)); (0x969C,(0x8F,0xE1)); (0x969D,(0xFB,0xEB)); (0x96A0,(0x89,0x42));
  (0x96A3,(0x97,0xD7)); (0x96A7,(0xE8,0xA9)); (0x96A8,(0xE7,0xAC)); (0x96AA,(0xE8,0xA8)); (0x96AF,(0xFB,0xEC)); (0x96B0,(0xE8,0xAC)); (0x96B1,(0xE8,0xAA)); (0x96B2,(0xE8,0xAB));
  (0x96B4,(0xE8,0xAD)); (0x96B6,(0xE8,0xAE)); (0x96B7,(0x97,0xEA)); (0x96B8,(0xE8,0xAF)); (0x96B9,(0xE8,0xB0)); (0x96BB,(0x90,0xC7)); (0x96BC,(0x94,0xB9)); (0x96C0,(0x90,0x9D));
  (0x96C1,(0x8A,0xE5)); (0x96C4,(0x97,0x59)); (0x96C5,(0x89,0xEB)); (0x96C6,(0x8F,0x57)); (0x96C7,(0x8C,0xD9)); (0x96C9,(0xE8,0xB3)); (0x96CB,(0xE8,0xB2)); (0x96CC,(0x8E,0x93));
  (0x96CD,(0xE8,0xB4)); (0x96CE,(0xE8,0xB1)); (0x96D1,(0x8E,0x47)); (0x96D5,(0xE8,0xB8)); (0x96D6,(0xE5,0xAB)); (0x96D9,(0x99,0xD4)); (0x96DB,(0x90,0x97)); (0x96DC,(0xE8,0xB6));
  (0x96E2,(0x97,0xA3)); (0x96E3,(0x93,0xEF)); (0x96E8,(0x89,0x4A)); (0x96EA,(0x90,0xE1)); (0x96EB,(0x8E,0xB4)); (0x96F0,(0x95,0xB5)); (0x96F2,(0x89,0x5F)); (0x96F6,(0x97,0xEB));
  (0x96F7,(0x97,0x8B)); (0x96F9,(0xE8,0xB9)); (0x96FB,(0x93,0x64)); (0x9700,(0x8E,0xF9)); (0x9704,(0xE8,0xBA)); (0x9706,(0xE8,0xBB)); (0x9707,(0x90,0x6B)); (0x9708,(0xE8,0xBC));
  (0x970A,(0x97,0xEC)); (0x970D,(0xE8,0xB7)); (0x970E,(0xE8,0xBE)); (0x970F,(0xE8,0xC0)); (0x9711,(0xE8,0xBF)); (0x9713,(0xE8,0xBD)); (0x9716,(0xE8,0xC1)); (0x9719,(0xE8,0xC2))
].
(* src/generated/whatwg/shiftjis_whatwg_tables.rs.inc:1395-3838 ENCODE_TABLE, entries 6656..6911 *)
Definition sjis_encode_table_26 : list (N * (N * N)) := [
  (0x971C,(0x91,0x9A)); (0x971E,(0x89,0xE0)); (0x9724,(0xE8,0xC3)); (0x9727,(0x96,0xB6)); (0x972A,(0xE8,0xC4)); (0x9730,(0xE8,0xC5)); (0x9732,(0x98,0x49)); (0x9733,(0xFB,0xED));
  (0x9738,(0x9E,0x50)); (0x9739,(0xE8,0xC6)); (0x973B,(0xFB,0xEE)); (0x973D,(0xE8,0xC7)); (0x973E,(0xE8,0xC8)); (0x9742,(0xE8,0xCC)); (0x9743,(0xFB,0xEF)); (0x9744,(0xE8,0xC9));
  (0x9746,(0xE8,0xCA)); (0x9748,(0xE8,0xCB)); (0x9749,(0xE8,0xCD)); (0x974D,(0xFB,0xF0)); (0x974F,(0xFB,0xF1)); (0x9751,(0xFB,0xF2)); (0x9752,(0x90,0xC2)); (0x9755,(0xFB,0xF3));
  (0x9756,(0x96,0xF5)); (0x9759,(0x90,0xC3)); (0x975C,(0xE8,0xCE)); (0x975E,(0x94,0xF1)); (0x9760,(0xE8,0xCF)); (0x9761,(0xEA,0x72)); (0x9762,(0x96,0xCA)); (0x9764,(0xE8,0xD0));
  (0x9766,(0xE8,0xD1)); (0x9768,(0xE8,0xD2)); (0x9769,(0x8A,0x76)); (0x976B,(0xE8,0xD4)); (0x976D,(0x90,0x78)); (0x9771,(0xE8,0xD5)); (0x9774,(0x8C,0x43)); (0x9779,(0xE8,0xD6));
  (0x977A,(0xE8,0xDA)); (0x977C,(0xE8,0xD8)); (0x9781,(0xE8,0xD9)); (0x9784,(0x8A,0x93)); (0x9785,(0xE8,0xD7)); (0x9786,(0xE8,0xDB)); (0x978B,(0xE8,0xDC)); (0x978D,(0x88,0xC6));
  (0x978F,(0xE8,0xDD)); (0x9790,(0xE8,0xDE)); (0x9798,(0x8F,0xE2)); (0x979C,(0xE8,0xDF)); (0x97A0,(0x8B,0x66)); (0x97A3,(0xE8,0xE2)); (0x97A6,(0xE8,0xE1)); (0x97A8,(0xE8,0xE0));
  (0x97AB,(0xE6,0x91)); (0x97AD,(0x95,0xDA)); (0x97B3,(0xE8,0xE3)); (0x97B4,(0xE8,0xE4)); (0x97C3,(0xE8,0xE5)); (0x97C6,(0xE8,0xE6)); (0x97C8,(0xE8,0xE7)); (0x97CB,(0xE8,0xE8));
  (0x97D3,(0x8A,0xD8)); (0x97DC,(0xE8,0xE9)); (0x97ED,(0xE8,0xEA)); (0x97EE,(0x94,0x42)); (0x97F2,(0xE8,0xEC)); (0x97F3,(0x89,0xB9)); (0x97F5,(0xE8,0xEF)); (0x97F6,(0xE8,0xEE));
  (0x97FB,(0x89,0x43)); (0x97FF,(0x8B,0xBF)); (0x9801,(0x95,0xC5)); (0x9802,(0x92,0xB8)); (0x9803,(0x8D,0xA0)); (0x9805,(0x8D,0x80)); (0x9806,(0x8F,0x87)); (0x9808,(0x90,0x7B));
  (0x980C,(0xE8,0xF1)); (0x980F,(0xE8,0xF0)); (0x9810,(0x97,0x61)); (0x9811,(0x8A,0xE6)); (0x9812,(0x94,0xD0)); (0x9813,(0x93,0xDA)); (0x9817,(0x90,0x9C)); (0x9818,(0x97,0xCC));
  (0x981A,(0x8C,0x7A)); (0x9821,(0xE8,0xF4)); (0x9824,(0xE8,0xF3)); (0x982C,(0x96,0x6A)); (0x982D,(0x93,0xAA)); (0x9834,(0x89,0x6F)); (0x9837,(0xE8,0xF5)); (0x9838,(0xE8,0xF2));
  (0x983B,(0x95,0x70)); (0x983C,(0x97,0x8A)); (0x983D,(0xE8,0xF6)); (0x9846,(0xE8,0xF7)); (0x984B,(0xE8,0xF9)); (0x984C,(0x91,0xE8)); (0x984D,(0x8A,0x7A)); (0x984E,(0x8A,0x7B));
  (0x984F,(0xE8,0xF8)); (0x9854,(0x8A,0xE7)); (0x9855,(0x8C,0xB0)); (0x9857,(0xFB,0xF4)); (0x9858,(0x8A,0xE8)); (0x985B,(0x93,0x5E)); (0x985E,(0x97,0xDE)); (0x9865,(0xFB,0xF5));
  (0x9867,(0x8C,0xDA)); (0x986B,(0xE8,0xFA)); (0x986F,(0xE8,0xFB)); (0x9870,(0xE8,0xFC)); (0x9871,(0xE9,0x40)); (0x9873,(0xE9,0x42)); (0x9874,(0xE9,0x41)); (0x98A8,(0x95,0x97));
  (0x98AA,(0xE9,0x43)); (0x98AF,(0xE9,0x44)); (0x98B1,(0xE9,0x45)); (0x98B6,(0xE9,0x46)); (0x98C3,(0xE9,0x48)); (0x98C4,(0xE9,0x47)); (0x98C6,(0xE9,0x49)); (0x98DB,(0x94,0xF2));
  (0x98DC,(0xE3,0xCA)); (0x98DF,(0x90,0x48)); (0x98E2,(0x8B,0x51)); (0x98E9,(0xE9,0x4A)); (0x98EB,(0xE9,0x4B)); (0x98ED,(0x99,0xAA)); (0x98EE,(0x9F,0x5A)); (0x98EF,(0x94,0xD1));
  (0x98F2,(0x88,0xF9)); (0x98F4,(0x88,0xB9)); (0x98FC,(0x8E,0x94)); (0x98FD,(0x96,0x4F)); (0x98FE,(0x8F,0xFC)); (0x9903,(0xE9,0x4C)); (0x9905,(0x96,0xDD)); (0x9909,(0xE9,0x4D));
  (0x990A,(0x97,0x7B)); (0x990C,(0x89,0x61)); (0x9910,(0x8E,0x60)); (0x9912,(0xE9,0x4E)); (0x9913,(0x89,0xEC)); (0x9914,(0xE9,0x4F)); (0x9918,(0xE9,0x50)); (0x991D,(0xE9,0x52));
  (0x991E,(0xE9,0x53)); (0x9920,(0xE9,0x55)); (0x9921,(0xE9,0x51)); (0x9924,(0xE9,0x54)); (0x9927,(0xFB,0xF8)); (0x9928,(0x8A,0xD9)); (0x992C,(0xE9,0x56)); (0x992E,(0xE9,0x57));
  (0x993D,(0xE9,0x58)); (0x993E,(0xE9,0x59)); (0x9942,(0xE9,0x5A)); (0x9945,(0xE9,0x5C)); (0x9949,(0xE9,0x5B)); (0x994B,(0xE9,0x5E)); (0x994C,(0xE9,0x61)); (0x9950,(0xE9,0x5D));
  (0x9951,(0xE9,0x5F)); (0x9952,(0xE9,0x60)); (0x9955,(0xE9,0x62)); (0x9957,(0x8B,0xC0)); (0x9996,(0x8E,0xF1)); (0x9997,(0xE9,0x63)); (0x9998,(0xE9,0x64)); (0x9999,(0x8D,0x81));
  (0x999E,(0xFB,0xFA)); (0x99A5,(0xE9,0x65)); (0x99A8,(0x8A,0x5D)); (0x99AC,(0x94,0x6E)); (0x99AD,(0xE9,0x66)); (0x99AE,(0xE9,0x67)); (0x99B3,(0x92,0x79)); (0x99B4,(0x93,0xE9));
  (0x99BC,(0xE9,0x68)); (0x99C1,(0x94,0x9D)); (0x99C4,(0x91,0xCA)); (0x99C5,(0x89,0x77)); (0x99C6,(0x8B,0xEC)); (0x99C8,(0x8B,0xED)); (0x99D0,(0x92,0x93)); (0x99D1,(0xE9,0x6D));
  (0x99D2,(0x8B,0xEE)); (0x99D5,(0x89,0xED)); (0x99D8,(0xE9,0x6C)); (0x99DB,(0xE9,0x6A)); (0x99DD,(0xE9,0x6B)); (0x99DF,(0xE9,0x69)); (0x99E2,(0xE9,0x77)); (0x99ED,(0xE9,0x6E));
  (0x99EE,(0xE9,0x6F)); (0x99F1,(0xE9,0x70)); (0x99F2,(0xE9,0x71)); (0x99F8,(0xE9,0x73)); (0x99FB,(0xE9,0x72)); (0x99FF,(0x8F,0x78)); (0x9A01,(0xE9,0x74)); (0x9A05,(0xE9,0x76));
  (0x9A0E,(0x8B,0x52)); (0x9A0F,(0xE9,0x75)); (0x9A12,(0x91,0x9B)); (0x9A13,(0x8C,0xB1)); (0x9A19,(0xE9,0x78)); (0x9A28,(0x91,0xCB)); (0x9A2B,(0xE9,0x79)); (0x9A30,(0x93,0xAB));
  (0x9A37,(0xE9,0x7A)); (0x9A3E,(0xE9,0x80)); (0x9A40,(0xE9,0x7D)); (0x9A42,(0xE9,0x7C)); (0x9A43,(0xE9,0x7E)); (0x9A45,(0xE9,0x7B)); (0x9A4D,(0xE9,0x82)); (0x9A4E,(0xFB,0xFB));
  (0x9A55,(0xE9,0x81)); (0x9A57,(0xE9,0x84)); (0x9A5A,(0x8B,0xC1)); (0x9A5B,(0xE9,0x83)); (0x9A5F,(0xE9,0x85)); (0x9A62,(0xE9,0x86)); (0x9A64,(0xE9,0x88)); (0x9A65,(0xE9,0x87));
  (0x9A69,(0xE9,0x89)); (0x9A6A,(0xE9,0x8B)); (0x9A6B,(0xE9,0x8A)); (0x9AA8,(0x8D,0x9C)); (0x9AAD,(0xE9,0x8C)); (0x9AB0,(0xE9,0x8D)); (0x9AB8,(0x8A,0x5B)); (0x9ABC,(0xE9,0x8E));
  (0x9AC0,(0xE9,0x8F)); (0x9AC4,(0x90,0x91)); (0x9ACF,(0xE9,0x90)); (0x9AD1,(0xE9,0x91)); (0x9AD3,(0xE9,0x92)); (0x9AD4,(0xE9,0x93)); (0x9AD8,(0x8D,0x82)); (0x9AD9,(0xFB,0xFC));
  (0x9ADC,(0xFC,0x40)); (0x9ADE,(0xE9,0x94)); (0x9ADF,(0xE9,0x95)); (0x9AE2,(0xE9,0x96)); (0x9AE3,(0xE9,0x97)); (0x9AE6,(0xE9,0x98)); (0x9AEA,(0x94,0xAF)); (0x9AEB,(0xE9,0x9A))
].
(* src/generated/whatwg/shiftjis_whatwg_tables.rs.inc:1395-3838 ENCODE_TABLE, entries 6912..7167 *)
Definition sjis_encode_table_27 : list (N * (N * N)) := [
  (0x9AED,(0x95,0x45)); (0x9AEE,(0xE9,0x9B)); (0x9AEF,(0xE9,0x99)); (0x9AF1,(0xE9,0x9D)); (0x9AF4,(0xE9,0x9C)); (0x9AF7,(0xE9,0x9E)); (0x9AFB,(0xE9,0x9F)); (0x9B06,(0xE9,0xA0));
  (0x9B18,(0xE9,0xA1)); (0x9B1A,(0xE9,0xA2)); (0x9B1F,(0xE9,0xA3)); (0x9B22,(0xE9,0xA4)); (0x9B23,(0xE9,0xA5)); (0x9B25,(0xE9,0xA6)); (0x9B27,(0xE9,0xA7)); (0x9B28,(0xE9,0xA8));
  (0x9B29,(0xE9,0xA9)); (0x9B2A,(0xE9,0xAA)); (0x9B2E,(0xE9,0xAB)); (0x9B2F,(0xE9,0xAC)); (0x9B31,(0x9F,0x54)); (0x9B32,(0xE9,0xAD)); (0x9B3B,(0xE2,0xF6)); (0x9B3C,(0x8B,0x53));
  (0x9B41,(0x8A,0x40)); (0x9B42,(0x8D,0xB0)); (0x9B43,(0xE9,0xAF)); (0x9B44,(0xE9,0xAE)); (0x9B45,(0x96,0xA3)); (0x9B4D,(0xE9,0xB1)); (0x9B4E,(0xE9,0xB2)); (0x9B4F,(0xE9,0xB0));
  (0x9B51,(0xE9,0xB3)); (0x9B54,(0x96,0x82)); (0x9B58,(0xE9,0xB4)); (0x9B5A,(0x8B,0x9B)); (0x9B6F,(0x98,0x44)); (0x9B72,(0xFC,0x42)); (0x9B74,(0xE9,0xB5)); (0x9B75,(0xFC,0x41));
  (0x9B83,(0xE9,0xB7)); (0x9B8E,(0x88,0xBC)); (0x9B8F,(0xFC,0x43)); (0x9B91,(0xE9,0xB8)); (0x9B92,(0x95,0xA9)); (0x9B93,(0xE9,0xB6)); (0x9B96,(0xE9,0xB9)); (0x9B97,(0xE9,0xBA));
  (0x9B9F,(0xE9,0xBB)); (0x9BA0,(0xE9,0xBC)); (0x9BA8,(0xE9,0xBD)); (0x9BAA,(0x96,0x8E)); (0x9BAB,(0x8E,0x4C)); (0x9BAD,(0x8D,0xF8)); (0x9BAE,(0x91,0x4E)); (0x9BB1,(0xFC,0x44));
  (0x9BB4,(0xE9,0xBE)); (0x9BB9,(0xE9,0xC1)); (0x9BBB,(0xFC,0x45)); (0x9BC0,(0xE9,0xBF)); (0x9BC6,(0xE9,0xC2)); (0x9BC9,(0x8C,0xEF)); (0x9BCA,(0xE9,0xC0)); (0x9BCF,(0xE9,0xC3));
  (0x9BD1,(0xE9,0xC4)); (0x9BD2,(0xE9,0xC5)); (0x9BD4,(0xE9,0xC9)); (0x9BD6,(0x8E,0x49)); (0x9BDB,(0x91,0xE2)); (0x9BE1,(0xE9,0xCA)); (0x9BE2,(0xE9,0xC7)); (0x9BE3,(0xE9,0xC6));
  (0x9BE4,(0xE9,0xC8)); (0x9BE8,(0x8C,0x7E)); (0x9BF0,(0xE9,0xCE)); (0x9BF1,(0xE9,0xCD)); (0x9BF2,(0xE9,0xCC)); (0x9BF5,(0x88,0xB1)); (0x9C00,(0xFC,0x46)); (0x9C04,(0xE9,0xD8));
  (0x9C06,(0xE9,0xD4)); (0x9C08,(0xE9,0xD5)); (0x9C09,(0xE9,0xD1)); (0x9C0A,(0xE9,0xD7)); (0x9C0C,(0xE9,0xD3)); (0x9C0D,(0x8A,0x82)); (0x9C10,(0x98,0x6B)); (0x9C12,(0xE9,0xD6));
  (0x9C13,(0xE9,0xD2)); (0x9C14,(0xE9,0xD0)); (0x9C15,(0xE9,0xCF)); (0x9C1B,(0xE9,0xDA)); (0x9C21,(0xE9,0xDD)); (0x9C24,(0xE9,0xDC)); (0x9C25,(0xE9,0xDB)); (0x9C2D,(0x95,0x68));
  (0x9C2E,(0xE9,0xD9)); (0x9C2F,(0x88,0xF1)); (0x9C30,(0xE9,0xDE)); (0x9C32,(0xE9,0xE0)); (0x9C39,(0x8A,0x8F)); (0x9C3A,(0xE9,0xCB)); (0x9C3B,(0x89,0x56)); (0x9C3E,(0xE9,0xE2));
  (0x9C46,(0xE9,0xE1)); (0x9C47,(0xE9,0xDF)); (0x9C48,(0x92,0x4C)); (0x9C52,(0x96,0x90)); (0x9C57,(0x97,0xD8)); (0x9C5A,(0xE9,0xE3)); (0x9C60,(0xE9,0xE4)); (0x9C67,(0xE9,0xE5));
  (0x9C76,(0xE9,0xE6)); (0x9C78,(0xE9,0xE7)); (0x9CE5,(0x92,0xB9)); (0x9CE7,(0xE9,0xE8)); (0x9CE9,(0x94,0xB5)); (0x9CEB,(0xE9,0xED)); (0x9CEC,(0xE9,0xE9)); (0x9CF0,(0xE9,0xEA));
  (0x9CF3,(0x96,0x50)); (0x9CF4,(0x96,0xC2)); (0x9CF6,(0x93,0xCE)); (0x9D03,(0xE9,0xEE)); (0x9D06,(0xE9,0xEF)); (0x9D07,(0x93,0xBC)); (0x9D08,(0xE9,0xEC)); (0x9D09,(0xE9,0xEB));
  (0x9D0E,(0x89,0xA8)); (0x9D12,(0xE9,0xF7)); (0x9D15,(0xE9,0xF6)); (0x9D1B,(0x89,0x95)); (0x9D1F,(0xE9,0xF4)); (0x9D23,(0xE9,0xF3)); (0x9D26,(0xE9,0xF1)); (0x9D28,(0x8A,0x9B));
  (0x9D2A,(0xE9,0xF0)); (0x9D2B,(0x8E,0xB0)); (0x9D2C,(0x89,0xA7)); (0x9D3B,(0x8D,0x83)); (0x9D3E,(0xE9,0xFA)); (0x9D3F,(0xE9,0xF9)); (0x9D41,(0xE9,0xF8)); (0x9D44,(0xE9,0xF5));
  (0x9D46,(0xE9,0xFB)); (0x9D48,(0xE9,0xFC)); (0x9D50,(0xEA,0x44)); (0x9D51,(0xEA,0x43)); (0x9D59,(0xEA,0x45)); (0x9D5C,(0x89,0x4C)); (0x9D5D,(0xEA,0x40)); (0x9D5E,(0xEA,0x41));
  (0x9D60,(0x8D,0x94)); (0x9D61,(0x96,0xB7)); (0x9D64,(0xEA,0x42)); (0x9D6B,(0xFC,0x48)); (0x9D6C,(0x96,0x51)); (0x9D6F,(0xEA,0x4A)); (0x9D70,(0xFC,0x47)); (0x9D72,(0xEA,0x46));
  (0x9D7A,(0xEA,0x4B)); (0x9D87,(0xEA,0x48)); (0x9D89,(0xEA,0x47)); (0x9D8F,(0x8C,0x7B)); (0x9D9A,(0xEA,0x4C)); (0x9DA4,(0xEA,0x4D)); (0x9DA9,(0xEA,0x4E)); (0x9DAB,(0xEA,0x49));
  (0x9DAF,(0xE9,0xF2)); (0x9DB2,(0xEA,0x4F)); (0x9DB4,(0x92,0xDF)); (0x9DB8,(0xEA,0x53)); (0x9DBA,(0xEA,0x54)); (0x9DBB,(0xEA,0x52)); (0x9DC1,(0xEA,0x51)); (0x9DC2,(0xEA,0x57));
  (0x9DC4,(0xEA,0x50)); (0x9DC6,(0xEA,0x55)); (0x9DCF,(0xEA,0x56)); (0x9DD3,(0xEA,0x59)); (0x9DD9,(0xEA,0x58)); (0x9DE6,(0xEA,0x5B)); (0x9DED,(0xEA,0x5C)); (0x9DEF,(0xEA,0x5D));
  (0x9DF2,(0x98,0x68)); (0x9DF8,(0xEA,0x5A)); (0x9DF9,(0x91,0xE9)); (0x9DFA,(0x8D,0xEB)); (0x9DFD,(0xEA,0x5E)); (0x9E19,(0xFC,0x4A)); (0x9E1A,(0xEA,0x5F)); (0x9E1B,(0xEA,0x60));
  (0x9E1E,(0xEA,0x61)); (0x9E75,(0xEA,0x62)); (0x9E78,(0x8C,0xB2)); (0x9E79,(0xEA,0x63)); (0x9E7D,(0xEA,0x64)); (0x9E7F,(0x8E,0xAD)); (0x9E81,(0xEA,0x65)); (0x9E88,(0xEA,0x66));
  (0x9E8B,(0xEA,0x67)); (0x9E8C,(0xEA,0x68)); (0x9E91,(0xEA,0x6B)); (0x9E92,(0xEA,0x69)); (0x9E93,(0x98,0x5B)); (0x9E95,(0xEA,0x6A)); (0x9E97,(0x97,0xED)); (0x9E9D,(0xEA,0x6C));
  (0x9E9F,(0x97,0xD9)); (0x9EA5,(0xEA,0x6D)); (0x9EA6,(0x94,0x9E)); (0x9EA9,(0xEA,0x6E)); (0x9EAA,(0xEA,0x70)); (0x9EAD,(0xEA,0x71)); (0x9EB8,(0xEA,0x6F)); (0x9EB9,(0x8D,0x8D));
  (0x9EBA,(0x96,0xCB)); (0x9EBB,(0x96,0x83)); (0x9EBC,(0x9B,0xF5)); (0x9EBE,(0x9F,0x80)); (0x9EBF,(0x96,0x9B)); (0x9EC4,(0x89,0xA9)); (0x9ECC,(0xEA,0x73)); (0x9ECD,(0x8B,0x6F));
  (0x9ECE,(0xEA,0x74)); (0x9ECF,(0xEA,0x75)); (0x9ED0,(0xEA,0x76)); (0x9ED1,(0xFC,0x4B)); (0x9ED2,(0x8D,0x95)); (0x9ED4,(0xEA,0x77)); (0x9ED8,(0xE0,0xD2)); (0x9ED9,(0x96,0xD9));
  (0x9EDB,(0x91,0xE1)); (0x9EDC,(0xEA,0x78)); (0x9EDD,(0xEA,0x7A)); (0x9EDE,(0xEA,0x79)); (0x9EE0,(0xEA,0x7B)); (0x9EE5,(0xEA,0x7C)); (0x9EE8,(0xEA,0x7D)); (0x9EEF,(0xEA,0x7E));
  (0x9EF4,(0xEA,0x80)); (0x9EF6,(0xEA,0x81)); (0x9EF7,(0xEA,0x82)); (0x9EF9,(0xEA,0x83)); (0x9EFB,(0xEA,0x84)); (0x9EFC,(0xEA,0x85)); (0x9EFD,(0xEA,0x86)); (0x9F07,(0xEA,0x87));
  (0x9F08,(0xEA,0x88)); (0x9F0E,(0x93,0x43)); (0x9F13,(0x8C,0xDB)); (0x9F15,(0xEA,0x8A)); (0x9F20,(0x91,0x6C)); (0x9F21,(0xEA,0x8B)); (0x9F2C,(0xEA,0x8C)); (0x9F3B,(0x95,0x40))
].
(* src/generated/whatwg/shiftjis_whatwg_tables.rs.inc:1395-3838 ENCODE_TABLE, entries 7168..7325 *)
Definition sjis_encode_table_28 : list (N * (N * N)) := [
  (0x9F3E,(0xEA,0x8D)); (0x9F4A,(0xEA,0x8E)); (0x9F4B,(0xE2,0x56)); (0x9F4E,(0xE6,0xD8)); (0x9F4F,(0xE8,0xEB)); (0x9F52,(0xEA,0x8F)); (0x9F54,(0xEA,0x90)); (0x9F5F,(0xEA,0x92));
  (0x9F60,(0xEA,0x93)); (0x9F61,(0xEA,0x94)); (0x9F62,(0x97,0xEE)); (0x9F63,(0xEA,0x91)); (0x9F66,(0xEA,0x95)); (0x9F67,(0xEA,0x96)); (0x9F6A,(0xEA,0x98)); (0x9F6C,(0xEA,0x97));
  (0x9F72,(0xEA,0x9A)); (0x9F76,(0xEA,0x9B)); (0x9F77,(0xEA,0x99)); (0x9F8D,(0x97,0xB4)); (0x9F95,(0xEA,0x9C)); (0x9F9C,(0xEA,0x9D)); (0x9F9D,(0xE2,0x73)); (0x9FA0,(0xEA,0x9E));
  (0xF929,(0xFA,0xE0)); (0xF9DC,(0xFB,0xE9)); (0xFA0E,(0xFA,0x90)); (0xFA0F,(0xFA,0x9B)); (0xFA10,(0xFA,0x9C)); (0xFA11,(0xFA,0xB1)); (0xFA12,(0xFA,0xD8)); (0xFA13,(0xFA,0xE8));
  (0xFA14,(0xFA,0xEA)); (0xFA15,(0xFB,0x58)); (0xFA16,(0xFB,0x5E)); (0xFA17,(0xFB,0x75)); (0xFA18,(0xFB,0x7D)); (0xFA19,(0xFB,0x7E)); (0xFA1A,(0xFB,0x80)); (0xFA1B,(0xFB,0x82));
  (0xFA1C,(0xFB,0x86)); (0xFA1D,(0xFB,0x89)); (0xFA1E,(0xFB,0x92)); (0xFA1F,(0xFB,0x9D)); (0xFA20,(0xFB,0x9F)); (0xFA21,(0xFB,0xA0)); (0xFA22,(0xFB,0xA9)); (0xFA23,(0xFB,0xB1));
  (0xFA24,(0xFB,0xB3)); (0xFA25,(0xFB,0xB4)); (0xFA26,(0xFB,0xB7)); (0xFA27,(0xFB,0xD3)); (0xFA28,(0xFB,0xDA)); (0xFA29,(0xFB,0xEA)); (0xFA2A,(0xFB,0xF6)); (0xFA2B,(0xFB,0xF7));
  (0xFA2C,(0xFB,0xF9)); (0xFA2D,(0xFC,0x49)); (0xFF01,(0x81,0x49)); (0xFF02,(0xFA,0x57)); (0xFF03,(0x81,0x94)); (0xFF04,(0x81,0x90)); (0xFF05,(0x81,0x93)); (0xFF06,(0x81,0x95));
  (0xFF07,(0xFA,0x56)); (0xFF08,(0x81,0x69)); (0xFF09,(0x81,0x6A)); (0xFF0A,(0x81,0x96)); (0xFF0B,(0x81,0x7B)); (0xFF0C,(0x81,0x43)); (0xFF0D,(0x81,0x7C)); (0xFF0E,(0x81,0x44));
  (0xFF0F,(0x81,0x5E)); (0xFF10,(0x82,0x4F)); (0xFF11,(0x82,0x50)); (0xFF12,(0x82,0x51)); (0xFF13,(0x82,0x52)); (0xFF14,(0x82,0x53)); (0xFF15,(0x82,0x54)); (0xFF16,(0x82,0x55));
  (0xFF17,(0x82,0x56)); (0xFF18,(0x82,0x57)); (0xFF19,(0x82,0x58)); (0xFF1A,(0x81,0x46)); (0xFF1B,(0x81,0x47)); (0xFF1C,(0x81,0x83)); (0xFF1D,(0x81,0x81)); (0xFF1E,(0x81,0x84));
  (0xFF1F,(0x81,0x48)); (0xFF20,(0x81,0x97)); (0xFF21,(0x82,0x60)); (0xFF22,(0x82,0x61)); (0xFF23,(0x82,0x62)); (0xFF24,(0x82,0x63)); (0xFF25,(0x82,0x64)); (0xFF26,(0x82,0x65));
  (0xFF27,(0x82,0x66)); (0xFF28,(0x82,0x67)); (0xFF29,(0x82,0x68)); (0xFF2A,(0x82,0x69)); (0xFF2B,(0x82,0x6A)); (0xFF2C,(0x82,0x6B)); (0xFF2D,(0x82,0x6C)); (0xFF2E,(0x82,0x6D));
  (0xFF2F,(0x82,0x6E)); (0xFF30,(0x82,0x6F)); (0xFF31,(0x82,0x70)); (0xFF32,(0x82,0x71)); (0xFF33,(0x82,0x72)); (0xFF34,(0x82,0x73)); (0xFF35,(0x82,0x74)); (0xFF36,(0x82,0x75));
  (0xFF37,(0x82,0x76)); (0xFF38,(0x82,0x77)); (0xFF39,(0x82,0x78)); (0xFF3A,(0x82,0x79)); (0xFF3B,(0x81,0x6D)); (0xFF3C,(0x81,0x5F)); (0xFF3D,(0x81,0x6E)); (0xFF3E,(0x81,0x4F));
  (0xFF3F,(0x81,0x51)); (0xFF40,(0x81,0x4D)); (0xFF41,(0x82,0x81)); (0xFF42,(0x82,0x82)); (0xFF43,(0x82,0x83)); (0xFF44,(0x82,0x84)); (0xFF45,(0x82,0x85)); (0xFF46,(0x82,0x86));
  (0xFF47,(0x82,0x87)); (0xFF48,(0x82,0x88)); (0xFF49,(0x82,0x89)); (0xFF4A,(0x82,0x8A)); (0xFF4B,(0x82,0x8B)); (0xFF4C,(0x82,0x8C)); (0xFF4D,(0x82,0x8D)); (0xFF4E,(0x82,0x8E));
  (0xFF4F,(0x82,0x8F)); (0xFF50,(0x82,0x90)); (0xFF51,(0x82,0x91)); (0xFF52,(0x82,0x92)); (0xFF53,(0x82,0x93)); (0xFF54,(0x82,0x94)); (0xFF55,(0x82,0x95)); (0xFF56,(0x82,0x96));
  (0xFF57,(0x82,0x97)); (0xFF58,(0x82,0x98)); (0xFF59,(0x82,0x99)); (0xFF5A,(0x82,0x9A)); (0xFF5B,(0x81,0x6F)); (0xFF5C,(0x81,0x62)); (0xFF5D,(0x81,0x70)); (0xFF5E,(0x81,0x60));
  (0xFFE0,(0x81,0x91)); (0xFFE1,(0x81,0x92)); (0xFFE2,(0x81,0xCA)); (0xFFE3,(0x81,0x50)); (0xFFE4,(0xFA,0x55)); (0xFFE5,(0x81,0x8F))
].
(* src/generated/whatwg/shiftjis_whatwg_tables.rs.inc:1395-3838 ENCODE_TABLE: the whole table *)
Definition sjis_encode_table : list (N * (N * N)) :=
  sjis_encode_table_0 ++
  sjis_encode_table_1 ++
  sjis_encode_table_2 ++
  sjis_encode_table_3 ++
  sjis_encode_table_4 ++
  sjis_encode_table_5 ++
  sjis_encode_table_6 ++
  sjis_encode_table_7 ++
  sjis_encode_table_8 ++
  sjis_encode_table_9 ++
  sjis_encode_table_10 ++
  sjis_encode_table_11 ++
  sjis_encode_table_12 ++
  sjis_encode_table_13 ++
  sjis_encode_table_14 ++
  sjis_encode_table_15 ++
  sjis_encode_table_16 ++
  sjis_encode_table_17 ++
  sjis_encode_table_18 ++
  sjis_encode_table_19 ++
  sjis_encode_table_20 ++
  sjis_encode_table_21 ++
  sjis_encode_table_22 ++
  sjis_encode_table_23 ++
  sjis_encode_table_24 ++
  sjis_encode_table_25 ++
  sjis_encode_table_26 ++
  sjis_encode_table_27 ++
  sjis_encode_table_28.

