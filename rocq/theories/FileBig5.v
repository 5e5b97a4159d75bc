(* Generated by tools/gen_files.py; do not edit.  The contents of text files, one literal per line. *)
From Coq Require Import List.
From Verif Require Import FileText.
Import ListNotations.
Local Open Scope line_scope.

(* /repo/encoding_tables/whatwg/index-big5.txt:1-256 *)
Definition index_big5_txt_0 : list line := [
"# For details on index index-big5.txt see the Encoding Standard";
"# https://encoding.spec.whatwg.org/";
"#";
"# Identifier: 8dfc771062e7be0810919082c2c06baa2236147909e0ecc235b1cb9ad782ac82";
"# Date: 2018-01-06";
"";
"  942	0x43F0	䏰 (<CJK Ideograph Extension A>)";
"  943	0x4C32	䰲 (<CJK Ideograph Extension A>)";
"  944	0x4603	䘃 (<CJK Ideograph Extension A>)";
"  945	0x45A6	䖦 (<CJK Ideograph Extension A>)";
"  946	0x4578	䕸 (<CJK Ideograph Extension A>)";
"  947	0x27267	𧉧 (<CJK Ideograph Extension B>)";
"  948	0x4D77	䵷 (<CJK Ideograph Extension A>)";
"  949	0x45B3	䖳 (<CJK Ideograph Extension A>)";
"  950	0x27CB1	𧲱 (<CJK Ideograph Extension B>)";
"  951	0x4CE2	䳢 (<CJK Ideograph Extension A>)";
"  952	0x27CC5	𧳅 (<CJK Ideograph Extension B>)";
"  953	0x3B95	㮕 (<CJK Ideograph Extension A>)";
"  954	0x4736	䜶 (<CJK Ideograph Extension A>)";
"  955	0x4744	䝄 (<CJK Ideograph Extension A>)";
"  956	0x4C47	䱇 (<CJK Ideograph Extension A>)";
"  957	0x4C40	䱀 (<CJK Ideograph Extension A>)";
"  958	0x242BF	𤊿 (<CJK Ideograph Extension B>)";
"  959	0x23617	𣘗 (<CJK Ideograph Extension B>)";
"  960	0x27352	𧍒 (<CJK Ideograph Extension B>)";
"  961	0x26E8B	𦺋 (<CJK Ideograph Extension B>)";
"  962	0x270D2	𧃒 (<CJK Ideograph Extension B>)";
"  963	0x4C57	䱗 (<CJK Ideograph Extension A>)";
"  964	0x2A351	𪍑 (<CJK Ideograph Extension B>)";
"  965	0x474F	䝏 (<CJK Ideograph Extension A>)";
"  966	0x45DA	䗚 (<CJK Ideograph Extension A>)";
"  967	0x4C85	䲅 (<CJK Ideograph Extension A>)";
"  968	0x27C6C	𧱬 (<CJK Ideograph Extension B>)";
"  969	0x4D07	䴇 (<CJK Ideograph Extension A>)";
"  970	0x4AA4	䪤 (<CJK Ideograph Extension A>)";
"  971	0x46A1	䚡 (<CJK Ideograph Extension A>)";
"  972	0x26B23	𦬣 (<CJK Ideograph Extension B>)";
"  973	0x7225	爥 (<CJK Ideograph>)";
"  974	0x25A54	𥩔 (<CJK Ideograph Extension B>)";
"  975	0x21A63	𡩣 (<CJK Ideograph Extension B>)";
"  976	0x23E06	𣸆 (<CJK Ideograph Extension B>)";
"  977	0x23F61	𣽡 (<CJK Ideograph Extension B>)";
"  978	0x664D	晍 (<CJK Ideograph>)";
"  979	0x56FB	囻 (<CJK Ideograph>)";
"  981	0x7D95	綕 (<CJK Ideograph>)";
"  982	0x591D	夝 (<CJK Ideograph>)";
"  983	0x28BB9	𨮹 (<CJK Ideograph Extension B>)";
"  984	0x3DF4	㷴 (<CJK Ideograph Extension A>)";
"  985	0x9734	霴 (<CJK Ideograph>)";
"  986	0x27BEF	𧯯 (<CJK Ideograph Extension B>)";
"  987	0x5BDB	寛 (<CJK Ideograph>)";
"  988	0x21D5E	𡵞 (<CJK Ideograph Extension B>)";
"  989	0x5AA4	媤 (<CJK Ideograph>)";
"  990	0x3625	㘥 (<CJK Ideograph Extension A>)";
"  991	0x29EB0	𩺰 (<CJK Ideograph Extension B>)";
"  992	0x5AD1	嫑 (<CJK Ideograph>)";
"  993	0x5BB7	宷 (<CJK Ideograph>)";
"  994	0x5CFC	峼 (<CJK Ideograph>)";
"  995	0x676E	杮 (<CJK Ideograph>)";
"  996	0x8593	薓 (<CJK Ideograph>)";
"  997	0x29945	𩥅 (<CJK Ideograph Extension B>)";
"  998	0x7461	瑡 (<CJK Ideograph>)";
"  999	0x749D	璝 (<CJK Ideograph>)";
" 1000	0x3875	㡵 (<CJK Ideograph Extension A>)";
" 1001	0x21D53	𡵓 (<CJK Ideograph Extension B>)";
" 1002	0x2369E	𣚞 (<CJK Ideograph Extension B>)";
" 1003	0x26021	𦀡 (<CJK Ideograph Extension B>)";
" 1004	0x3EEC	㻬 (<CJK Ideograph Extension A>)";
" 1005	0x258DE	𥣞 (<CJK Ideograph Extension B>)";
" 1006	0x3AF5	㫵 (<CJK Ideograph Extension A>)";
" 1007	0x7AFC	竼 (<CJK Ideograph>)";
" 1008	0x9F97	龗 (<CJK Ideograph>)";
" 1009	0x24161	𤅡 (<CJK Ideograph Extension B>)";
" 1010	0x2890D	𨤍 (<CJK Ideograph Extension B>)";
" 1011	0x231EA	𣇪 (<CJK Ideograph Extension B>)";
" 1012	0x20A8A	𠪊 (<CJK Ideograph Extension B>)";
" 1013	0x2325E	𣉞 (<CJK Ideograph Extension B>)";
" 1014	0x430A	䌊 (<CJK Ideograph Extension A>)";
" 1015	0x8484	蒄 (<CJK Ideograph>)";
" 1016	0x9F96	龖 (<CJK Ideograph>)";
" 1017	0x942F	鐯 (<CJK Ideograph>)";
" 1018	0x4930	䤰 (<CJK Ideograph Extension A>)";
" 1019	0x8613	蘓 (<CJK Ideograph>)";
" 1020	0x5896	墖 (<CJK Ideograph>)";
" 1021	0x974A	靊 (<CJK Ideograph>)";
" 1022	0x9218	鈘 (<CJK Ideograph>)";
" 1023	0x79D0	秐 (<CJK Ideograph>)";
" 1024	0x7A32	稲 (<CJK Ideograph>)";
" 1025	0x6660	晠 (<CJK Ideograph>)";
" 1026	0x6A29	権 (<CJK Ideograph>)";
" 1027	0x889D	袝 (<CJK Ideograph>)";
" 1028	0x744C	瑌 (<CJK Ideograph>)";
" 1029	0x7BC5	篅 (<CJK Ideograph>)";
" 1030	0x6782	枂 (<CJK Ideograph>)";
" 1031	0x7A2C	稬 (<CJK Ideograph>)";
" 1032	0x524F	剏 (<CJK Ideograph>)";
" 1033	0x9046	遆 (<CJK Ideograph>)";
" 1034	0x34E6	㓦 (<CJK Ideograph Extension A>)";
" 1035	0x73C4	珄 (<CJK Ideograph>)";
" 1036	0x25DB9	𥶹 (<CJK Ideograph Extension B>)";
" 1037	0x74C6	瓆 (<CJK Ideograph>)";
" 1038	0x9FC7	鿇 (<CJK Ideograph>)";
" 1039	0x57B3	垳 (<CJK Ideograph>)";
" 1040	0x492F	䤯 (<CJK Ideograph Extension A>)";
" 1041	0x544C	呌 (<CJK Ideograph>)";
" 1042	0x4131	䄱 (<CJK Ideograph Extension A>)";
" 1043	0x2368E	𣚎 (<CJK Ideograph Extension B>)";
" 1044	0x5818	堘 (<CJK Ideograph>)";
" 1045	0x7A72	穲 (<CJK Ideograph>)";
" 1046	0x27B65	𧭥 (<CJK Ideograph Extension B>)";
" 1047	0x8B8F	讏 (<CJK Ideograph>)";
" 1048	0x46AE	䚮 (<CJK Ideograph Extension A>)";
" 1049	0x26E88	𦺈 (<CJK Ideograph Extension B>)";
" 1050	0x4181	䆁 (<CJK Ideograph Extension A>)";
" 1051	0x25D99	𥶙 (<CJK Ideograph Extension B>)";
" 1052	0x7BAE	箮 (<CJK Ideograph>)";
" 1053	0x224BC	𢒼 (<CJK Ideograph Extension B>)";
" 1054	0x9FC8	鿈 (<CJK Ideograph>)";
" 1055	0x224C1	𢓁 (<CJK Ideograph Extension B>)";
" 1056	0x224C9	𢓉 (<CJK Ideograph Extension B>)";
" 1057	0x224CC	𢓌 (<CJK Ideograph Extension B>)";
" 1058	0x9FC9	鿉 (<CJK Ideograph>)";
" 1059	0x8504	蔄 (<CJK Ideograph>)";
" 1060	0x235BB	𣖻 (<CJK Ideograph Extension B>)";
" 1061	0x40B4	䂴 (<CJK Ideograph Extension A>)";
" 1062	0x9FCA	鿊 (<CJK Ideograph>)";
" 1063	0x44E1	䓡 (<CJK Ideograph Extension A>)";
" 1064	0x2ADFF	𪷿 (<CJK Ideograph Extension C>)";
" 1065	0x62C1	拁 (<CJK Ideograph>)";
" 1066	0x706E	灮 (<CJK Ideograph>)";
" 1067	0x9FCB	鿋 (<CJK Ideograph>)";
" 1099	0x31C0	㇀ (CJK STROKE T)";
" 1100	0x31C1	㇁ (CJK STROKE WG)";
" 1101	0x31C2	㇂ (CJK STROKE XG)";
" 1102	0x31C3	㇃ (CJK STROKE BXG)";
" 1103	0x31C4	㇄ (CJK STROKE SW)";
" 1104	0x2010C	𠄌 (<CJK Ideograph Extension B>)";
" 1105	0x31C5	㇅ (CJK STROKE HZZ)";
" 1106	0x200D1	𠃑 (<CJK Ideograph Extension B>)";
" 1107	0x200CD	𠃍 (<CJK Ideograph Extension B>)";
" 1108	0x31C6	㇆ (CJK STROKE HZG)";
" 1109	0x31C7	㇇ (CJK STROKE HP)";
" 1110	0x200CB	𠃋 (<CJK Ideograph Extension B>)";
" 1111	0x21FE8	𡿨 (<CJK Ideograph Extension B>)";
" 1112	0x31C8	㇈ (CJK STROKE HZWG)";
" 1113	0x200CA	𠃊 (<CJK Ideograph Extension B>)";
" 1114	0x31C9	㇉ (CJK STROKE SZWG)";
" 1115	0x31CA	㇊ (CJK STROKE HZT)";
" 1116	0x31CB	㇋ (CJK STROKE HZZP)";
" 1117	0x31CC	㇌ (CJK STROKE HPWG)";
" 1118	0x2010E	𠄎 (<CJK Ideograph Extension B>)";
" 1119	0x31CD	㇍ (CJK STROKE HZW)";
" 1120	0x31CE	㇎ (CJK STROKE HZZZ)";
" 1121	0x0100	Ā (LATIN CAPITAL LETTER A WITH MACRON)";
" 1122	0x00C1	Á (LATIN CAPITAL LETTER A WITH ACUTE)";
" 1123	0x01CD	Ǎ (LATIN CAPITAL LETTER A WITH CARON)";
" 1124	0x00C0	À (LATIN CAPITAL LETTER A WITH GRAVE)";
" 1125	0x0112	Ē (LATIN CAPITAL LETTER E WITH MACRON)";
" 1126	0x00C9	É (LATIN CAPITAL LETTER E WITH ACUTE)";
" 1127	0x011A	Ě (LATIN CAPITAL LETTER E WITH CARON)";
" 1128	0x00C8	È (LATIN CAPITAL LETTER E WITH GRAVE)";
" 1129	0x014C	Ō (LATIN CAPITAL LETTER O WITH MACRON)";
" 1130	0x00D3	Ó (LATIN CAPITAL LETTER O WITH ACUTE)";
" 1131	0x01D1	Ǒ (LATIN CAPITAL LETTER O WITH CARON)";
" 1132	0x00D2	Ò (LATIN CAPITAL LETTER O WITH GRAVE)";
" 1134	0x1EBE	Ế (LATIN CAPITAL LETTER E WITH CIRCUMFLEX AND ACUTE)";
" 1136	0x1EC0	Ề (LATIN CAPITAL LETTER E WITH CIRCUMFLEX AND GRAVE)";
" 1137	0x00CA	Ê (LATIN CAPITAL LETTER E WITH CIRCUMFLEX)";
" 1138	0x0101	ā (LATIN SMALL LETTER A WITH MACRON)";
" 1139	0x00E1	á (LATIN SMALL LETTER A WITH ACUTE)";
" 1140	0x01CE	ǎ (LATIN SMALL LETTER A WITH CARON)";
" 1141	0x00E0	à (LATIN SMALL LETTER A WITH GRAVE)";
" 1142	0x0251	ɑ (LATIN SMALL LETTER ALPHA)";
" 1143	0x0113	ē (LATIN SMALL LETTER E WITH MACRON)";
" 1144	0x00E9	é (LATIN SMALL LETTER E WITH ACUTE)";
" 1145	0x011B	ě (LATIN SMALL LETTER E WITH CARON)";
" 1146	0x00E8	è (LATIN SMALL LETTER E WITH GRAVE)";
" 1147	0x012B	ī (LATIN SMALL LETTER I WITH MACRON)";
" 1148	0x00ED	í (LATIN SMALL LETTER I WITH ACUTE)";
" 1149	0x01D0	ǐ (LATIN SMALL LETTER I WITH CARON)";
" 1150	0x00EC	ì (LATIN SMALL LETTER I WITH GRAVE)";
" 1151	0x014D	ō (LATIN SMALL LETTER O WITH MACRON)";
" 1152	0x00F3	ó (LATIN SMALL LETTER O WITH ACUTE)";
" 1153	0x01D2	ǒ (LATIN SMALL LETTER O WITH CARON)";
" 1154	0x00F2	ò (LATIN SMALL LETTER O WITH GRAVE)";
" 1155	0x016B	ū (LATIN SMALL LETTER U WITH MACRON)";
" 1156	0x00FA	ú (LATIN SMALL LETTER U WITH ACUTE)";
" 1157	0x01D4	ǔ (LATIN SMALL LETTER U WITH CARON)";
" 1158	0x00F9	ù (LATIN SMALL LETTER U WITH GRAVE)";
" 1159	0x01D6	ǖ (LATIN SMALL LETTER U WITH DIAERESIS AND MACRON)";
" 1160	0x01D8	ǘ (LATIN SMALL LETTER U WITH DIAERESIS AND ACUTE)";
" 1161	0x01DA	ǚ (LATIN SMALL LETTER U WITH DIAERESIS AND CARON)";
" 1162	0x01DC	ǜ (LATIN SMALL LETTER U WITH DIAERESIS AND GRAVE)";
" 1163	0x00FC	ü (LATIN SMALL LETTER U WITH DIAERESIS)";
" 1165	0x1EBF	ế (LATIN SMALL LETTER E WITH CIRCUMFLEX AND ACUTE)";
" 1167	0x1EC1	ề (LATIN SMALL LETTER E WITH CIRCUMFLEX AND GRAVE)";
" 1168	0x00EA	ê (LATIN SMALL LETTER E WITH CIRCUMFLEX)";
" 1169	0x0261	ɡ (LATIN SMALL LETTER SCRIPT G)";
" 1170	0x23DA	⏚ (EARTH GROUND)";
" 1171	0x23DB	⏛ (FUSE)";
" 1256	0x2A3A9	𪎩 (<CJK Ideograph Extension B>)";
" 1257	0x21145	𡅅 (<CJK Ideograph Extension B>)";
" 1259	0x650A	攊 (<CJK Ideograph>)";
" 1262	0x4E3D	丽 (<CJK Ideograph>)";
" 1263	0x6EDD	滝 (<CJK Ideograph>)";
" 1264	0x9D4E	鵎 (<CJK Ideograph>)";
" 1265	0x91DF	釟 (<CJK Ideograph>)";
" 1268	0x27735	𧜵 (<CJK Ideograph Extension B>)";
" 1269	0x6491	撑 (<CJK Ideograph>)";
" 1270	0x4F1A	会 (<CJK Ideograph>)";
" 1271	0x4F28	伨 (<CJK Ideograph>)";
" 1272	0x4FA8	侨 (<CJK Ideograph>)";
" 1273	0x5156	兖 (<CJK Ideograph>)";
" 1274	0x5174	兴 (<CJK Ideograph>)";
" 1275	0x519C	农 (<CJK Ideograph>)";
" 1276	0x51E4	凤 (<CJK Ideograph>)";
" 1277	0x52A1	务 (<CJK Ideograph>)";
" 1278	0x52A8	动 (<CJK Ideograph>)";
" 1279	0x533B	医 (<CJK Ideograph>)";
" 1280	0x534E	华 (<CJK Ideograph>)";
" 1281	0x53D1	发 (<CJK Ideograph>)";
" 1282	0x53D8	变 (<CJK Ideograph>)";
" 1283	0x56E2	团 (<CJK Ideograph>)";
" 1284	0x58F0	声 (<CJK Ideograph>)";
" 1285	0x5904	处 (<CJK Ideograph>)";
" 1286	0x5907	备 (<CJK Ideograph>)";
" 1287	0x5932	夲 (<CJK Ideograph>)";
" 1288	0x5934	头 (<CJK Ideograph>)";
" 1289	0x5B66	学 (<CJK Ideograph>)";
" 1290	0x5B9E	实 (<CJK Ideograph>)";
" 1291	0x5B9F	実 (<CJK Ideograph>)";
" 1292	0x5C9A	岚 (<CJK Ideograph>)";
" 1293	0x5E86	庆 (<CJK Ideograph>)";
" 1294	0x603B	总 (<CJK Ideograph>)";
" 1295	0x6589	斉 (<CJK Ideograph>)";
" 1296	0x67FE	柾 (<CJK Ideograph>)";
" 1297	0x6804	栄 (<CJK Ideograph>)";
" 1298	0x6865	桥 (<CJK Ideograph>)";
" 1299	0x6D4E	济 (<CJK Ideograph>)";
" 1300	0x70BC	炼 (<CJK Ideograph>)";
" 1301	0x7535	电 (<CJK Ideograph>)";
" 1302	0x7EA4	纤 (<CJK Ideograph>)";
" 1303	0x7EAC	纬 (<CJK Ideograph>)";
" 1304	0x7EBA	纺 (<CJK Ideograph>)";
" 1305	0x7EC7	织 (<CJK Ideograph>)";
" 1306	0x7ECF	经 (<CJK Ideograph>)";
" 1307	0x7EDF	统 (<CJK Ideograph>)";
" 1308	0x7F06	缆 (<CJK Ideograph>)";
" 1309	0x7F37	缷 (<CJK Ideograph>)";
" 1310	0x827A	艺 (<CJK Ideograph>)";
" 1311	0x82CF	苏 (<CJK Ideograph>)";
" 1312	0x836F	药 (<CJK Ideograph>)";
" 1313	0x89C6	视 (<CJK Ideograph>)";
" 1314	0x8BBE	设 (<CJK Ideograph>)";
" 1315	0x8BE2	询 (<CJK Ideograph>)";
" 1316	0x8F66	车 (<CJK Ideograph>)"
].
(* /repo/encoding_tables/whatwg/index-big5.txt:257-512 *)
Definition index_big5_txt_1 : list line := [
" 1317	0x8F67	轧 (<CJK Ideograph>)";
" 1318	0x8F6E	轮 (<CJK Ideograph>)";
" 1319	0x7411	琑 (<CJK Ideograph>)";
" 1320	0x7CFC	糼 (<CJK Ideograph>)";
" 1321	0x7DCD	緍 (<CJK Ideograph>)";
" 1322	0x6946	楆 (<CJK Ideograph>)";
" 1323	0x7AC9	竉 (<CJK Ideograph>)";
" 1324	0x5227	刧 (<CJK Ideograph>)";
" 1329	0x918C	醌 (<CJK Ideograph>)";
" 1330	0x78B8	碸 (<CJK Ideograph>)";
" 1331	0x915E	酞 (<CJK Ideograph>)";
" 1332	0x80BC	肼 (<CJK Ideograph>)";
" 1334	0x8D0B	贋 (<CJK Ideograph>)";
" 1335	0x80F6	胶 (<CJK Ideograph>)";
" 1336	0x209E7	𠧧 (<CJK Ideograph Extension B>)";
" 1339	0x809F	肟 (<CJK Ideograph>)";
" 1340	0x9EC7	黇 (<CJK Ideograph>)";
" 1341	0x4CCD	䳍 (<CJK Ideograph Extension A>)";
" 1342	0x9DC9	鷉 (<CJK Ideograph>)";
" 1343	0x9E0C	鸌 (<CJK Ideograph>)";
" 1344	0x4C3E	䰾 (<CJK Ideograph Extension A>)";
" 1345	0x29DF6	𩷶 (<CJK Ideograph Extension B>)";
" 1346	0x2700E	𧀎 (<CJK Ideograph Extension B>)";
" 1347	0x9E0A	鸊 (<CJK Ideograph>)";
" 1348	0x2A133	𪄳 (<CJK Ideograph Extension B>)";
" 1349	0x35C1	㗁 (<CJK Ideograph Extension A>)";
" 1351	0x6E9A	溚 (<CJK Ideograph>)";
" 1352	0x823E	舾 (<CJK Ideograph>)";
" 1353	0x7519	甙 (<CJK Ideograph>)";
" 1355	0x4911	䤑 (<CJK Ideograph Extension A>)";
" 1356	0x9A6C	马 (<CJK Ideograph>)";
" 1357	0x9A8F	骏 (<CJK Ideograph>)";
" 1358	0x9F99	龙 (<CJK Ideograph>)";
" 1359	0x7987	禇 (<CJK Ideograph>)";
" 1360	0x2846C	𨑬 (<CJK Ideograph Extension B>)";
" 1361	0x21DCA	𡷊 (<CJK Ideograph Extension B>)";
" 1362	0x205D0	𠗐 (<CJK Ideograph Extension B>)";
" 1363	0x22AE6	𢫦 (<CJK Ideograph Extension B>)";
" 1364	0x4E24	两 (<CJK Ideograph>)";
" 1365	0x4E81	亁 (<CJK Ideograph>)";
" 1366	0x4E80	亀 (<CJK Ideograph>)";
" 1367	0x4E87	亇 (<CJK Ideograph>)";
" 1368	0x4EBF	亿 (<CJK Ideograph>)";
" 1369	0x4EEB	仫 (<CJK Ideograph>)";
" 1370	0x4F37	伷 (<CJK Ideograph>)";
" 1371	0x344C	㑌 (<CJK Ideograph Extension A>)";
" 1372	0x4FBD	侽 (<CJK Ideograph>)";
" 1373	0x3E48	㹈 (<CJK Ideograph Extension A>)";
" 1374	0x5003	倃 (<CJK Ideograph>)";
" 1375	0x5088	傈 (<CJK Ideograph>)";
" 1376	0x347D	㑽 (<CJK Ideograph Extension A>)";
" 1377	0x3493	㒓 (<CJK Ideograph Extension A>)";
" 1378	0x34A5	㒥 (<CJK Ideograph Extension A>)";
" 1379	0x5186	円 (<CJK Ideograph>)";
" 1380	0x5905	夅 (<CJK Ideograph>)";
" 1381	0x51DB	凛 (<CJK Ideograph>)";
" 1382	0x51FC	凼 (<CJK Ideograph>)";
" 1383	0x5205	刅 (<CJK Ideograph>)";
" 1384	0x4E89	争 (<CJK Ideograph>)";
" 1385	0x5279	剹 (<CJK Ideograph>)";
" 1386	0x5290	劐 (<CJK Ideograph>)";
" 1387	0x5327	匧 (<CJK Ideograph>)";
" 1388	0x35C7	㗇 (<CJK Ideograph Extension A>)";
" 1389	0x53A9	厩 (<CJK Ideograph>)";
" 1390	0x3551	㕑 (<CJK Ideograph Extension A>)";
" 1391	0x53B0	厰 (<CJK Ideograph>)";
" 1392	0x3553	㕓 (<CJK Ideograph Extension A>)";
" 1393	0x53C2	参 (<CJK Ideograph>)";
" 1394	0x5423	吣 (<CJK Ideograph>)";
" 1395	0x356D	㕭 (<CJK Ideograph Extension A>)";
" 1396	0x3572	㕲 (<CJK Ideograph Extension A>)";
" 1397	0x3681	㚁 (<CJK Ideograph Extension A>)";
" 1398	0x5493	咓 (<CJK Ideograph>)";
" 1399	0x54A3	咣 (<CJK Ideograph>)";
" 1400	0x54B4	咴 (<CJK Ideograph>)";
" 1401	0x54B9	咹 (<CJK Ideograph>)";
" 1402	0x54D0	哐 (<CJK Ideograph>)";
" 1403	0x54EF	哯 (<CJK Ideograph>)";
" 1404	0x5518	唘 (<CJK Ideograph>)";
" 1405	0x5523	唣 (<CJK Ideograph>)";
" 1406	0x5528	唨 (<CJK Ideograph>)";
" 1407	0x3598	㖘 (<CJK Ideograph Extension A>)";
" 1408	0x553F	唿 (<CJK Ideograph>)";
" 1409	0x35A5	㖥 (<CJK Ideograph Extension A>)";
" 1410	0x35BF	㖿 (<CJK Ideograph Extension A>)";
" 1411	0x55D7	嗗 (<CJK Ideograph>)";
" 1412	0x35C5	㗅 (<CJK Ideograph Extension A>)";
" 1413	0x27D84	𧶄 (<CJK Ideograph Extension B>)";
" 1414	0x5525	唥 (<CJK Ideograph>)";
" 1416	0x20C42	𠱂 (<CJK Ideograph Extension B>)";
" 1417	0x20D15	𠴕 (<CJK Ideograph Extension B>)";
" 1418	0x2512B	𥄫 (<CJK Ideograph Extension B>)";
" 1419	0x5590	喐 (<CJK Ideograph>)";
" 1420	0x22CC6	𢳆 (<CJK Ideograph Extension B>)";
" 1421	0x39EC	㧬 (<CJK Ideograph Extension A>)";
" 1422	0x20341	𠍁 (<CJK Ideograph Extension B>)";
" 1423	0x8E46	蹆 (<CJK Ideograph>)";
" 1424	0x24DB8	𤶸 (<CJK Ideograph Extension B>)";
" 1425	0x294E5	𩓥 (<CJK Ideograph Extension B>)";
" 1426	0x4053	䁓 (<CJK Ideograph Extension A>)";
" 1427	0x280BE	𨂾 (<CJK Ideograph Extension B>)";
" 1428	0x777A	睺 (<CJK Ideograph>)";
" 1429	0x22C38	𢰸 (<CJK Ideograph Extension B>)";
" 1430	0x3A34	㨴 (<CJK Ideograph Extension A>)";
" 1431	0x47D5	䟕 (<CJK Ideograph Extension A>)";
" 1432	0x2815D	𨅝 (<CJK Ideograph Extension B>)";
" 1433	0x269F2	𦧲 (<CJK Ideograph Extension B>)";
" 1434	0x24DEA	𤷪 (<CJK Ideograph Extension B>)";
" 1435	0x64DD	擝 (<CJK Ideograph>)";
" 1436	0x20D7C	𠵼 (<CJK Ideograph Extension B>)";
" 1437	0x20FB4	𠾴 (<CJK Ideograph Extension B>)";
" 1438	0x20CD5	𠳕 (<CJK Ideograph Extension B>)";
" 1439	0x210F4	𡃴 (<CJK Ideograph Extension B>)";
" 1440	0x648D	撍 (<CJK Ideograph>)";
" 1441	0x8E7E	蹾 (<CJK Ideograph>)";
" 1442	0x20E96	𠺖 (<CJK Ideograph Extension B>)";
" 1443	0x20C0B	𠰋 (<CJK Ideograph Extension B>)";
" 1444	0x20F64	𠽤 (<CJK Ideograph Extension B>)";
" 1445	0x22CA9	𢲩 (<CJK Ideograph Extension B>)";
" 1446	0x28256	𨉖 (<CJK Ideograph Extension B>)";
" 1447	0x244D3	𤓓 (<CJK Ideograph Extension B>)";
" 1449	0x20D46	𠵆 (<CJK Ideograph Extension B>)";
" 1450	0x29A4D	𩩍 (<CJK Ideograph Extension B>)";
" 1451	0x280E9	𨃩 (<CJK Ideograph Extension B>)";
" 1452	0x47F4	䟴 (<CJK Ideograph Extension A>)";
" 1453	0x24EA7	𤺧 (<CJK Ideograph Extension B>)";
" 1454	0x22CC2	𢳂 (<CJK Ideograph Extension B>)";
" 1455	0x9AB2	骲 (<CJK Ideograph>)";
" 1456	0x3A67	㩧 (<CJK Ideograph Extension A>)";
" 1457	0x295F4	𩗴 (<CJK Ideograph Extension B>)";
" 1458	0x3FED	㿭 (<CJK Ideograph Extension A>)";
" 1459	0x3506	㔆 (<CJK Ideograph Extension A>)";
" 1460	0x252C7	𥋇 (<CJK Ideograph Extension B>)";
" 1461	0x297D4	𩟔 (<CJK Ideograph Extension B>)";
" 1462	0x278C8	𧣈 (<CJK Ideograph Extension B>)";
" 1463	0x22D44	𢵄 (<CJK Ideograph Extension B>)";
" 1464	0x9D6E	鵮 (<CJK Ideograph>)";
" 1465	0x9815	頕 (<CJK Ideograph>)";
" 1467	0x43D9	䏙 (<CJK Ideograph Extension A>)";
" 1468	0x260A5	𦂥 (<CJK Ideograph Extension B>)";
" 1469	0x64B4	撴 (<CJK Ideograph>)";
" 1470	0x54E3	哣 (<CJK Ideograph>)";
" 1471	0x22D4C	𢵌 (<CJK Ideograph Extension B>)";
" 1472	0x22BCA	𢯊 (<CJK Ideograph Extension B>)";
" 1473	0x21077	𡁷 (<CJK Ideograph Extension B>)";
" 1474	0x39FB	㧻 (<CJK Ideograph Extension A>)";
" 1475	0x2106F	𡁯 (<CJK Ideograph Extension B>)";
" 1476	0x266DA	𦛚 (<CJK Ideograph Extension B>)";
" 1477	0x26716	𦜖 (<CJK Ideograph Extension B>)";
" 1478	0x279A0	𧦠 (<CJK Ideograph Extension B>)";
" 1479	0x64EA	擪 (<CJK Ideograph>)";
" 1480	0x25052	𥁒 (<CJK Ideograph Extension B>)";
" 1481	0x20C43	𠱃 (<CJK Ideograph Extension B>)";
" 1482	0x8E68	蹨 (<CJK Ideograph>)";
" 1483	0x221A1	𢆡 (<CJK Ideograph Extension B>)";
" 1484	0x28B4C	𨭌 (<CJK Ideograph Extension B>)";
" 1485	0x20731	𠜱 (<CJK Ideograph Extension B>)";
" 1487	0x480B	䠋 (<CJK Ideograph Extension A>)";
" 1488	0x201A9	𠆩 (<CJK Ideograph Extension B>)";
" 1489	0x3FFA	㿺 (<CJK Ideograph Extension A>)";
" 1490	0x5873	塳 (<CJK Ideograph>)";
" 1491	0x22D8D	𢶍 (<CJK Ideograph Extension B>)";
" 1493	0x245C8	𤗈 (<CJK Ideograph Extension B>)";
" 1494	0x204FC	𠓼 (<CJK Ideograph Extension B>)";
" 1495	0x26097	𦂗 (<CJK Ideograph Extension B>)";
" 1496	0x20F4C	𠽌 (<CJK Ideograph Extension B>)";
" 1497	0x20D96	𠶖 (<CJK Ideograph Extension B>)";
" 1498	0x5579	啹 (<CJK Ideograph>)";
" 1499	0x40BB	䂻 (<CJK Ideograph Extension A>)";
" 1500	0x43BA	䎺 (<CJK Ideograph Extension A>)";
" 1502	0x4AB4	䪴 (<CJK Ideograph Extension A>)";
" 1503	0x22A66	𢩦 (<CJK Ideograph Extension B>)";
" 1504	0x2109D	𡂝 (<CJK Ideograph Extension B>)";
" 1505	0x81AA	膪 (<CJK Ideograph>)";
" 1506	0x98F5	飵 (<CJK Ideograph>)";
" 1507	0x20D9C	𠶜 (<CJK Ideograph Extension B>)";
" 1508	0x6379	捹 (<CJK Ideograph>)";
" 1509	0x39FE	㧾 (<CJK Ideograph Extension A>)";
" 1510	0x22775	𢝵 (<CJK Ideograph Extension B>)";
" 1511	0x8DC0	跀 (<CJK Ideograph>)";
" 1512	0x56A1	嚡 (<CJK Ideograph>)";
" 1513	0x647C	摼 (<CJK Ideograph>)";
" 1514	0x3E43	㹃 (<CJK Ideograph Extension A>)";
" 1516	0x2A601	𪘁 (<CJK Ideograph Extension B>)";
" 1517	0x20E09	𠸉 (<CJK Ideograph Extension B>)";
" 1518	0x22ACF	𢫏 (<CJK Ideograph Extension B>)";
" 1519	0x22CC9	𢳉 (<CJK Ideograph Extension B>)";
" 1521	0x210C8	𡃈 (<CJK Ideograph Extension B>)";
" 1522	0x239C2	𣧂 (<CJK Ideograph Extension B>)";
" 1523	0x3992	㦒 (<CJK Ideograph Extension A>)";
" 1524	0x3A06	㨆 (<CJK Ideograph Extension A>)";
" 1525	0x2829B	𨊛 (<CJK Ideograph Extension B>)";
" 1526	0x3578	㕸 (<CJK Ideograph Extension A>)";
" 1527	0x25E49	𥹉 (<CJK Ideograph Extension B>)";
" 1528	0x220C7	𢃇 (<CJK Ideograph Extension B>)";
" 1529	0x5652	噒 (<CJK Ideograph>)";
" 1530	0x20F31	𠼱 (<CJK Ideograph Extension B>)";
" 1531	0x22CB2	𢲲 (<CJK Ideograph Extension B>)";
" 1532	0x29720	𩜠 (<CJK Ideograph Extension B>)";
" 1533	0x34BC	㒼 (<CJK Ideograph Extension A>)";
" 1534	0x6C3D	氽 (<CJK Ideograph>)";
" 1535	0x24E3B	𤸻 (<CJK Ideograph Extension B>)";
" 1538	0x27574	𧕴 (<CJK Ideograph Extension B>)";
" 1539	0x22E8B	𢺋 (<CJK Ideograph Extension B>)";
" 1540	0x22208	𢈈 (<CJK Ideograph Extension B>)";
" 1541	0x2A65B	𪙛 (<CJK Ideograph Extension B>)";
" 1542	0x28CCD	𨳍 (<CJK Ideograph Extension B>)";
" 1543	0x20E7A	𠹺 (<CJK Ideograph Extension B>)";
" 1544	0x20C34	𠰴 (<CJK Ideograph Extension B>)";
" 1545	0x2681C	𦠜 (<CJK Ideograph Extension B>)";
" 1546	0x7F93	羓 (<CJK Ideograph>)";
" 1547	0x210CF	𡃏 (<CJK Ideograph Extension B>)";
" 1548	0x22803	𢠃 (<CJK Ideograph Extension B>)";
" 1549	0x22939	𢤹 (<CJK Ideograph Extension B>)";
" 1550	0x35FB	㗻 (<CJK Ideograph Extension A>)";
" 1551	0x251E3	𥇣 (<CJK Ideograph Extension B>)";
" 1552	0x20E8C	𠺌 (<CJK Ideograph Extension B>)";
" 1553	0x20F8D	𠾍 (<CJK Ideograph Extension B>)";
" 1554	0x20EAA	𠺪 (<CJK Ideograph Extension B>)";
" 1555	0x3F93	㾓 (<CJK Ideograph Extension A>)";
" 1556	0x20F30	𠼰 (<CJK Ideograph Extension B>)";
" 1557	0x20D47	𠵇 (<CJK Ideograph Extension B>)";
" 1558	0x2114F	𡅏 (<CJK Ideograph Extension B>)";
" 1559	0x20E4C	𠹌 (<CJK Ideograph Extension B>)";
" 1561	0x20EAB	𠺫 (<CJK Ideograph Extension B>)";
" 1562	0x20BA9	𠮩 (<CJK Ideograph Extension B>)";
" 1563	0x20D48	𠵈 (<CJK Ideograph Extension B>)";
" 1564	0x210C0	𡃀 (<CJK Ideograph Extension B>)";
" 1565	0x2113D	𡄽 (<CJK Ideograph Extension B>)";
" 1566	0x3FF9	㿹 (<CJK Ideograph Extension A>)";
" 1567	0x22696	𢚖 (<CJK Ideograph Extension B>)";
" 1568	0x6432	搲 (<CJK Ideograph>)";
" 1569	0x20FAD	𠾭 (<CJK Ideograph Extension B>)";
" 1570	0x233F4	𣏴 (<CJK Ideograph Extension B>)";
" 1571	0x27639	𧘹 (<CJK Ideograph Extension B>)";
" 1572	0x22BCE	𢯎 (<CJK Ideograph Extension B>)";
" 1573	0x20D7E	𠵾 (<CJK Ideograph Extension B>)";
" 1574	0x20D7F	𠵿 (<CJK Ideograph Extension B>)";
" 1575	0x22C51	𢱑 (<CJK Ideograph Extension B>)";
" 1576	0x22C55	𢱕 (<CJK Ideograph Extension B>)";
" 1577	0x3A18	㨘 (<CJK Ideograph Extension A>)";
" 1578	0x20E98	𠺘 (<CJK Ideograph Extension B>)";
" 1579	0x210C7	𡃇 (<CJK Ideograph Extension B>)";
" 1580	0x20F2E	𠼮 (<CJK Ideograph Extension B>)";
" 1581	0x2A632	𪘲 (<CJK Ideograph Extension B>)";
" 1582	0x26B50	𦭐 (<CJK Ideograph Extension B>)";
" 1583	0x28CD2	𨳒 (<CJK Ideograph Extension B>)";
" 1584	0x28D99	𨶙 (<CJK Ideograph Extension B>)";
" 1585	0x28CCA	𨳊 (<CJK Ideograph Extension B>)";
" 1586	0x95AA	閪 (<CJK Ideograph>)";
" 1587	0x54CC	哌 (<CJK Ideograph>)";
" 1588	0x82C4	苄 (<CJK Ideograph>)";
" 1589	0x55B9	喹 (<CJK Ideograph>)";
" 1591	0x29EC3	𩻃 (<CJK Ideograph Extension B>)";
" 1592	0x9C26	鰦 (<CJK Ideograph>)";
" 1593	0x9AB6	骶 (<CJK Ideograph>)"
].
(* /repo/encoding_tables/whatwg/index-big5.txt:513-768 *)
Definition index_big5_txt_2 : list line := [
" 1594	0x2775E	𧝞 (<CJK Ideograph Extension B>)";
" 1595	0x22DEE	𢷮 (<CJK Ideograph Extension B>)";
" 1596	0x7140	煀 (<CJK Ideograph>)";
" 1597	0x816D	腭 (<CJK Ideograph>)";
" 1598	0x80EC	胬 (<CJK Ideograph>)";
" 1599	0x5C1C	尜 (<CJK Ideograph>)";
" 1600	0x26572	𦕲 (<CJK Ideograph Extension B>)";
" 1601	0x8134	脴 (<CJK Ideograph>)";
" 1602	0x3797	㞗 (<CJK Ideograph Extension A>)";
" 1603	0x535F	卟 (<CJK Ideograph>)";
" 1604	0x280BD	𨂽 (<CJK Ideograph Extension B>)";
" 1605	0x91B6	醶 (<CJK Ideograph>)";
" 1606	0x20EFA	𠻺 (<CJK Ideograph Extension B>)";
" 1607	0x20E0F	𠸏 (<CJK Ideograph Extension B>)";
" 1608	0x20E77	𠹷 (<CJK Ideograph Extension B>)";
" 1609	0x20EFB	𠻻 (<CJK Ideograph Extension B>)";
" 1610	0x35DD	㗝 (<CJK Ideograph Extension A>)";
" 1611	0x24DEB	𤷫 (<CJK Ideograph Extension B>)";
" 1612	0x3609	㘉 (<CJK Ideograph Extension A>)";
" 1613	0x20CD6	𠳖 (<CJK Ideograph Extension B>)";
" 1614	0x56AF	嚯 (<CJK Ideograph>)";
" 1615	0x227B5	𢞵 (<CJK Ideograph Extension B>)";
" 1616	0x210C9	𡃉 (<CJK Ideograph Extension B>)";
" 1617	0x20E10	𠸐 (<CJK Ideograph Extension B>)";
" 1618	0x20E78	𠹸 (<CJK Ideograph Extension B>)";
" 1619	0x21078	𡁸 (<CJK Ideograph Extension B>)";
" 1620	0x21148	𡅈 (<CJK Ideograph Extension B>)";
" 1621	0x28207	𨈇 (<CJK Ideograph Extension B>)";
" 1622	0x21455	𡑕 (<CJK Ideograph Extension B>)";
" 1623	0x20E79	𠹹 (<CJK Ideograph Extension B>)";
" 1624	0x24E50	𤹐 (<CJK Ideograph Extension B>)";
" 1625	0x22DA4	𢶤 (<CJK Ideograph Extension B>)";
" 1626	0x5A54	婔 (<CJK Ideograph>)";
" 1627	0x2101D	𡀝 (<CJK Ideograph Extension B>)";
" 1628	0x2101E	𡀞 (<CJK Ideograph Extension B>)";
" 1629	0x210F5	𡃵 (<CJK Ideograph Extension B>)";
" 1630	0x210F6	𡃶 (<CJK Ideograph Extension B>)";
" 1631	0x579C	垜 (<CJK Ideograph>)";
" 1632	0x20E11	𠸑 (<CJK Ideograph Extension B>)";
" 1633	0x27694	𧚔 (<CJK Ideograph Extension B>)";
" 1634	0x282CD	𨋍 (<CJK Ideograph Extension B>)";
" 1635	0x20FB5	𠾵 (<CJK Ideograph Extension B>)";
" 1636	0x20E7B	𠹻 (<CJK Ideograph Extension B>)";
" 1637	0x2517E	𥅾 (<CJK Ideograph Extension B>)";
" 1638	0x3703	㜃 (<CJK Ideograph Extension A>)";
" 1639	0x20FB6	𠾶 (<CJK Ideograph Extension B>)";
" 1640	0x21180	𡆀 (<CJK Ideograph Extension B>)";
" 1641	0x252D8	𥋘 (<CJK Ideograph Extension B>)";
" 1642	0x2A2BD	𪊽 (<CJK Ideograph Extension B>)";
" 1643	0x249DA	𤧚 (<CJK Ideograph Extension B>)";
" 1644	0x2183A	𡠺 (<CJK Ideograph Extension B>)";
" 1645	0x24177	𤅷 (<CJK Ideograph Extension B>)";
" 1646	0x2827C	𨉼 (<CJK Ideograph Extension B>)";
" 1647	0x5899	墙 (<CJK Ideograph>)";
" 1648	0x5268	剨 (<CJK Ideograph>)";
" 1649	0x361A	㘚 (<CJK Ideograph Extension A>)";
" 1650	0x2573D	𥜽 (<CJK Ideograph Extension B>)";
" 1651	0x7BB2	箲 (<CJK Ideograph>)";
" 1652	0x5B68	孨 (<CJK Ideograph>)";
" 1653	0x4800	䠀 (<CJK Ideograph Extension A>)";
" 1654	0x4B2C	䬬 (<CJK Ideograph Extension A>)";
" 1655	0x9F27	鼧 (<CJK Ideograph>)";
" 1656	0x49E7	䧧 (<CJK Ideograph Extension A>)";
" 1657	0x9C1F	鰟 (<CJK Ideograph>)";
" 1658	0x9B8D	鮍 (<CJK Ideograph>)";
" 1659	0x25B74	𥭴 (<CJK Ideograph Extension B>)";
" 1660	0x2313D	𣄽 (<CJK Ideograph Extension B>)";
" 1661	0x55FB	嗻 (<CJK Ideograph>)";
" 1662	0x35F2	㗲 (<CJK Ideograph Extension A>)";
" 1663	0x5689	嚉 (<CJK Ideograph>)";
" 1664	0x4E28	丨 (<CJK Ideograph>)";
" 1665	0x5902	夂 (<CJK Ideograph>)";
" 1666	0x21BC1	𡯁 (<CJK Ideograph Extension B>)";
" 1667	0x2F878	屮 (CJK COMPATIBILITY IDEOGRAPH-2F878)";
" 1668	0x9751	靑 (<CJK Ideograph>)";
" 1669	0x20086	𠂆 (<CJK Ideograph Extension B>)";
" 1670	0x4E5B	乛 (<CJK Ideograph>)";
" 1671	0x4EBB	亻 (<CJK Ideograph>)";
" 1672	0x353E	㔾 (<CJK Ideograph Extension A>)";
" 1673	0x5C23	尣 (<CJK Ideograph>)";
" 1674	0x5F51	彑 (<CJK Ideograph>)";
" 1675	0x5FC4	忄 (<CJK Ideograph>)";
" 1676	0x38FA	㣺 (<CJK Ideograph Extension A>)";
" 1677	0x624C	扌 (<CJK Ideograph>)";
" 1678	0x6535	攵 (<CJK Ideograph>)";
" 1679	0x6B7A	歺 (<CJK Ideograph>)";
" 1680	0x6C35	氵 (<CJK Ideograph>)";
" 1681	0x6C3A	氺 (<CJK Ideograph>)";
" 1682	0x706C	灬 (<CJK Ideograph>)";
" 1683	0x722B	爫 (<CJK Ideograph>)";
" 1684	0x4E2C	丬 (<CJK Ideograph>)";
" 1685	0x72AD	犭 (<CJK Ideograph>)";
" 1686	0x248E9	𤣩 (<CJK Ideograph Extension B>)";
" 1687	0x7F52	罒 (<CJK Ideograph>)";
" 1688	0x793B	礻 (<CJK Ideograph>)";
" 1689	0x7CF9	糹 (<CJK Ideograph>)";
" 1690	0x7F53	罓 (<CJK Ideograph>)";
" 1691	0x2626A	𦉪 (<CJK Ideograph Extension B>)";
" 1692	0x34C1	㓁 (<CJK Ideograph Extension A>)";
" 1694	0x2634B	𦍋 (<CJK Ideograph Extension B>)";
" 1695	0x8002	耂 (<CJK Ideograph>)";
" 1696	0x8080	肀 (<CJK Ideograph>)";
" 1697	0x26612	𦘒 (<CJK Ideograph Extension B>)";
" 1698	0x26951	𦥑 (<CJK Ideograph Extension B>)";
" 1699	0x535D	卝 (<CJK Ideograph>)";
" 1700	0x8864	衤 (<CJK Ideograph>)";
" 1701	0x89C1	见 (<CJK Ideograph>)";
" 1702	0x278B2	𧢲 (<CJK Ideograph Extension B>)";
" 1703	0x8BA0	讠 (<CJK Ideograph>)";
" 1704	0x8D1D	贝 (<CJK Ideograph>)";
" 1705	0x9485	钅 (<CJK Ideograph>)";
" 1706	0x9578	镸 (<CJK Ideograph>)";
" 1707	0x957F	长 (<CJK Ideograph>)";
" 1708	0x95E8	门 (<CJK Ideograph>)";
" 1709	0x28E0F	𨸏 (<CJK Ideograph Extension B>)";
" 1710	0x97E6	韦 (<CJK Ideograph>)";
" 1711	0x9875	页 (<CJK Ideograph>)";
" 1712	0x98CE	风 (<CJK Ideograph>)";
" 1713	0x98DE	飞 (<CJK Ideograph>)";
" 1714	0x9963	饣 (<CJK Ideograph>)";
" 1715	0x29810	𩠐 (<CJK Ideograph Extension B>)";
" 1716	0x9C7C	鱼 (<CJK Ideograph>)";
" 1717	0x9E1F	鸟 (<CJK Ideograph>)";
" 1718	0x9EC4	黄 (<CJK Ideograph>)";
" 1719	0x6B6F	歯 (<CJK Ideograph>)";
" 1720	0xF907	龜 (CJK COMPATIBILITY IDEOGRAPH-F907)";
" 1721	0x4E37	丷 (<CJK Ideograph>)";
" 1722	0x20087	𠂇 (<CJK Ideograph Extension B>)";
" 1723	0x961D	阝 (<CJK Ideograph>)";
" 1724	0x6237	户 (<CJK Ideograph>)";
" 1725	0x94A2	钢 (<CJK Ideograph>)";
" 1727	0x503B	倻 (<CJK Ideograph>)";
" 1728	0x6DFE	淾 (<CJK Ideograph>)";
" 1729	0x29C73	𩱳 (<CJK Ideograph Extension B>)";
" 1730	0x9FA6	龦 (<CJK Ideograph>)";
" 1731	0x3DC9	㷉 (<CJK Ideograph Extension A>)";
" 1732	0x888F	袏 (<CJK Ideograph>)";
" 1733	0x2414E	𤅎 (<CJK Ideograph Extension B>)";
" 1734	0x7077	灷 (<CJK Ideograph>)";
" 1735	0x5CF5	峵 (<CJK Ideograph>)";
" 1736	0x4B20	䬠 (<CJK Ideograph Extension A>)";
" 1737	0x251CD	𥇍 (<CJK Ideograph Extension B>)";
" 1738	0x3559	㕙 (<CJK Ideograph Extension A>)";
" 1739	0x25D30	𥴰 (<CJK Ideograph Extension B>)";
" 1740	0x6122	愢 (<CJK Ideograph>)";
" 1741	0x28A32	𨨲 (<CJK Ideograph Extension B>)";
" 1742	0x8FA7	辧 (<CJK Ideograph>)";
" 1743	0x91F6	釶 (<CJK Ideograph>)";
" 1744	0x7191	熑 (<CJK Ideograph>)";
" 1745	0x6719	朙 (<CJK Ideograph>)";
" 1746	0x73BA	玺 (<CJK Ideograph>)";
" 1747	0x23281	𣊁 (<CJK Ideograph Extension B>)";
" 1748	0x2A107	𪄇 (<CJK Ideograph Extension B>)";
" 1749	0x3C8B	㲋 (<CJK Ideograph Extension A>)";
" 1750	0x21980	𡦀 (<CJK Ideograph Extension B>)";
" 1751	0x4B10	䬐 (<CJK Ideograph Extension A>)";
" 1752	0x78E4	磤 (<CJK Ideograph>)";
" 1753	0x7402	琂 (<CJK Ideograph>)";
" 1754	0x51AE	冮 (<CJK Ideograph>)";
" 1755	0x2870F	𨜏 (<CJK Ideograph Extension B>)";
" 1756	0x4009	䀉 (<CJK Ideograph Extension A>)";
" 1757	0x6A63	橣 (<CJK Ideograph>)";
" 1758	0x2A2BA	𪊺 (<CJK Ideograph Extension B>)";
" 1759	0x4223	䈣 (<CJK Ideograph Extension A>)";
" 1760	0x860F	蘏 (<CJK Ideograph>)";
" 1761	0x20A6F	𠩯 (<CJK Ideograph Extension B>)";
" 1762	0x7A2A	稪 (<CJK Ideograph>)";
" 1763	0x29947	𩥇 (<CJK Ideograph Extension B>)";
" 1764	0x28AEA	𨫪 (<CJK Ideograph Extension B>)";
" 1765	0x9755	靕 (<CJK Ideograph>)";
" 1766	0x704D	灍 (<CJK Ideograph>)";
" 1767	0x5324	匤 (<CJK Ideograph>)";
" 1768	0x2207E	𢁾 (<CJK Ideograph Extension B>)";
" 1769	0x93F4	鏴 (<CJK Ideograph>)";
" 1770	0x76D9	盙 (<CJK Ideograph>)";
" 1771	0x289E3	𨧣 (<CJK Ideograph Extension B>)";
" 1772	0x9FA7	龧 (<CJK Ideograph>)";
" 1773	0x77DD	矝 (<CJK Ideograph>)";
" 1774	0x4EA3	亣 (<CJK Ideograph>)";
" 1775	0x4FF0	俰 (<CJK Ideograph>)";
" 1776	0x50BC	傼 (<CJK Ideograph>)";
" 1777	0x4E2F	丯 (<CJK Ideograph>)";
" 1778	0x4F17	众 (<CJK Ideograph>)";
" 1779	0x9FA8	龨 (<CJK Ideograph>)";
" 1780	0x5434	吴 (<CJK Ideograph>)";
" 1781	0x7D8B	綋 (<CJK Ideograph>)";
" 1782	0x5892	墒 (<CJK Ideograph>)";
" 1783	0x58D0	壐 (<CJK Ideograph>)";
" 1784	0x21DB6	𡶶 (<CJK Ideograph Extension B>)";
" 1785	0x5E92	庒 (<CJK Ideograph>)";
" 1786	0x5E99	庙 (<CJK Ideograph>)";
" 1787	0x5FC2	忂 (<CJK Ideograph>)";
" 1788	0x22712	𢜒 (<CJK Ideograph Extension B>)";
" 1789	0x658B	斋 (<CJK Ideograph>)";
" 1790	0x233F9	𣏹 (<CJK Ideograph Extension B>)";
" 1791	0x6919	椙 (<CJK Ideograph>)";
" 1792	0x6A43	橃 (<CJK Ideograph>)";
" 1793	0x23C63	𣱣 (<CJK Ideograph Extension B>)";
" 1794	0x6CFF	泿 (<CJK Ideograph>)";
" 1796	0x7200	爀 (<CJK Ideograph>)";
" 1797	0x24505	𤔅 (<CJK Ideograph Extension B>)";
" 1798	0x738C	玌 (<CJK Ideograph>)";
" 1799	0x3EDB	㻛 (<CJK Ideograph Extension A>)";
" 1800	0x24A13	𤨓 (<CJK Ideograph Extension B>)";
" 1801	0x5B15	嬕 (<CJK Ideograph>)";
" 1802	0x74B9	璹 (<CJK Ideograph>)";
" 1803	0x8B83	讃 (<CJK Ideograph>)";
" 1804	0x25CA4	𥲤 (<CJK Ideograph Extension B>)";
" 1805	0x25695	𥚕 (<CJK Ideograph Extension B>)";
" 1806	0x7A93	窓 (<CJK Ideograph>)";
" 1807	0x7BEC	篬 (<CJK Ideograph>)";
" 1808	0x7CC3	糃 (<CJK Ideograph>)";
" 1809	0x7E6C	繬 (<CJK Ideograph>)";
" 1810	0x82F8	苸 (<CJK Ideograph>)";
" 1811	0x8597	薗 (<CJK Ideograph>)";
" 1812	0x9FA9	龩 (<CJK Ideograph>)";
" 1813	0x8890	袐 (<CJK Ideograph>)";
" 1814	0x9FAA	龪 (<CJK Ideograph>)";
" 1815	0x8EB9	躹 (<CJK Ideograph>)";
" 1816	0x9FAB	龫 (<CJK Ideograph>)";
" 1817	0x8FCF	迏 (<CJK Ideograph>)";
" 1818	0x855F	蕟 (<CJK Ideograph>)";
" 1819	0x99E0	駠 (<CJK Ideograph>)";
" 1820	0x9221	鈡 (<CJK Ideograph>)";
" 1821	0x9FAC	龬 (<CJK Ideograph>)";
" 1822	0x28DB9	𨶹 (<CJK Ideograph Extension B>)";
" 1823	0x2143F	𡐿 (<CJK Ideograph Extension B>)";
" 1824	0x4071	䁱 (<CJK Ideograph Extension A>)";
" 1825	0x42A2	䊢 (<CJK Ideograph Extension A>)";
" 1826	0x5A1A	娚 (<CJK Ideograph>)";
" 1830	0x9868	顨 (<CJK Ideograph>)";
" 1831	0x676B	杫 (<CJK Ideograph>)";
" 1832	0x4276	䉶 (<CJK Ideograph Extension A>)";
" 1833	0x573D	圽 (<CJK Ideograph>)";
" 1835	0x85D6	藖 (<CJK Ideograph>)";
" 1836	0x2497B	𤥻 (<CJK Ideograph Extension B>)";
" 1837	0x82BF	芿 (<CJK Ideograph>)";
" 1838	0x2710D	𧄍 (<CJK Ideograph Extension B>)";
" 1839	0x4C81	䲁 (<CJK Ideograph Extension A>)";
" 1840	0x26D74	𦵴 (<CJK Ideograph Extension B>)";
" 1841	0x5D7B	嵻 (<CJK Ideograph>)";
" 1842	0x26B15	𦬕 (<CJK Ideograph Extension B>)";
" 1843	0x26FBE	𦾾 (<CJK Ideograph Extension B>)";
" 1844	0x9FAD	龭 (<CJK Ideograph>)";
" 1845	0x9FAE	龮 (<CJK Ideograph>)";
" 1846	0x5B96	宖 (<CJK Ideograph>)";
" 1847	0x9FAF	龯 (<CJK Ideograph>)";
" 1848	0x66E7	曧 (<CJK Ideograph>)";
" 1849	0x7E5B	繛 (<CJK Ideograph>)";
" 1850	0x6E57	湗 (<CJK Ideograph>)";
" 1851	0x79CA	秊 (<CJK Ideograph>)";
" 1852	0x3D88	㶈 (<CJK Ideograph Extension A>)";
" 1853	0x44C3	䓃 (<CJK Ideograph Extension A>)";
" 1854	0x23256	𣉖 (<CJK Ideograph Extension B>)";
" 1855	0x22796	𢞖 (<CJK Ideograph Extension B>)";
" 1856	0x439A	䎚 (<CJK Ideograph Extension A>)"
].
(* /repo/encoding_tables/whatwg/index-big5.txt:769-1024 *)
Definition index_big5_txt_3 : list line := [
" 1857	0x4536	䔶 (<CJK Ideograph Extension A>)";
" 1859	0x5CD5	峕 (<CJK Ideograph>)";
" 1860	0x23B1A	𣬚 (<CJK Ideograph Extension B>)";
" 1861	0x8AF9	諹 (<CJK Ideograph>)";
" 1862	0x5C78	屸 (<CJK Ideograph>)";
" 1863	0x3D12	㴒 (<CJK Ideograph Extension A>)";
" 1864	0x23551	𣕑 (<CJK Ideograph Extension B>)";
" 1865	0x5D78	嵸 (<CJK Ideograph>)";
" 1866	0x9FB2	龲 (<CJK Ideograph>)";
" 1867	0x7157	煗 (<CJK Ideograph>)";
" 1868	0x4558	䕘 (<CJK Ideograph Extension A>)";
" 1869	0x240EC	𤃬 (<CJK Ideograph Extension B>)";
" 1870	0x21E23	𡸣 (<CJK Ideograph Extension B>)";
" 1871	0x4C77	䱷 (<CJK Ideograph Extension A>)";
" 1872	0x3978	㥸 (<CJK Ideograph Extension A>)";
" 1873	0x344A	㑊 (<CJK Ideograph Extension A>)";
" 1874	0x201A4	𠆤 (<CJK Ideograph Extension B>)";
" 1875	0x26C41	𦱁 (<CJK Ideograph Extension B>)";
" 1876	0x8ACC	諌 (<CJK Ideograph>)";
" 1877	0x4FB4	侴 (<CJK Ideograph>)";
" 1878	0x20239	𠈹 (<CJK Ideograph Extension B>)";
" 1879	0x59BF	妿 (<CJK Ideograph>)";
" 1880	0x816C	腬 (<CJK Ideograph>)";
" 1881	0x9856	顖 (<CJK Ideograph>)";
" 1882	0x298FA	𩣺 (<CJK Ideograph Extension B>)";
" 1883	0x5F3B	弻 (<CJK Ideograph>)";
" 1884	0x20B9F	𠮟 (<CJK Ideograph Extension B>)";
" 1886	0x221C1	𢇁 (<CJK Ideograph Extension B>)";
" 1887	0x2896D	𨥭 (<CJK Ideograph Extension B>)";
" 1888	0x4102	䄂 (<CJK Ideograph Extension A>)";
" 1889	0x46BB	䚻 (<CJK Ideograph Extension A>)";
" 1890	0x29079	𩁹 (<CJK Ideograph Extension B>)";
" 1891	0x3F07	㼇 (<CJK Ideograph Extension A>)";
" 1892	0x9FB3	龳 (<CJK Ideograph>)";
" 1893	0x2A1B5	𪆵 (<CJK Ideograph Extension B>)";
" 1894	0x40F8	䃸 (<CJK Ideograph Extension A>)";
" 1895	0x37D6	㟖 (<CJK Ideograph Extension A>)";
" 1896	0x46F7	䛷 (<CJK Ideograph Extension A>)";
" 1897	0x26C46	𦱆 (<CJK Ideograph Extension B>)";
" 1898	0x417C	䅼 (<CJK Ideograph Extension A>)";
" 1899	0x286B2	𨚲 (<CJK Ideograph Extension B>)";
" 1900	0x273FF	𧏿 (<CJK Ideograph Extension B>)";
" 1901	0x456D	䕭 (<CJK Ideograph Extension A>)";
" 1902	0x38D4	㣔 (<CJK Ideograph Extension A>)";
" 1903	0x2549A	𥒚 (<CJK Ideograph Extension B>)";
" 1904	0x4561	䕡 (<CJK Ideograph Extension A>)";
" 1905	0x451B	䔛 (<CJK Ideograph Extension A>)";
" 1906	0x4D89	䶉 (<CJK Ideograph Extension A>)";
" 1907	0x4C7B	䱻 (<CJK Ideograph Extension A>)";
" 1908	0x4D76	䵶 (<CJK Ideograph Extension A>)";
" 1909	0x45EA	䗪 (<CJK Ideograph Extension A>)";
" 1910	0x3FC8	㿈 (<CJK Ideograph Extension A>)";
" 1911	0x24B0F	𤬏 (<CJK Ideograph Extension B>)";
" 1912	0x3661	㙡 (<CJK Ideograph Extension A>)";
" 1913	0x44DE	䓞 (<CJK Ideograph Extension A>)";
" 1914	0x44BD	䒽 (<CJK Ideograph Extension A>)";
" 1915	0x41ED	䇭 (<CJK Ideograph Extension A>)";
" 1916	0x5D3E	崾 (<CJK Ideograph>)";
" 1917	0x5D48	嵈 (<CJK Ideograph>)";
" 1918	0x5D56	嵖 (<CJK Ideograph>)";
" 1919	0x3DFC	㷼 (<CJK Ideograph Extension A>)";
" 1920	0x380F	㠏 (<CJK Ideograph Extension A>)";
" 1921	0x5DA4	嶤 (<CJK Ideograph>)";
" 1922	0x5DB9	嶹 (<CJK Ideograph>)";
" 1923	0x3820	㠠 (<CJK Ideograph Extension A>)";
" 1924	0x3838	㠸 (<CJK Ideograph Extension A>)";
" 1925	0x5E42	幂 (<CJK Ideograph>)";
" 1926	0x5EBD	庽 (<CJK Ideograph>)";
" 1927	0x5F25	弥 (<CJK Ideograph>)";
" 1928	0x5F83	徃 (<CJK Ideograph>)";
" 1929	0x3908	㤈 (<CJK Ideograph Extension A>)";
" 1930	0x3914	㤔 (<CJK Ideograph Extension A>)";
" 1931	0x393F	㤿 (<CJK Ideograph Extension A>)";
" 1932	0x394D	㥍 (<CJK Ideograph Extension A>)";
" 1933	0x60D7	惗 (<CJK Ideograph>)";
" 1934	0x613D	愽 (<CJK Ideograph>)";
" 1935	0x5CE5	峥 (<CJK Ideograph>)";
" 1936	0x3989	㦉 (<CJK Ideograph Extension A>)";
" 1937	0x61B7	憷 (<CJK Ideograph>)";
" 1938	0x61B9	憹 (<CJK Ideograph>)";
" 1939	0x61CF	懏 (<CJK Ideograph>)";
" 1940	0x39B8	㦸 (<CJK Ideograph Extension A>)";
" 1941	0x622C	戬 (<CJK Ideograph>)";
" 1942	0x6290	抐 (<CJK Ideograph>)";
" 1943	0x62E5	拥 (<CJK Ideograph>)";
" 1944	0x6318	挘 (<CJK Ideograph>)";
" 1945	0x39F8	㧸 (<CJK Ideograph Extension A>)";
" 1946	0x56B1	嚱 (<CJK Ideograph>)";
" 1947	0x3A03	㨃 (<CJK Ideograph Extension A>)";
" 1948	0x63E2	揢 (<CJK Ideograph>)";
" 1949	0x63FB	揻 (<CJK Ideograph>)";
" 1950	0x6407	搇 (<CJK Ideograph>)";
" 1951	0x645A	摚 (<CJK Ideograph>)";
" 1952	0x3A4B	㩋 (<CJK Ideograph Extension A>)";
" 1953	0x64C0	擀 (<CJK Ideograph>)";
" 1954	0x5D15	崕 (<CJK Ideograph>)";
" 1955	0x5621	嘡 (<CJK Ideograph>)";
" 1956	0x9F9F	龟 (<CJK Ideograph>)";
" 1957	0x3A97	㪗 (<CJK Ideograph Extension A>)";
" 1958	0x6586	斆 (<CJK Ideograph>)";
" 1959	0x3ABD	㪽 (<CJK Ideograph Extension A>)";
" 1960	0x65FF	旿 (<CJK Ideograph>)";
" 1961	0x6653	晓 (<CJK Ideograph>)";
" 1962	0x3AF2	㫲 (<CJK Ideograph Extension A>)";
" 1963	0x6692	暒 (<CJK Ideograph>)";
" 1964	0x3B22	㬢 (<CJK Ideograph Extension A>)";
" 1965	0x6716	朖 (<CJK Ideograph>)";
" 1966	0x3B42	㭂 (<CJK Ideograph Extension A>)";
" 1967	0x67A4	枤 (<CJK Ideograph>)";
" 1968	0x6800	栀 (<CJK Ideograph>)";
" 1969	0x3B58	㭘 (<CJK Ideograph Extension A>)";
" 1970	0x684A	桊 (<CJK Ideograph>)";
" 1971	0x6884	梄 (<CJK Ideograph>)";
" 1972	0x3B72	㭲 (<CJK Ideograph Extension A>)";
" 1973	0x3B71	㭱 (<CJK Ideograph Extension A>)";
" 1974	0x3B7B	㭻 (<CJK Ideograph Extension A>)";
" 1975	0x6909	椉 (<CJK Ideograph>)";
" 1976	0x6943	楃 (<CJK Ideograph>)";
" 1977	0x725C	牜 (<CJK Ideograph>)";
" 1978	0x6964	楤 (<CJK Ideograph>)";
" 1979	0x699F	榟 (<CJK Ideograph>)";
" 1980	0x6985	榅 (<CJK Ideograph>)";
" 1981	0x3BBC	㮼 (<CJK Ideograph Extension A>)";
" 1982	0x69D6	槖 (<CJK Ideograph>)";
" 1983	0x3BDD	㯝 (<CJK Ideograph Extension A>)";
" 1984	0x6A65	橥 (<CJK Ideograph>)";
" 1985	0x6A74	橴 (<CJK Ideograph>)";
" 1986	0x6A71	橱 (<CJK Ideograph>)";
" 1987	0x6A82	檂 (<CJK Ideograph>)";
" 1988	0x3BEC	㯬 (<CJK Ideograph Extension A>)";
" 1989	0x6A99	檙 (<CJK Ideograph>)";
" 1990	0x3BF2	㯲 (<CJK Ideograph Extension A>)";
" 1991	0x6AAB	檫 (<CJK Ideograph>)";
" 1992	0x6AB5	檵 (<CJK Ideograph>)";
" 1993	0x6AD4	櫔 (<CJK Ideograph>)";
" 1994	0x6AF6	櫶 (<CJK Ideograph>)";
" 1995	0x6B81	殁 (<CJK Ideograph>)";
" 1996	0x6BC1	毁 (<CJK Ideograph>)";
" 1997	0x6BEA	毪 (<CJK Ideograph>)";
" 1998	0x6C75	汵 (<CJK Ideograph>)";
" 1999	0x6CAA	沪 (<CJK Ideograph>)";
" 2000	0x3CCB	㳋 (<CJK Ideograph Extension A>)";
" 2001	0x6D02	洂 (<CJK Ideograph>)";
" 2002	0x6D06	洆 (<CJK Ideograph>)";
" 2003	0x6D26	洦 (<CJK Ideograph>)";
" 2004	0x6D81	涁 (<CJK Ideograph>)";
" 2005	0x3CEF	㳯 (<CJK Ideograph Extension A>)";
" 2006	0x6DA4	涤 (<CJK Ideograph>)";
" 2007	0x6DB1	涱 (<CJK Ideograph>)";
" 2008	0x6E15	渕 (<CJK Ideograph>)";
" 2009	0x6E18	渘 (<CJK Ideograph>)";
" 2010	0x6E29	温 (<CJK Ideograph>)";
" 2011	0x6E86	溆 (<CJK Ideograph>)";
" 2012	0x289C0	𨧀 (<CJK Ideograph Extension B>)";
" 2013	0x6EBB	溻 (<CJK Ideograph>)";
" 2014	0x6EE2	滢 (<CJK Ideograph>)";
" 2015	0x6EDA	滚 (<CJK Ideograph>)";
" 2016	0x9F7F	齿 (<CJK Ideograph>)";
" 2017	0x6EE8	滨 (<CJK Ideograph>)";
" 2018	0x6EE9	滩 (<CJK Ideograph>)";
" 2019	0x6F24	漤 (<CJK Ideograph>)";
" 2020	0x6F34	漴 (<CJK Ideograph>)";
" 2021	0x3D46	㵆 (<CJK Ideograph Extension A>)";
" 2022	0x23F41	𣽁 (<CJK Ideograph Extension B>)";
" 2023	0x6F81	澁 (<CJK Ideograph>)";
" 2024	0x6FBE	澾 (<CJK Ideograph>)";
" 2025	0x3D6A	㵪 (<CJK Ideograph Extension A>)";
" 2026	0x3D75	㵵 (<CJK Ideograph Extension A>)";
" 2027	0x71B7	熷 (<CJK Ideograph>)";
" 2028	0x5C99	岙 (<CJK Ideograph>)";
" 2029	0x3D8A	㶊 (<CJK Ideograph Extension A>)";
" 2030	0x702C	瀬 (<CJK Ideograph>)";
" 2031	0x3D91	㶑 (<CJK Ideograph Extension A>)";
" 2032	0x7050	灐 (<CJK Ideograph>)";
" 2033	0x7054	灔 (<CJK Ideograph>)";
" 2034	0x706F	灯 (<CJK Ideograph>)";
" 2035	0x707F	灿 (<CJK Ideograph>)";
" 2036	0x7089	炉 (<CJK Ideograph>)";
" 2037	0x20325	𠌥 (<CJK Ideograph Extension B>)";
" 2038	0x43C1	䏁 (<CJK Ideograph Extension A>)";
" 2039	0x35F1	㗱 (<CJK Ideograph Extension A>)";
" 2040	0x20ED8	𠻘 (<CJK Ideograph Extension B>)";
" 2041	0x23ED7	𣻗 (<CJK Ideograph Extension B>)";
" 2042	0x57BE	垾 (<CJK Ideograph>)";
" 2043	0x26ED3	𦻓 (<CJK Ideograph Extension B>)";
" 2044	0x713E	焾 (<CJK Ideograph>)";
" 2045	0x257E0	𥟠 (<CJK Ideograph Extension B>)";
" 2046	0x364E	㙎 (<CJK Ideograph Extension A>)";
" 2047	0x69A2	榢 (<CJK Ideograph>)";
" 2048	0x28BE9	𨯩 (<CJK Ideograph Extension B>)";
" 2049	0x5B74	孴 (<CJK Ideograph>)";
" 2050	0x7A49	穉 (<CJK Ideograph>)";
" 2051	0x258E1	𥣡 (<CJK Ideograph Extension B>)";
" 2052	0x294D9	𩓙 (<CJK Ideograph Extension B>)";
" 2053	0x7A65	穥 (<CJK Ideograph>)";
" 2054	0x7A7D	穽 (<CJK Ideograph>)";
" 2055	0x259AC	𥦬 (<CJK Ideograph Extension B>)";
" 2056	0x7ABB	窻 (<CJK Ideograph>)";
" 2057	0x7AB0	窰 (<CJK Ideograph>)";
" 2058	0x7AC2	竂 (<CJK Ideograph>)";
" 2059	0x7AC3	竃 (<CJK Ideograph>)";
" 2060	0x71D1	燑 (<CJK Ideograph>)";
" 2061	0x2648D	𦒍 (<CJK Ideograph Extension B>)";
" 2062	0x41CA	䇊 (<CJK Ideograph Extension A>)";
" 2063	0x7ADA	竚 (<CJK Ideograph>)";
" 2064	0x7ADD	竝 (<CJK Ideograph>)";
" 2065	0x7AEA	竪 (<CJK Ideograph>)";
" 2066	0x41EF	䇯 (<CJK Ideograph Extension A>)";
" 2067	0x54B2	咲 (<CJK Ideograph>)";
" 2068	0x25C01	𥰁 (<CJK Ideograph Extension B>)";
" 2069	0x7B0B	笋 (<CJK Ideograph>)";
" 2070	0x7B55	筕 (<CJK Ideograph>)";
" 2071	0x7B29	笩 (<CJK Ideograph>)";
" 2072	0x2530E	𥌎 (<CJK Ideograph Extension B>)";
" 2073	0x25CFE	𥳾 (<CJK Ideograph Extension B>)";
" 2074	0x7BA2	箢 (<CJK Ideograph>)";
" 2075	0x7B6F	筯 (<CJK Ideograph>)";
" 2076	0x839C	莜 (<CJK Ideograph>)";
" 2077	0x25BB4	𥮴 (<CJK Ideograph Extension B>)";
" 2078	0x26C7F	𦱿 (<CJK Ideograph Extension B>)";
" 2079	0x7BD0	篐 (<CJK Ideograph>)";
" 2080	0x8421	萡 (<CJK Ideograph>)";
" 2081	0x7B92	箒 (<CJK Ideograph>)";
" 2082	0x7BB8	箸 (<CJK Ideograph>)";
" 2083	0x25D20	𥴠 (<CJK Ideograph Extension B>)";
" 2084	0x3DAD	㶭 (<CJK Ideograph Extension A>)";
" 2085	0x25C65	𥱥 (<CJK Ideograph Extension B>)";
" 2086	0x8492	蒒 (<CJK Ideograph>)";
" 2087	0x7BFA	篺 (<CJK Ideograph>)";
" 2088	0x7C06	簆 (<CJK Ideograph>)";
" 2089	0x7C35	簵 (<CJK Ideograph>)";
" 2090	0x25CC1	𥳁 (<CJK Ideograph Extension B>)";
" 2091	0x7C44	籄 (<CJK Ideograph>)";
" 2092	0x7C83	粃 (<CJK Ideograph>)";
" 2093	0x24882	𤢂 (<CJK Ideograph Extension B>)";
" 2094	0x7CA6	粦 (<CJK Ideograph>)";
" 2095	0x667D	晽 (<CJK Ideograph>)";
" 2096	0x24578	𤕸 (<CJK Ideograph Extension B>)";
" 2097	0x7CC9	糉 (<CJK Ideograph>)";
" 2098	0x7CC7	糇 (<CJK Ideograph>)";
" 2099	0x7CE6	糦 (<CJK Ideograph>)";
" 2100	0x7C74	籴 (<CJK Ideograph>)";
" 2101	0x7CF3	糳 (<CJK Ideograph>)";
" 2102	0x7CF5	糵 (<CJK Ideograph>)";
" 2103	0x7CCE	糎 (<CJK Ideograph>)";
" 2104	0x7E67	繧 (<CJK Ideograph>)";
" 2105	0x451D	䔝 (<CJK Ideograph Extension A>)";
" 2106	0x26E44	𦹄 (<CJK Ideograph Extension B>)";
" 2107	0x7D5D	絝 (<CJK Ideograph>)";
" 2108	0x26ED6	𦻖 (<CJK Ideograph Extension B>)";
" 2109	0x748D	璍 (<CJK Ideograph>)";
" 2110	0x7D89	綉 (<CJK Ideograph>)";
" 2111	0x7DAB	綫 (<CJK Ideograph>)";
" 2112	0x7135	焵 (<CJK Ideograph>)";
" 2113	0x7DB3	綳 (<CJK Ideograph>)";
" 2114	0x7DD2	緒 (<CJK Ideograph>)"
].
(* /repo/encoding_tables/whatwg/index-big5.txt:1025-1280 *)
Definition index_big5_txt_4 : list line := [
" 2115	0x24057	𤁗 (<CJK Ideograph Extension B>)";
" 2116	0x26029	𦀩 (<CJK Ideograph Extension B>)";
" 2117	0x7DE4	緤 (<CJK Ideograph>)";
" 2118	0x3D13	㴓 (<CJK Ideograph Extension A>)";
" 2119	0x7DF5	緵 (<CJK Ideograph>)";
" 2120	0x217F9	𡟹 (<CJK Ideograph Extension B>)";
" 2121	0x7DE5	緥 (<CJK Ideograph>)";
" 2122	0x2836D	𨍭 (<CJK Ideograph Extension B>)";
" 2123	0x7E1D	縝 (<CJK Ideograph>)";
" 2124	0x26121	𦄡 (<CJK Ideograph Extension B>)";
" 2125	0x2615A	𦅚 (<CJK Ideograph Extension B>)";
" 2126	0x7E6E	繮 (<CJK Ideograph>)";
" 2127	0x7E92	纒 (<CJK Ideograph>)";
" 2128	0x432B	䌫 (<CJK Ideograph Extension A>)";
" 2129	0x946C	鑬 (<CJK Ideograph>)";
" 2130	0x7E27	縧 (<CJK Ideograph>)";
" 2131	0x7F40	罀 (<CJK Ideograph>)";
" 2132	0x7F41	罁 (<CJK Ideograph>)";
" 2133	0x7F47	罇 (<CJK Ideograph>)";
" 2134	0x7936	礶 (<CJK Ideograph>)";
" 2135	0x262D0	𦋐 (<CJK Ideograph Extension B>)";
" 2136	0x99E1	駡 (<CJK Ideograph>)";
" 2137	0x7F97	羗 (<CJK Ideograph>)";
" 2138	0x26351	𦍑 (<CJK Ideograph Extension B>)";
" 2139	0x7FA3	羣 (<CJK Ideograph>)";
" 2140	0x21661	𡙡 (<CJK Ideograph Extension B>)";
" 2141	0x20068	𠁨 (<CJK Ideograph Extension B>)";
" 2142	0x455C	䕜 (<CJK Ideograph Extension A>)";
" 2143	0x23766	𣝦 (<CJK Ideograph Extension B>)";
" 2144	0x4503	䔃 (<CJK Ideograph Extension A>)";
" 2145	0x2833A	𨌺 (<CJK Ideograph Extension B>)";
" 2146	0x7FFA	翺 (<CJK Ideograph>)";
" 2147	0x26489	𦒉 (<CJK Ideograph Extension B>)";
" 2148	0x8005	者 (<CJK Ideograph>)";
" 2149	0x8008	耈 (<CJK Ideograph>)";
" 2150	0x801D	耝 (<CJK Ideograph>)";
" 2151	0x8028	耨 (<CJK Ideograph>)";
" 2152	0x802F	耯 (<CJK Ideograph>)";
" 2153	0x2A087	𪂇 (<CJK Ideograph Extension B>)";
" 2154	0x26CC3	𦳃 (<CJK Ideograph Extension B>)";
" 2155	0x803B	耻 (<CJK Ideograph>)";
" 2156	0x803C	耼 (<CJK Ideograph>)";
" 2157	0x8061	聡 (<CJK Ideograph>)";
" 2158	0x22714	𢜔 (<CJK Ideograph Extension B>)";
" 2159	0x4989	䦉 (<CJK Ideograph Extension A>)";
" 2160	0x26626	𦘦 (<CJK Ideograph Extension B>)";
" 2161	0x23DE3	𣷣 (<CJK Ideograph Extension B>)";
" 2162	0x266E8	𦛨 (<CJK Ideograph Extension B>)";
" 2163	0x6725	朥 (<CJK Ideograph>)";
" 2164	0x80A7	肧 (<CJK Ideograph>)";
" 2165	0x28A48	𨩈 (<CJK Ideograph Extension B>)";
" 2166	0x8107	脇 (<CJK Ideograph>)";
" 2167	0x811A	脚 (<CJK Ideograph>)";
" 2168	0x58B0	墰 (<CJK Ideograph>)";
" 2169	0x226F6	𢛶 (<CJK Ideograph Extension B>)";
" 2170	0x6C7F	汿 (<CJK Ideograph>)";
" 2171	0x26498	𦒘 (<CJK Ideograph Extension B>)";
" 2172	0x24FB8	𤾸 (<CJK Ideograph Extension B>)";
" 2173	0x64E7	擧 (<CJK Ideograph>)";
" 2174	0x2148A	𡒊 (<CJK Ideograph Extension B>)";
" 2175	0x8218	舘 (<CJK Ideograph>)";
" 2176	0x2185E	𡡞 (<CJK Ideograph Extension B>)";
" 2177	0x6A53	橓 (<CJK Ideograph>)";
" 2178	0x24A65	𤩥 (<CJK Ideograph Extension B>)";
" 2179	0x24A95	𤪕 (<CJK Ideograph Extension B>)";
" 2180	0x447A	䑺 (<CJK Ideograph Extension A>)";
" 2181	0x8229	舩 (<CJK Ideograph>)";
" 2182	0x20B0D	𠬍 (<CJK Ideograph Extension B>)";
" 2183	0x26A52	𦩒 (<CJK Ideograph Extension B>)";
" 2184	0x23D7E	𣵾 (<CJK Ideograph Extension B>)";
" 2185	0x4FF9	俹 (<CJK Ideograph>)";
" 2186	0x214FD	𡓽 (<CJK Ideograph Extension B>)";
" 2187	0x84E2	蓢 (<CJK Ideograph>)";
" 2188	0x8362	荢 (<CJK Ideograph>)";
" 2189	0x26B0A	𦬊 (<CJK Ideograph Extension B>)";
" 2190	0x249A7	𤦧 (<CJK Ideograph Extension B>)";
" 2191	0x23530	𣔰 (<CJK Ideograph Extension B>)";
" 2192	0x21773	𡝳 (<CJK Ideograph Extension B>)";
" 2193	0x23DF8	𣷸 (<CJK Ideograph Extension B>)";
" 2194	0x82AA	芪 (<CJK Ideograph>)";
" 2195	0x691B	椛 (<CJK Ideograph>)";
" 2196	0x2F994	芳 (CJK COMPATIBILITY IDEOGRAPH-2F994)";
" 2197	0x41DB	䇛 (<CJK Ideograph Extension A>)";
" 2198	0x854B	蕋 (<CJK Ideograph>)";
" 2199	0x82D0	苐 (<CJK Ideograph>)";
" 2200	0x831A	茚 (<CJK Ideograph>)";
" 2201	0x20E16	𠸖 (<CJK Ideograph Extension B>)";
" 2202	0x217B4	𡞴 (<CJK Ideograph Extension B>)";
" 2203	0x36C1	㛁 (<CJK Ideograph Extension A>)";
" 2204	0x2317D	𣅽 (<CJK Ideograph Extension B>)";
" 2205	0x2355A	𣕚 (<CJK Ideograph Extension B>)";
" 2206	0x827B	艻 (<CJK Ideograph>)";
" 2207	0x82E2	苢 (<CJK Ideograph>)";
" 2208	0x8318	茘 (<CJK Ideograph>)";
" 2209	0x23E8B	𣺋 (<CJK Ideograph Extension B>)";
" 2210	0x26DA3	𦶣 (<CJK Ideograph Extension B>)";
" 2211	0x26B05	𦬅 (<CJK Ideograph Extension B>)";
" 2212	0x26B97	𦮗 (<CJK Ideograph Extension B>)";
" 2213	0x235CE	𣗎 (<CJK Ideograph Extension B>)";
" 2214	0x3DBF	㶿 (<CJK Ideograph Extension A>)";
" 2215	0x831D	茝 (<CJK Ideograph>)";
" 2216	0x55EC	嗬 (<CJK Ideograph>)";
" 2217	0x8385	莅 (<CJK Ideograph>)";
" 2218	0x450B	䔋 (<CJK Ideograph Extension A>)";
" 2219	0x26DA5	𦶥 (<CJK Ideograph Extension B>)";
" 2220	0x83AC	莬 (<CJK Ideograph>)";
" 2221	0x83C1	菁 (<CJK Ideograph>)";
" 2222	0x83D3	菓 (<CJK Ideograph>)";
" 2223	0x347E	㑾 (<CJK Ideograph Extension A>)";
" 2224	0x26ED4	𦻔 (<CJK Ideograph Extension B>)";
" 2225	0x6A57	橗 (<CJK Ideograph>)";
" 2226	0x855A	蕚 (<CJK Ideograph>)";
" 2227	0x3496	㒖 (<CJK Ideograph Extension A>)";
" 2228	0x26E42	𦹂 (<CJK Ideograph Extension B>)";
" 2229	0x22EEF	𢻯 (<CJK Ideograph Extension B>)";
" 2230	0x8458	葘 (<CJK Ideograph>)";
" 2231	0x25BE4	𥯤 (<CJK Ideograph Extension B>)";
" 2232	0x8471	葱 (<CJK Ideograph>)";
" 2233	0x3DD3	㷓 (<CJK Ideograph Extension A>)";
" 2234	0x44E4	䓤 (<CJK Ideograph Extension A>)";
" 2235	0x6AA7	檧 (<CJK Ideograph>)";
" 2236	0x844A	葊 (<CJK Ideograph>)";
" 2237	0x23CB5	𣲵 (<CJK Ideograph Extension B>)";
" 2238	0x7958	祘 (<CJK Ideograph>)";
" 2239	0x84A8	蒨 (<CJK Ideograph>)";
" 2240	0x26B96	𦮖 (<CJK Ideograph Extension B>)";
" 2241	0x26E77	𦹷 (<CJK Ideograph Extension B>)";
" 2242	0x26E43	𦹃 (<CJK Ideograph Extension B>)";
" 2243	0x84DE	蓞 (<CJK Ideograph>)";
" 2244	0x840F	萏 (<CJK Ideograph>)";
" 2245	0x8391	莑 (<CJK Ideograph>)";
" 2246	0x44A0	䒠 (<CJK Ideograph Extension A>)";
" 2247	0x8493	蒓 (<CJK Ideograph>)";
" 2248	0x84E4	蓤 (<CJK Ideograph>)";
" 2249	0x25C91	𥲑 (<CJK Ideograph Extension B>)";
" 2250	0x4240	䉀 (<CJK Ideograph Extension A>)";
" 2251	0x25CC0	𥳀 (<CJK Ideograph Extension B>)";
" 2252	0x4543	䕃 (<CJK Ideograph Extension A>)";
" 2253	0x8534	蔴 (<CJK Ideograph>)";
" 2254	0x5AF2	嫲 (<CJK Ideograph>)";
" 2255	0x26E99	𦺙 (<CJK Ideograph Extension B>)";
" 2256	0x4527	䔧 (<CJK Ideograph Extension A>)";
" 2257	0x8573	蕳 (<CJK Ideograph>)";
" 2258	0x4516	䔖 (<CJK Ideograph Extension A>)";
" 2259	0x67BF	枿 (<CJK Ideograph>)";
" 2260	0x8616	蘖 (<CJK Ideograph>)";
" 2261	0x28625	𨘥 (<CJK Ideograph Extension B>)";
" 2262	0x2863B	𨘻 (<CJK Ideograph Extension B>)";
" 2263	0x85C1	藁 (<CJK Ideograph>)";
" 2264	0x27088	𧂈 (<CJK Ideograph Extension B>)";
" 2265	0x8602	蘂 (<CJK Ideograph>)";
" 2266	0x21582	𡖂 (<CJK Ideograph Extension B>)";
" 2267	0x270CD	𧃍 (<CJK Ideograph Extension B>)";
" 2268	0x2F9B2	䕫 (CJK COMPATIBILITY IDEOGRAPH-2F9B2)";
" 2269	0x456A	䕪 (<CJK Ideograph Extension A>)";
" 2270	0x8628	蘨 (<CJK Ideograph>)";
" 2271	0x3648	㙈 (<CJK Ideograph Extension A>)";
" 2272	0x218A2	𡢢 (<CJK Ideograph Extension B>)";
" 2273	0x53F7	号 (<CJK Ideograph>)";
" 2274	0x2739A	𧎚 (<CJK Ideograph Extension B>)";
" 2275	0x867E	虾 (<CJK Ideograph>)";
" 2276	0x8771	蝱 (<CJK Ideograph>)";
" 2277	0x2A0F8	𪃸 (<CJK Ideograph Extension B>)";
" 2278	0x87EE	蟮 (<CJK Ideograph>)";
" 2279	0x22C27	𢰧 (<CJK Ideograph Extension B>)";
" 2280	0x87B1	螱 (<CJK Ideograph>)";
" 2281	0x87DA	蟚 (<CJK Ideograph>)";
" 2282	0x880F	蠏 (<CJK Ideograph>)";
" 2283	0x5661	噡 (<CJK Ideograph>)";
" 2284	0x866C	虬 (<CJK Ideograph>)";
" 2285	0x6856	桖 (<CJK Ideograph>)";
" 2286	0x460F	䘏 (<CJK Ideograph Extension A>)";
" 2287	0x8845	衅 (<CJK Ideograph>)";
" 2288	0x8846	衆 (<CJK Ideograph>)";
" 2289	0x275E0	𧗠 (<CJK Ideograph Extension B>)";
" 2290	0x23DB9	𣶹 (<CJK Ideograph Extension B>)";
" 2291	0x275E4	𧗤 (<CJK Ideograph Extension B>)";
" 2292	0x885E	衞 (<CJK Ideograph>)";
" 2293	0x889C	袜 (<CJK Ideograph>)";
" 2294	0x465B	䙛 (<CJK Ideograph Extension A>)";
" 2295	0x88B4	袴 (<CJK Ideograph>)";
" 2296	0x88B5	袵 (<CJK Ideograph>)";
" 2297	0x63C1	揁 (<CJK Ideograph>)";
" 2298	0x88C5	装 (<CJK Ideograph>)";
" 2299	0x7777	睷 (<CJK Ideograph>)";
" 2300	0x2770F	𧜏 (<CJK Ideograph Extension B>)";
" 2301	0x8987	覇 (<CJK Ideograph>)";
" 2302	0x898A	覊 (<CJK Ideograph>)";
" 2303	0x89A6	覦 (<CJK Ideograph>)";
" 2304	0x89A9	覩 (<CJK Ideograph>)";
" 2305	0x89A7	覧 (<CJK Ideograph>)";
" 2306	0x89BC	覼 (<CJK Ideograph>)";
" 2307	0x28A25	𨨥 (<CJK Ideograph Extension B>)";
" 2308	0x89E7	觧 (<CJK Ideograph>)";
" 2309	0x27924	𧤤 (<CJK Ideograph Extension B>)";
" 2310	0x27ABD	𧪽 (<CJK Ideograph Extension B>)";
" 2311	0x8A9C	誜 (<CJK Ideograph>)";
" 2312	0x7793	瞓 (<CJK Ideograph>)";
" 2313	0x91FE	釾 (<CJK Ideograph>)";
" 2314	0x8A90	誐 (<CJK Ideograph>)";
" 2315	0x27A59	𧩙 (<CJK Ideograph Extension B>)";
" 2316	0x7AE9	竩 (<CJK Ideograph>)";
" 2317	0x27B3A	𧬺 (<CJK Ideograph Extension B>)";
" 2318	0x23F8F	𣾏 (<CJK Ideograph Extension B>)";
" 2319	0x4713	䜓 (<CJK Ideograph Extension A>)";
" 2320	0x27B38	𧬸 (<CJK Ideograph Extension B>)";
" 2321	0x717C	煼 (<CJK Ideograph>)";
" 2322	0x8B0C	謌 (<CJK Ideograph>)";
" 2323	0x8B1F	謟 (<CJK Ideograph>)";
" 2324	0x25430	𥐰 (<CJK Ideograph Extension B>)";
" 2325	0x25565	𥕥 (<CJK Ideograph Extension B>)";
" 2326	0x8B3F	謿 (<CJK Ideograph>)";
" 2327	0x8B4C	譌 (<CJK Ideograph>)";
" 2328	0x8B4D	譍 (<CJK Ideograph>)";
" 2329	0x8AA9	誩 (<CJK Ideograph>)";
" 2330	0x24A7A	𤩺 (<CJK Ideograph Extension B>)";
" 2331	0x8B90	讐 (<CJK Ideograph>)";
" 2332	0x8B9B	讛 (<CJK Ideograph>)";
" 2333	0x8AAF	誯 (<CJK Ideograph>)";
" 2334	0x216DF	𡛟 (<CJK Ideograph Extension B>)";
" 2335	0x4615	䘕 (<CJK Ideograph Extension A>)";
" 2336	0x884F	衏 (<CJK Ideograph>)";
" 2337	0x8C9B	貛 (<CJK Ideograph>)";
" 2338	0x27D54	𧵔 (<CJK Ideograph Extension B>)";
" 2339	0x27D8F	𧶏 (<CJK Ideograph Extension B>)";
" 2340	0x2F9D4	貫 (CJK COMPATIBILITY IDEOGRAPH-2F9D4)";
" 2341	0x3725	㜥 (<CJK Ideograph Extension A>)";
" 2342	0x27D53	𧵓 (<CJK Ideograph Extension B>)";
" 2343	0x8CD6	賖 (<CJK Ideograph>)";
" 2344	0x27D98	𧶘 (<CJK Ideograph Extension B>)";
" 2345	0x27DBD	𧶽 (<CJK Ideograph Extension B>)";
" 2346	0x8D12	贒 (<CJK Ideograph>)";
" 2347	0x8D03	贃 (<CJK Ideograph>)";
" 2348	0x21910	𡤐 (<CJK Ideograph Extension B>)";
" 2349	0x8CDB	賛 (<CJK Ideograph>)";
" 2350	0x705C	灜 (<CJK Ideograph>)";
" 2351	0x8D11	贑 (<CJK Ideograph>)";
" 2352	0x24CC9	𤳉 (<CJK Ideograph Extension B>)";
" 2353	0x3ED0	㻐 (<CJK Ideograph Extension A>)";
" 2354	0x8D77	起 (<CJK Ideograph>)";
" 2355	0x8DA9	趩 (<CJK Ideograph>)";
" 2356	0x28002	𨀂 (<CJK Ideograph Extension B>)";
" 2357	0x21014	𡀔 (<CJK Ideograph Extension B>)";
" 2358	0x2498A	𤦊 (<CJK Ideograph Extension B>)";
" 2359	0x3B7C	㭼 (<CJK Ideograph Extension A>)";
" 2360	0x281BC	𨆼 (<CJK Ideograph Extension B>)";
" 2361	0x2710C	𧄌 (<CJK Ideograph Extension B>)";
" 2362	0x7AE7	竧 (<CJK Ideograph>)";
" 2363	0x8EAD	躭 (<CJK Ideograph>)";
" 2364	0x8EB6	躶 (<CJK Ideograph>)";
" 2365	0x8EC3	軃 (<CJK Ideograph>)";
" 2366	0x92D4	鋔 (<CJK Ideograph>)";
" 2367	0x8F19	輙 (<CJK Ideograph>)";
" 2368	0x8F2D	輭 (<CJK Ideograph>)";
" 2369	0x28365	𨍥 (<CJK Ideograph Extension B>)";
" 2370	0x28412	𨐒 (<CJK Ideograph Extension B>)"
].
(* /repo/encoding_tables/whatwg/index-big5.txt:1281-1536 *)
Definition index_big5_txt_5 : list line := [
" 2371	0x8FA5	辥 (<CJK Ideograph>)";
" 2372	0x9303	錃 (<CJK Ideograph>)";
" 2373	0x2A29F	𪊟 (<CJK Ideograph Extension B>)";
" 2374	0x20A50	𠩐 (<CJK Ideograph Extension B>)";
" 2375	0x8FB3	辳 (<CJK Ideograph>)";
" 2376	0x492A	䤪 (<CJK Ideograph Extension A>)";
" 2377	0x289DE	𨧞 (<CJK Ideograph Extension B>)";
" 2378	0x2853D	𨔽 (<CJK Ideograph Extension B>)";
" 2379	0x23DBB	𣶻 (<CJK Ideograph Extension B>)";
" 2380	0x5EF8	廸 (<CJK Ideograph>)";
" 2381	0x23262	𣉢 (<CJK Ideograph Extension B>)";
" 2382	0x8FF9	迹 (<CJK Ideograph>)";
" 2383	0x2A014	𪀔 (<CJK Ideograph Extension B>)";
" 2384	0x286BC	𨚼 (<CJK Ideograph Extension B>)";
" 2385	0x28501	𨔁 (<CJK Ideograph Extension B>)";
" 2386	0x22325	𢌥 (<CJK Ideograph Extension B>)";
" 2387	0x3980	㦀 (<CJK Ideograph Extension A>)";
" 2388	0x26ED7	𦻗 (<CJK Ideograph Extension B>)";
" 2389	0x9037	逷 (<CJK Ideograph>)";
" 2390	0x2853C	𨔼 (<CJK Ideograph Extension B>)";
" 2391	0x27ABE	𧪾 (<CJK Ideograph Extension B>)";
" 2392	0x9061	遡 (<CJK Ideograph>)";
" 2393	0x2856C	𨕬 (<CJK Ideograph Extension B>)";
" 2394	0x2860B	𨘋 (<CJK Ideograph Extension B>)";
" 2395	0x90A8	邨 (<CJK Ideograph>)";
" 2396	0x28713	𨜓 (<CJK Ideograph Extension B>)";
" 2397	0x90C4	郄 (<CJK Ideograph>)";
" 2398	0x286E6	𨛦 (<CJK Ideograph Extension B>)";
" 2399	0x90AE	邮 (<CJK Ideograph>)";
" 2400	0x90FD	都 (<CJK Ideograph>)";
" 2401	0x9167	酧 (<CJK Ideograph>)";
" 2402	0x3AF0	㫰 (<CJK Ideograph Extension A>)";
" 2403	0x91A9	醩 (<CJK Ideograph>)";
" 2404	0x91C4	釄 (<CJK Ideograph>)";
" 2405	0x7CAC	粬 (<CJK Ideograph>)";
" 2406	0x28933	𨤳 (<CJK Ideograph Extension B>)";
" 2407	0x21E89	𡺉 (<CJK Ideograph Extension B>)";
" 2408	0x920E	鈎 (<CJK Ideograph>)";
" 2409	0x6C9F	沟 (<CJK Ideograph>)";
" 2410	0x9241	鉁 (<CJK Ideograph>)";
" 2411	0x9262	鉢 (<CJK Ideograph>)";
" 2412	0x255B9	𥖹 (<CJK Ideograph Extension B>)";
" 2413	0x92B9	銹 (<CJK Ideograph>)";
" 2414	0x28AC6	𨫆 (<CJK Ideograph Extension B>)";
" 2415	0x23C9B	𣲛 (<CJK Ideograph Extension B>)";
" 2416	0x28B0C	𨬌 (<CJK Ideograph Extension B>)";
" 2417	0x255DB	𥗛 (<CJK Ideograph Extension B>)";
" 2418	0x20D31	𠴱 (<CJK Ideograph Extension B>)";
" 2419	0x932C	錬 (<CJK Ideograph>)";
" 2420	0x936B	鍫 (<CJK Ideograph>)";
" 2421	0x28AE1	𨫡 (<CJK Ideograph Extension B>)";
" 2422	0x28BEB	𨯫 (<CJK Ideograph Extension B>)";
" 2423	0x708F	炏 (<CJK Ideograph>)";
" 2424	0x5AC3	嫃 (<CJK Ideograph>)";
" 2425	0x28AE2	𨫢 (<CJK Ideograph Extension B>)";
" 2426	0x28AE5	𨫥 (<CJK Ideograph Extension B>)";
" 2427	0x4965	䥥 (<CJK Ideograph Extension A>)";
" 2428	0x9244	鉄 (<CJK Ideograph>)";
" 2429	0x28BEC	𨯬 (<CJK Ideograph Extension B>)";
" 2430	0x28C39	𨰹 (<CJK Ideograph Extension B>)";
" 2431	0x28BFF	𨯿 (<CJK Ideograph Extension B>)";
" 2432	0x9373	鍳 (<CJK Ideograph>)";
" 2433	0x945B	鑛 (<CJK Ideograph>)";
" 2434	0x8EBC	躼 (<CJK Ideograph>)";
" 2435	0x9585	閅 (<CJK Ideograph>)";
" 2436	0x95A6	閦 (<CJK Ideograph>)";
" 2437	0x9426	鐦 (<CJK Ideograph>)";
" 2438	0x95A0	閠 (<CJK Ideograph>)";
" 2439	0x6FF6	濶 (<CJK Ideograph>)";
" 2440	0x42B9	䊹 (<CJK Ideograph Extension A>)";
" 2441	0x2267A	𢙺 (<CJK Ideograph Extension B>)";
" 2442	0x286D8	𨛘 (<CJK Ideograph Extension B>)";
" 2443	0x2127C	𡉼 (<CJK Ideograph Extension B>)";
" 2444	0x23E2E	𣸮 (<CJK Ideograph Extension B>)";
" 2445	0x49DF	䧟 (<CJK Ideograph Extension A>)";
" 2446	0x6C1C	氜 (<CJK Ideograph>)";
" 2447	0x967B	陻 (<CJK Ideograph>)";
" 2448	0x9696	隖 (<CJK Ideograph>)";
" 2449	0x416C	䅬 (<CJK Ideograph Extension A>)";
" 2450	0x96A3	隣 (<CJK Ideograph>)";
" 2451	0x26ED5	𦻕 (<CJK Ideograph Extension B>)";
" 2452	0x61DA	懚 (<CJK Ideograph>)";
" 2453	0x96B6	隶 (<CJK Ideograph>)";
" 2454	0x78F5	磵 (<CJK Ideograph>)";
" 2455	0x28AE0	𨫠 (<CJK Ideograph Extension B>)";
" 2456	0x96BD	隽 (<CJK Ideograph>)";
" 2457	0x53CC	双 (<CJK Ideograph>)";
" 2458	0x49A1	䦡 (<CJK Ideograph Extension A>)";
" 2459	0x26CB8	𦲸 (<CJK Ideograph Extension B>)";
" 2460	0x20274	𠉴 (<CJK Ideograph Extension B>)";
" 2461	0x26410	𦐐 (<CJK Ideograph Extension B>)";
" 2462	0x290AF	𩂯 (<CJK Ideograph Extension B>)";
" 2463	0x290E5	𩃥 (<CJK Ideograph Extension B>)";
" 2464	0x24AD1	𤫑 (<CJK Ideograph Extension B>)";
" 2465	0x21915	𡤕 (<CJK Ideograph Extension B>)";
" 2466	0x2330A	𣌊 (<CJK Ideograph Extension B>)";
" 2467	0x9731	霱 (<CJK Ideograph>)";
" 2468	0x8642	虂 (<CJK Ideograph>)";
" 2469	0x9736	霶 (<CJK Ideograph>)";
" 2470	0x4A0F	䨏 (<CJK Ideograph Extension A>)";
" 2471	0x453D	䔽 (<CJK Ideograph Extension A>)";
" 2472	0x4585	䖅 (<CJK Ideograph Extension A>)";
" 2473	0x24AE9	𤫩 (<CJK Ideograph Extension B>)";
" 2474	0x7075	灵 (<CJK Ideograph>)";
" 2475	0x5B41	孁 (<CJK Ideograph>)";
" 2476	0x971B	霛 (<CJK Ideograph>)";
" 2477	0x975C	靜 (<CJK Ideograph>)";
" 2478	0x291D5	𩇕 (<CJK Ideograph Extension B>)";
" 2479	0x9757	靗 (<CJK Ideograph>)";
" 2480	0x5B4A	孊 (<CJK Ideograph>)";
" 2481	0x291EB	𩇫 (<CJK Ideograph Extension B>)";
" 2482	0x975F	靟 (<CJK Ideograph>)";
" 2483	0x9425	鐥 (<CJK Ideograph>)";
" 2484	0x50D0	僐 (<CJK Ideograph>)";
" 2485	0x230B7	𣂷 (<CJK Ideograph Extension B>)";
" 2486	0x230BC	𣂼 (<CJK Ideograph Extension B>)";
" 2487	0x9789	鞉 (<CJK Ideograph>)";
" 2488	0x979F	鞟 (<CJK Ideograph>)";
" 2489	0x97B1	鞱 (<CJK Ideograph>)";
" 2490	0x97BE	鞾 (<CJK Ideograph>)";
" 2491	0x97C0	韀 (<CJK Ideograph>)";
" 2492	0x97D2	韒 (<CJK Ideograph>)";
" 2493	0x97E0	韠 (<CJK Ideograph>)";
" 2494	0x2546C	𥑬 (<CJK Ideograph Extension B>)";
" 2495	0x97EE	韮 (<CJK Ideograph>)";
" 2496	0x741C	琜 (<CJK Ideograph>)";
" 2497	0x29433	𩐳 (<CJK Ideograph Extension B>)";
" 2498	0x97FF	響 (<CJK Ideograph>)";
" 2499	0x97F5	韵 (<CJK Ideograph>)";
" 2500	0x2941D	𩐝 (<CJK Ideograph Extension B>)";
" 2501	0x2797A	𧥺 (<CJK Ideograph Extension B>)";
" 2502	0x4AD1	䫑 (<CJK Ideograph Extension A>)";
" 2503	0x9834	頴 (<CJK Ideograph>)";
" 2504	0x9833	頳 (<CJK Ideograph>)";
" 2505	0x984B	顋 (<CJK Ideograph>)";
" 2506	0x9866	顦 (<CJK Ideograph>)";
" 2507	0x3B0E	㬎 (<CJK Ideograph Extension A>)";
" 2508	0x27175	𧅵 (<CJK Ideograph Extension B>)";
" 2509	0x3D51	㵑 (<CJK Ideograph Extension A>)";
" 2510	0x20630	𠘰 (<CJK Ideograph Extension B>)";
" 2511	0x2415C	𤅜 (<CJK Ideograph Extension B>)";
" 2512	0x25706	𥜆 (<CJK Ideograph Extension B>)";
" 2513	0x98CA	飊 (<CJK Ideograph>)";
" 2514	0x98B7	颷 (<CJK Ideograph>)";
" 2515	0x98C8	飈 (<CJK Ideograph>)";
" 2516	0x98C7	飇 (<CJK Ideograph>)";
" 2517	0x4AFF	䫿 (<CJK Ideograph Extension A>)";
" 2518	0x26D27	𦴧 (<CJK Ideograph Extension B>)";
" 2519	0x216D3	𡛓 (<CJK Ideograph Extension B>)";
" 2520	0x55B0	喰 (<CJK Ideograph>)";
" 2521	0x98E1	飡 (<CJK Ideograph>)";
" 2522	0x98E6	飦 (<CJK Ideograph>)";
" 2523	0x98EC	飬 (<CJK Ideograph>)";
" 2524	0x9378	鍸 (<CJK Ideograph>)";
" 2525	0x9939	餹 (<CJK Ideograph>)";
" 2526	0x24A29	𤨩 (<CJK Ideograph Extension B>)";
" 2527	0x4B72	䭲 (<CJK Ideograph Extension A>)";
" 2528	0x29857	𩡗 (<CJK Ideograph Extension B>)";
" 2529	0x29905	𩤅 (<CJK Ideograph Extension B>)";
" 2530	0x99F5	駵 (<CJK Ideograph>)";
" 2531	0x9A0C	騌 (<CJK Ideograph>)";
" 2532	0x9A3B	騻 (<CJK Ideograph>)";
" 2533	0x9A10	騐 (<CJK Ideograph>)";
" 2534	0x9A58	驘 (<CJK Ideograph>)";
" 2535	0x25725	𥜥 (<CJK Ideograph Extension B>)";
" 2536	0x36C4	㛄 (<CJK Ideograph Extension A>)";
" 2537	0x290B1	𩂱 (<CJK Ideograph Extension B>)";
" 2538	0x29BD5	𩯕 (<CJK Ideograph Extension B>)";
" 2539	0x9AE0	髠 (<CJK Ideograph>)";
" 2540	0x9AE2	髢 (<CJK Ideograph>)";
" 2541	0x29B05	𩬅 (<CJK Ideograph Extension B>)";
" 2542	0x9AF4	髴 (<CJK Ideograph>)";
" 2543	0x4C0E	䰎 (<CJK Ideograph Extension A>)";
" 2544	0x9B14	鬔 (<CJK Ideograph>)";
" 2545	0x9B2D	鬭 (<CJK Ideograph>)";
" 2546	0x28600	𨘀 (<CJK Ideograph Extension B>)";
" 2547	0x5034	倴 (<CJK Ideograph>)";
" 2548	0x9B34	鬴 (<CJK Ideograph>)";
" 2549	0x269A8	𦦨 (<CJK Ideograph Extension B>)";
" 2550	0x38C3	㣃 (<CJK Ideograph Extension A>)";
" 2551	0x2307D	𣁽 (<CJK Ideograph Extension B>)";
" 2552	0x9B50	魐 (<CJK Ideograph>)";
" 2553	0x9B40	魀 (<CJK Ideograph>)";
" 2554	0x29D3E	𩴾 (<CJK Ideograph Extension B>)";
" 2555	0x5A45	婅 (<CJK Ideograph>)";
" 2556	0x21863	𡡣 (<CJK Ideograph Extension B>)";
" 2557	0x9B8E	鮎 (<CJK Ideograph>)";
" 2558	0x2424B	𤉋 (<CJK Ideograph Extension B>)";
" 2559	0x9C02	鰂 (<CJK Ideograph>)";
" 2560	0x9BFF	鯿 (<CJK Ideograph>)";
" 2561	0x9C0C	鰌 (<CJK Ideograph>)";
" 2562	0x29E68	𩹨 (<CJK Ideograph Extension B>)";
" 2563	0x9DD4	鷔 (<CJK Ideograph>)";
" 2564	0x29FB7	𩾷 (<CJK Ideograph Extension B>)";
" 2565	0x2A192	𪆒 (<CJK Ideograph Extension B>)";
" 2566	0x2A1AB	𪆫 (<CJK Ideograph Extension B>)";
" 2567	0x2A0E1	𪃡 (<CJK Ideograph Extension B>)";
" 2568	0x2A123	𪄣 (<CJK Ideograph Extension B>)";
" 2569	0x2A1DF	𪇟 (<CJK Ideograph Extension B>)";
" 2570	0x9D7E	鵾 (<CJK Ideograph>)";
" 2571	0x9D83	鶃 (<CJK Ideograph>)";
" 2572	0x2A134	𪄴 (<CJK Ideograph Extension B>)";
" 2573	0x9E0E	鸎 (<CJK Ideograph>)";
" 2574	0x6888	梈 (<CJK Ideograph>)";
" 2575	0x9DC4	鷄 (<CJK Ideograph>)";
" 2576	0x2215B	𢅛 (<CJK Ideograph Extension B>)";
" 2577	0x2A193	𪆓 (<CJK Ideograph Extension B>)";
" 2578	0x2A220	𪈠 (<CJK Ideograph Extension B>)";
" 2579	0x2193B	𡤻 (<CJK Ideograph Extension B>)";
" 2580	0x2A233	𪈳 (<CJK Ideograph Extension B>)";
" 2581	0x9D39	鴹 (<CJK Ideograph>)";
" 2582	0x2A0B9	𪂹 (<CJK Ideograph Extension B>)";
" 2583	0x2A2B4	𪊴 (<CJK Ideograph Extension B>)";
" 2584	0x9E90	麐 (<CJK Ideograph>)";
" 2585	0x9E95	麕 (<CJK Ideograph>)";
" 2586	0x9E9E	麞 (<CJK Ideograph>)";
" 2587	0x9EA2	麢 (<CJK Ideograph>)";
" 2588	0x4D34	䴴 (<CJK Ideograph Extension A>)";
" 2589	0x9EAA	麪 (<CJK Ideograph>)";
" 2590	0x9EAF	麯 (<CJK Ideograph>)";
" 2591	0x24364	𤍤 (<CJK Ideograph Extension B>)";
" 2592	0x9EC1	黁 (<CJK Ideograph>)";
" 2593	0x3B60	㭠 (<CJK Ideograph Extension A>)";
" 2594	0x39E5	㧥 (<CJK Ideograph Extension A>)";
" 2595	0x3D1D	㴝 (<CJK Ideograph Extension A>)";
" 2596	0x4F32	伲 (<CJK Ideograph>)";
" 2597	0x37BE	㞾 (<CJK Ideograph Extension A>)";
" 2598	0x28C2B	𨰫 (<CJK Ideograph Extension B>)";
" 2599	0x9F02	鼂 (<CJK Ideograph>)";
" 2600	0x9F08	鼈 (<CJK Ideograph>)";
" 2601	0x4B96	䮖 (<CJK Ideograph Extension A>)";
" 2602	0x9424	鐤 (<CJK Ideograph>)";
" 2603	0x26DA2	𦶢 (<CJK Ideograph Extension B>)";
" 2604	0x9F17	鼗 (<CJK Ideograph>)";
" 2605	0x9F16	鼖 (<CJK Ideograph>)";
" 2606	0x9F39	鼹 (<CJK Ideograph>)";
" 2607	0x569F	嚟 (<CJK Ideograph>)";
" 2608	0x568A	嚊 (<CJK Ideograph>)";
" 2609	0x9F45	齅 (<CJK Ideograph>)";
" 2610	0x99B8	馸 (<CJK Ideograph>)";
" 2611	0x2908B	𩂋 (<CJK Ideograph Extension B>)";
" 2612	0x97F2	韲 (<CJK Ideograph>)";
" 2613	0x847F	葿 (<CJK Ideograph>)";
" 2614	0x9F62	齢 (<CJK Ideograph>)";
" 2615	0x9F69	齩 (<CJK Ideograph>)";
" 2616	0x7ADC	竜 (<CJK Ideograph>)";
" 2617	0x9F8E	龎 (<CJK Ideograph>)";
" 2618	0x7216	爖 (<CJK Ideograph>)";
" 2619	0x4BBE	䮾 (<CJK Ideograph Extension A>)";
" 2620	0x24975	𤥵 (<CJK Ideograph Extension B>)";
" 2621	0x249BB	𤦻 (<CJK Ideograph Extension B>)";
" 2622	0x7177	煷 (<CJK Ideograph>)";
" 2623	0x249F8	𤧸 (<CJK Ideograph Extension B>)";
" 2624	0x24348	𤍈 (<CJK Ideograph Extension B>)";
" 2625	0x24A51	𤩑 (<CJK Ideograph Extension B>)";
" 2626	0x739E	玞 (<CJK Ideograph>)"
].
(* /repo/encoding_tables/whatwg/index-big5.txt:1537-1792 *)
Definition index_big5_txt_6 : list line := [
" 2627	0x28BDA	𨯚 (<CJK Ideograph Extension B>)";
" 2628	0x218FA	𡣺 (<CJK Ideograph Extension B>)";
" 2629	0x799F	禟 (<CJK Ideograph>)";
" 2630	0x2897E	𨥾 (<CJK Ideograph Extension B>)";
" 2631	0x28E36	𨸶 (<CJK Ideograph Extension B>)";
" 2632	0x9369	鍩 (<CJK Ideograph>)";
" 2633	0x93F3	鏳 (<CJK Ideograph>)";
" 2634	0x28A44	𨩄 (<CJK Ideograph Extension B>)";
" 2635	0x92EC	鋬 (<CJK Ideograph>)";
" 2636	0x9381	鎁 (<CJK Ideograph>)";
" 2637	0x93CB	鏋 (<CJK Ideograph>)";
" 2638	0x2896C	𨥬 (<CJK Ideograph Extension B>)";
" 2639	0x244B9	𤒹 (<CJK Ideograph Extension B>)";
" 2640	0x7217	爗 (<CJK Ideograph>)";
" 2641	0x3EEB	㻫 (<CJK Ideograph Extension A>)";
" 2642	0x7772	睲 (<CJK Ideograph>)";
" 2643	0x7A43	穃 (<CJK Ideograph>)";
" 2644	0x70D0	烐 (<CJK Ideograph>)";
" 2645	0x24473	𤑳 (<CJK Ideograph Extension B>)";
" 2646	0x243F8	𤏸 (<CJK Ideograph Extension B>)";
" 2647	0x717E	煾 (<CJK Ideograph>)";
" 2648	0x217EF	𡟯 (<CJK Ideograph Extension B>)";
" 2649	0x70A3	炣 (<CJK Ideograph>)";
" 2650	0x218BE	𡢾 (<CJK Ideograph Extension B>)";
" 2651	0x23599	𣖙 (<CJK Ideograph Extension B>)";
" 2652	0x3EC7	㻇 (<CJK Ideograph Extension A>)";
" 2653	0x21885	𡢅 (<CJK Ideograph Extension B>)";
" 2654	0x2542F	𥐯 (<CJK Ideograph Extension B>)";
" 2655	0x217F8	𡟸 (<CJK Ideograph Extension B>)";
" 2656	0x3722	㜢 (<CJK Ideograph Extension A>)";
" 2657	0x216FB	𡛻 (<CJK Ideograph Extension B>)";
" 2658	0x21839	𡠹 (<CJK Ideograph Extension B>)";
" 2659	0x36E1	㛡 (<CJK Ideograph Extension A>)";
" 2660	0x21774	𡝴 (<CJK Ideograph Extension B>)";
" 2661	0x218D1	𡣑 (<CJK Ideograph Extension B>)";
" 2662	0x25F4B	𥽋 (<CJK Ideograph Extension B>)";
" 2663	0x3723	㜣 (<CJK Ideograph Extension A>)";
" 2664	0x216C0	𡛀 (<CJK Ideograph Extension B>)";
" 2665	0x575B	坛 (<CJK Ideograph>)";
" 2666	0x24A25	𤨥 (<CJK Ideograph Extension B>)";
" 2667	0x213FE	𡏾 (<CJK Ideograph Extension B>)";
" 2668	0x212A8	𡊨 (<CJK Ideograph Extension B>)";
" 2669	0x213C6	𡏆 (<CJK Ideograph Extension B>)";
" 2670	0x214B6	𡒶 (<CJK Ideograph Extension B>)";
" 2671	0x8503	蔃 (<CJK Ideograph>)";
" 2672	0x236A6	𣚦 (<CJK Ideograph Extension B>)";
" 2673	0x8503	蔃 (<CJK Ideograph>)";
" 2674	0x8455	葕 (<CJK Ideograph>)";
" 2675	0x24994	𤦔 (<CJK Ideograph Extension B>)";
" 2676	0x27165	𧅥 (<CJK Ideograph Extension B>)";
" 2677	0x23E31	𣸱 (<CJK Ideograph Extension B>)";
" 2678	0x2555C	𥕜 (<CJK Ideograph Extension B>)";
" 2679	0x23EFB	𣻻 (<CJK Ideograph Extension B>)";
" 2680	0x27052	𧁒 (<CJK Ideograph Extension B>)";
" 2681	0x44F4	䓴 (<CJK Ideograph Extension A>)";
" 2682	0x236EE	𣛮 (<CJK Ideograph Extension B>)";
" 2683	0x2999D	𩦝 (<CJK Ideograph Extension B>)";
" 2684	0x26F26	𦼦 (<CJK Ideograph Extension B>)";
" 2685	0x67F9	柹 (<CJK Ideograph>)";
" 2686	0x3733	㜳 (<CJK Ideograph Extension A>)";
" 2687	0x3C15	㰕 (<CJK Ideograph Extension A>)";
" 2688	0x3DE7	㷧 (<CJK Ideograph Extension A>)";
" 2689	0x586C	塬 (<CJK Ideograph>)";
" 2690	0x21922	𡤢 (<CJK Ideograph Extension B>)";
" 2691	0x6810	栐 (<CJK Ideograph>)";
" 2692	0x4057	䁗 (<CJK Ideograph Extension A>)";
" 2693	0x2373F	𣜿 (<CJK Ideograph Extension B>)";
" 2694	0x240E1	𤃡 (<CJK Ideograph Extension B>)";
" 2695	0x2408B	𤂋 (<CJK Ideograph Extension B>)";
" 2696	0x2410F	𤄏 (<CJK Ideograph Extension B>)";
" 2697	0x26C21	𦰡 (<CJK Ideograph Extension B>)";
" 2698	0x54CB	哋 (<CJK Ideograph>)";
" 2699	0x569E	嚞 (<CJK Ideograph>)";
" 2700	0x266B1	𦚱 (<CJK Ideograph Extension B>)";
" 2701	0x5692	嚒 (<CJK Ideograph>)";
" 2702	0x20FDF	𠿟 (<CJK Ideograph Extension B>)";
" 2703	0x20BA8	𠮨 (<CJK Ideograph Extension B>)";
" 2704	0x20E0D	𠸍 (<CJK Ideograph Extension B>)";
" 2705	0x93C6	鏆 (<CJK Ideograph>)";
" 2706	0x28B13	𨬓 (<CJK Ideograph Extension B>)";
" 2707	0x939C	鎜 (<CJK Ideograph>)";
" 2708	0x4EF8	仸 (<CJK Ideograph>)";
" 2709	0x512B	儫 (<CJK Ideograph>)";
" 2710	0x3819	㠙 (<CJK Ideograph Extension A>)";
" 2711	0x24436	𤐶 (<CJK Ideograph Extension B>)";
" 2712	0x4EBC	亼 (<CJK Ideograph>)";
" 2713	0x20465	𠑥 (<CJK Ideograph Extension B>)";
" 2714	0x2037F	𠍿 (<CJK Ideograph Extension B>)";
" 2715	0x4F4B	佋 (<CJK Ideograph>)";
" 2716	0x4F8A	侊 (<CJK Ideograph>)";
" 2717	0x25651	𥙑 (<CJK Ideograph Extension B>)";
" 2718	0x5A68	婨 (<CJK Ideograph>)";
" 2719	0x201AB	𠆫 (<CJK Ideograph Extension B>)";
" 2720	0x203CB	𠏋 (<CJK Ideograph Extension B>)";
" 2721	0x3999	㦙 (<CJK Ideograph Extension A>)";
" 2722	0x2030A	𠌊 (<CJK Ideograph Extension B>)";
" 2723	0x20414	𠐔 (<CJK Ideograph Extension B>)";
" 2724	0x3435	㐵 (<CJK Ideograph Extension A>)";
" 2725	0x4F29	伩 (<CJK Ideograph>)";
" 2726	0x202C0	𠋀 (<CJK Ideograph Extension B>)";
" 2727	0x28EB3	𨺳 (<CJK Ideograph Extension B>)";
" 2728	0x20275	𠉵 (<CJK Ideograph Extension B>)";
" 2729	0x8ADA	諚 (<CJK Ideograph>)";
" 2730	0x2020C	𠈌 (<CJK Ideograph Extension B>)";
" 2731	0x4E98	亘 (<CJK Ideograph>)";
" 2732	0x50CD	働 (<CJK Ideograph>)";
" 2733	0x510D	儍 (<CJK Ideograph>)";
" 2734	0x4FA2	侢 (<CJK Ideograph>)";
" 2735	0x4F03	伃 (<CJK Ideograph>)";
" 2736	0x24A0E	𤨎 (<CJK Ideograph Extension B>)";
" 2737	0x23E8A	𣺊 (<CJK Ideograph Extension B>)";
" 2738	0x4F42	佂 (<CJK Ideograph>)";
" 2739	0x502E	倮 (<CJK Ideograph>)";
" 2740	0x506C	偬 (<CJK Ideograph>)";
" 2741	0x5081	傁 (<CJK Ideograph>)";
" 2742	0x4FCC	俌 (<CJK Ideograph>)";
" 2743	0x4FE5	俥 (<CJK Ideograph>)";
" 2744	0x5058	偘 (<CJK Ideograph>)";
" 2745	0x50FC	僼 (<CJK Ideograph>)";
" 2746	0x5159	兙 (<CJK Ideograph>)";
" 2747	0x515B	兛 (<CJK Ideograph>)";
" 2748	0x515D	兝 (<CJK Ideograph>)";
" 2749	0x515E	兞 (<CJK Ideograph>)";
" 2750	0x6E76	湶 (<CJK Ideograph>)";
" 2751	0x23595	𣖕 (<CJK Ideograph Extension B>)";
" 2752	0x23E39	𣸹 (<CJK Ideograph Extension B>)";
" 2753	0x23EBF	𣺿 (<CJK Ideograph Extension B>)";
" 2754	0x6D72	浲 (<CJK Ideograph>)";
" 2755	0x21884	𡢄 (<CJK Ideograph Extension B>)";
" 2756	0x23E89	𣺉 (<CJK Ideograph Extension B>)";
" 2757	0x51A8	冨 (<CJK Ideograph>)";
" 2758	0x51C3	凃 (<CJK Ideograph>)";
" 2759	0x205E0	𠗠 (<CJK Ideograph Extension B>)";
" 2760	0x44DD	䓝 (<CJK Ideograph Extension A>)";
" 2761	0x204A3	𠒣 (<CJK Ideograph Extension B>)";
" 2762	0x20492	𠒒 (<CJK Ideograph Extension B>)";
" 2763	0x20491	𠒑 (<CJK Ideograph Extension B>)";
" 2764	0x8D7A	赺 (<CJK Ideograph>)";
" 2765	0x28A9C	𨪜 (<CJK Ideograph Extension B>)";
" 2766	0x2070E	𠜎 (<CJK Ideograph Extension B>)";
" 2767	0x5259	剙 (<CJK Ideograph>)";
" 2768	0x52A4	劤 (<CJK Ideograph>)";
" 2769	0x20873	𠡳 (<CJK Ideograph Extension B>)";
" 2770	0x52E1	勡 (<CJK Ideograph>)";
" 2771	0x936E	鍮 (<CJK Ideograph>)";
" 2772	0x467A	䙺 (<CJK Ideograph Extension A>)";
" 2773	0x718C	熌 (<CJK Ideograph>)";
" 2774	0x2438C	𤎌 (<CJK Ideograph Extension B>)";
" 2775	0x20C20	𠰠 (<CJK Ideograph Extension B>)";
" 2776	0x249AC	𤦬 (<CJK Ideograph Extension B>)";
" 2777	0x210E4	𡃤 (<CJK Ideograph Extension B>)";
" 2778	0x69D1	槑 (<CJK Ideograph>)";
" 2779	0x20E1D	𠸝 (<CJK Ideograph Extension B>)";
" 2780	0x7479	瑹 (<CJK Ideograph>)";
" 2781	0x3EDE	㻞 (<CJK Ideograph Extension A>)";
" 2782	0x7499	璙 (<CJK Ideograph>)";
" 2783	0x7414	琔 (<CJK Ideograph>)";
" 2784	0x7456	瑖 (<CJK Ideograph>)";
" 2785	0x7398	玘 (<CJK Ideograph>)";
" 2786	0x4B8E	䮎 (<CJK Ideograph Extension A>)";
" 2787	0x24ABC	𤪼 (<CJK Ideograph Extension B>)";
" 2788	0x2408D	𤂍 (<CJK Ideograph Extension B>)";
" 2789	0x53D0	叐 (<CJK Ideograph>)";
" 2790	0x3584	㖄 (<CJK Ideograph Extension A>)";
" 2791	0x720F	爏 (<CJK Ideograph>)";
" 2792	0x240C9	𤃉 (<CJK Ideograph Extension B>)";
" 2793	0x55B4	喴 (<CJK Ideograph>)";
" 2794	0x20345	𠍅 (<CJK Ideograph Extension B>)";
" 2795	0x54CD	响 (<CJK Ideograph>)";
" 2796	0x20BC6	𠯆 (<CJK Ideograph Extension B>)";
" 2797	0x571D	圝 (<CJK Ideograph>)";
" 2798	0x925D	鉝 (<CJK Ideograph>)";
" 2799	0x96F4	雴 (<CJK Ideograph>)";
" 2800	0x9366	鍦 (<CJK Ideograph>)";
" 2801	0x57DD	埝 (<CJK Ideograph>)";
" 2802	0x578D	垍 (<CJK Ideograph>)";
" 2803	0x577F	坿 (<CJK Ideograph>)";
" 2804	0x363E	㘾 (<CJK Ideograph Extension A>)";
" 2805	0x58CB	壋 (<CJK Ideograph>)";
" 2806	0x5A99	媙 (<CJK Ideograph>)";
" 2807	0x28A46	𨩆 (<CJK Ideograph Extension B>)";
" 2808	0x216FA	𡛺 (<CJK Ideograph Extension B>)";
" 2809	0x2176F	𡝯 (<CJK Ideograph Extension B>)";
" 2810	0x21710	𡜐 (<CJK Ideograph Extension B>)";
" 2811	0x5A2C	娬 (<CJK Ideograph>)";
" 2812	0x59B8	妸 (<CJK Ideograph>)";
" 2813	0x928F	銏 (<CJK Ideograph>)";
" 2814	0x5A7E	婾 (<CJK Ideograph>)";
" 2815	0x5ACF	嫏 (<CJK Ideograph>)";
" 2816	0x5A12	娒 (<CJK Ideograph>)";
" 2817	0x25946	𥥆 (<CJK Ideograph Extension B>)";
" 2818	0x219F3	𡧳 (<CJK Ideograph Extension B>)";
" 2819	0x21861	𡡡 (<CJK Ideograph Extension B>)";
" 2820	0x24295	𤊕 (<CJK Ideograph Extension B>)";
" 2821	0x36F5	㛵 (<CJK Ideograph Extension A>)";
" 2822	0x6D05	洅 (<CJK Ideograph>)";
" 2823	0x7443	瑃 (<CJK Ideograph>)";
" 2824	0x5A21	娡 (<CJK Ideograph>)";
" 2825	0x25E83	𥺃 (<CJK Ideograph Extension B>)";
" 2826	0x5A81	媁 (<CJK Ideograph>)";
" 2827	0x28BD7	𨯗 (<CJK Ideograph Extension B>)";
" 2828	0x20413	𠐓 (<CJK Ideograph Extension B>)";
" 2829	0x93E0	鏠 (<CJK Ideograph>)";
" 2830	0x748C	璌 (<CJK Ideograph>)";
" 2831	0x21303	𡌃 (<CJK Ideograph Extension B>)";
" 2832	0x7105	焅 (<CJK Ideograph>)";
" 2833	0x4972	䥲 (<CJK Ideograph Extension A>)";
" 2834	0x9408	鐈 (<CJK Ideograph>)";
" 2835	0x289FB	𨧻 (<CJK Ideograph Extension B>)";
" 2836	0x93BD	鎽 (<CJK Ideograph>)";
" 2837	0x37A0	㞠 (<CJK Ideograph Extension A>)";
" 2838	0x5C1E	尞 (<CJK Ideograph>)";
" 2839	0x5C9E	岞 (<CJK Ideograph>)";
" 2840	0x5E5E	幞 (<CJK Ideograph>)";
" 2841	0x5E48	幈 (<CJK Ideograph>)";
" 2842	0x21996	𡦖 (<CJK Ideograph Extension B>)";
" 2843	0x2197C	𡥼 (<CJK Ideograph Extension B>)";
" 2844	0x23AEE	𣫮 (<CJK Ideograph Extension B>)";
" 2845	0x5ECD	廍 (<CJK Ideograph>)";
" 2846	0x5B4F	孏 (<CJK Ideograph>)";
" 2847	0x21903	𡤃 (<CJK Ideograph Extension B>)";
" 2848	0x21904	𡤄 (<CJK Ideograph Extension B>)";
" 2849	0x3701	㜁 (<CJK Ideograph Extension A>)";
" 2850	0x218A0	𡢠 (<CJK Ideograph Extension B>)";
" 2851	0x36DD	㛝 (<CJK Ideograph Extension A>)";
" 2852	0x216FE	𡛾 (<CJK Ideograph Extension B>)";
" 2853	0x36D3	㛓 (<CJK Ideograph Extension A>)";
" 2854	0x812A	脪 (<CJK Ideograph>)";
" 2855	0x28A47	𨩇 (<CJK Ideograph Extension B>)";
" 2856	0x21DBA	𡶺 (<CJK Ideograph Extension B>)";
" 2857	0x23472	𣑲 (<CJK Ideograph Extension B>)";
" 2858	0x289A8	𨦨 (<CJK Ideograph Extension B>)";
" 2859	0x5F0C	弌 (<CJK Ideograph>)";
" 2860	0x5F0E	弎 (<CJK Ideograph>)";
" 2861	0x21927	𡤧 (<CJK Ideograph Extension B>)";
" 2862	0x217AB	𡞫 (<CJK Ideograph Extension B>)";
" 2863	0x5A6B	婫 (<CJK Ideograph>)";
" 2864	0x2173B	𡜻 (<CJK Ideograph Extension B>)";
" 2865	0x5B44	孄 (<CJK Ideograph>)";
" 2866	0x8614	蘔 (<CJK Ideograph>)";
" 2867	0x275FD	𧗽 (<CJK Ideograph Extension B>)";
" 2868	0x8860	衠 (<CJK Ideograph>)";
" 2869	0x607E	恾 (<CJK Ideograph>)";
" 2870	0x22860	𢡠 (<CJK Ideograph Extension B>)";
" 2871	0x2262B	𢘫 (<CJK Ideograph Extension B>)";
" 2872	0x5FDB	忛 (<CJK Ideograph>)";
" 2873	0x3EB8	㺸 (<CJK Ideograph Extension A>)";
" 2874	0x225AF	𢖯 (<CJK Ideograph Extension B>)";
" 2875	0x225BE	𢖾 (<CJK Ideograph Extension B>)";
" 2876	0x29088	𩂈 (<CJK Ideograph Extension B>)";
" 2877	0x26F73	𦽳 (<CJK Ideograph Extension B>)";
" 2878	0x61C0	懀 (<CJK Ideograph>)";
" 2879	0x2003E	𠀾 (<CJK Ideograph Extension B>)";
" 2880	0x20046	𠁆 (<CJK Ideograph Extension B>)";
" 2881	0x2261B	𢘛 (<CJK Ideograph Extension B>)";
" 2882	0x6199	憙 (<CJK Ideograph>)"
].
(* /repo/encoding_tables/whatwg/index-big5.txt:1793-2048 *)
Definition index_big5_txt_7 : list line := [
" 2883	0x6198	憘 (<CJK Ideograph>)";
" 2884	0x6075	恵 (<CJK Ideograph>)";
" 2885	0x22C9B	𢲛 (<CJK Ideograph Extension B>)";
" 2886	0x22D07	𢴇 (<CJK Ideograph Extension B>)";
" 2887	0x246D4	𤛔 (<CJK Ideograph Extension B>)";
" 2888	0x2914D	𩅍 (<CJK Ideograph Extension B>)";
" 2889	0x6471	摱 (<CJK Ideograph>)";
" 2890	0x24665	𤙥 (<CJK Ideograph Extension B>)";
" 2891	0x22B6A	𢭪 (<CJK Ideograph Extension B>)";
" 2892	0x3A29	㨩 (<CJK Ideograph Extension A>)";
" 2893	0x22B22	𢬢 (<CJK Ideograph Extension B>)";
" 2894	0x23450	𣑐 (<CJK Ideograph Extension B>)";
" 2895	0x298EA	𩣪 (<CJK Ideograph Extension B>)";
" 2896	0x22E78	𢹸 (<CJK Ideograph Extension B>)";
" 2897	0x6337	挷 (<CJK Ideograph>)";
" 2898	0x2A45B	𪑛 (<CJK Ideograph Extension B>)";
" 2899	0x64B6	撶 (<CJK Ideograph>)";
" 2900	0x6331	挱 (<CJK Ideograph>)";
" 2901	0x63D1	揑 (<CJK Ideograph>)";
" 2902	0x249E3	𤧣 (<CJK Ideograph Extension B>)";
" 2903	0x22D67	𢵧 (<CJK Ideograph Extension B>)";
" 2904	0x62A4	护 (<CJK Ideograph>)";
" 2905	0x22CA1	𢲡 (<CJK Ideograph Extension B>)";
" 2906	0x643B	搻 (<CJK Ideograph>)";
" 2907	0x656B	敫 (<CJK Ideograph>)";
" 2908	0x6972	楲 (<CJK Ideograph>)";
" 2909	0x3BF4	㯴 (<CJK Ideograph Extension A>)";
" 2910	0x2308E	𣂎 (<CJK Ideograph Extension B>)";
" 2911	0x232AD	𣊭 (<CJK Ideograph Extension B>)";
" 2912	0x24989	𤦉 (<CJK Ideograph Extension B>)";
" 2913	0x232AB	𣊫 (<CJK Ideograph Extension B>)";
" 2914	0x550D	唍 (<CJK Ideograph>)";
" 2915	0x232E0	𣋠 (<CJK Ideograph Extension B>)";
" 2916	0x218D9	𡣙 (<CJK Ideograph Extension B>)";
" 2917	0x2943F	𩐿 (<CJK Ideograph Extension B>)";
" 2918	0x66CE	曎 (<CJK Ideograph>)";
" 2919	0x23289	𣊉 (<CJK Ideograph Extension B>)";
" 2920	0x231B3	𣆳 (<CJK Ideograph Extension B>)";
" 2921	0x3AE0	㫠 (<CJK Ideograph Extension A>)";
" 2922	0x4190	䆐 (<CJK Ideograph Extension A>)";
" 2923	0x25584	𥖄 (<CJK Ideograph Extension B>)";
" 2924	0x28B22	𨬢 (<CJK Ideograph Extension B>)";
" 2925	0x2558F	𥖏 (<CJK Ideograph Extension B>)";
" 2926	0x216FC	𡛼 (<CJK Ideograph Extension B>)";
" 2927	0x2555B	𥕛 (<CJK Ideograph Extension B>)";
" 2928	0x25425	𥐥 (<CJK Ideograph Extension B>)";
" 2929	0x78EE	磮 (<CJK Ideograph>)";
" 2930	0x23103	𣄃 (<CJK Ideograph Extension B>)";
" 2931	0x2182A	𡠪 (<CJK Ideograph Extension B>)";
" 2932	0x23234	𣈴 (<CJK Ideograph Extension B>)";
" 2933	0x3464	㑤 (<CJK Ideograph Extension A>)";
" 2934	0x2320F	𣈏 (<CJK Ideograph Extension B>)";
" 2935	0x23182	𣆂 (<CJK Ideograph Extension B>)";
" 2936	0x242C9	𤋉 (<CJK Ideograph Extension B>)";
" 2937	0x668E	暎 (<CJK Ideograph>)";
" 2938	0x26D24	𦴤 (<CJK Ideograph Extension B>)";
" 2939	0x666B	晫 (<CJK Ideograph>)";
" 2940	0x4B93	䮓 (<CJK Ideograph Extension A>)";
" 2941	0x6630	昰 (<CJK Ideograph>)";
" 2942	0x27870	𧡰 (<CJK Ideograph Extension B>)";
" 2943	0x21DEB	𡷫 (<CJK Ideograph Extension B>)";
" 2944	0x6663	晣 (<CJK Ideograph>)";
" 2945	0x232D2	𣋒 (<CJK Ideograph Extension B>)";
" 2946	0x232E1	𣋡 (<CJK Ideograph Extension B>)";
" 2947	0x661E	昞 (<CJK Ideograph>)";
" 2948	0x25872	𥡲 (<CJK Ideograph Extension B>)";
" 2949	0x38D1	㣑 (<CJK Ideograph Extension A>)";
" 2950	0x2383A	𣠺 (<CJK Ideograph Extension B>)";
" 2951	0x237BC	𣞼 (<CJK Ideograph Extension B>)";
" 2952	0x3B99	㮙 (<CJK Ideograph Extension A>)";
" 2953	0x237A2	𣞢 (<CJK Ideograph Extension B>)";
" 2954	0x233FE	𣏾 (<CJK Ideograph Extension B>)";
" 2955	0x74D0	瓐 (<CJK Ideograph>)";
" 2956	0x3B96	㮖 (<CJK Ideograph Extension A>)";
" 2957	0x678F	枏 (<CJK Ideograph>)";
" 2958	0x2462A	𤘪 (<CJK Ideograph Extension B>)";
" 2959	0x68B6	梶 (<CJK Ideograph>)";
" 2960	0x681E	栞 (<CJK Ideograph>)";
" 2961	0x3BC4	㯄 (<CJK Ideograph Extension A>)";
" 2962	0x6ABE	檾 (<CJK Ideograph>)";
" 2963	0x3863	㡣 (<CJK Ideograph Extension A>)";
" 2964	0x237D5	𣟕 (<CJK Ideograph Extension B>)";
" 2965	0x24487	𤒇 (<CJK Ideograph Extension B>)";
" 2966	0x6A33	樳 (<CJK Ideograph>)";
" 2967	0x6A52	橒 (<CJK Ideograph>)";
" 2968	0x6AC9	櫉 (<CJK Ideograph>)";
" 2969	0x6B05	欅 (<CJK Ideograph>)";
" 2970	0x21912	𡤒 (<CJK Ideograph Extension B>)";
" 2971	0x6511	攑 (<CJK Ideograph>)";
" 2972	0x6898	梘 (<CJK Ideograph>)";
" 2973	0x6A4C	橌 (<CJK Ideograph>)";
" 2974	0x3BD7	㯗 (<CJK Ideograph Extension A>)";
" 2975	0x6A7A	橺 (<CJK Ideograph>)";
" 2976	0x6B57	歗 (<CJK Ideograph>)";
" 2977	0x23FC0	𣿀 (<CJK Ideograph Extension B>)";
" 2978	0x23C9A	𣲚 (<CJK Ideograph Extension B>)";
" 2979	0x93A0	鎠 (<CJK Ideograph>)";
" 2980	0x92F2	鋲 (<CJK Ideograph>)";
" 2981	0x28BEA	𨯪 (<CJK Ideograph Extension B>)";
" 2982	0x28ACB	𨫋 (<CJK Ideograph Extension B>)";
" 2983	0x9289	銉 (<CJK Ideograph>)";
" 2984	0x2801E	𨀞 (<CJK Ideograph Extension B>)";
" 2985	0x289DC	𨧜 (<CJK Ideograph Extension B>)";
" 2986	0x9467	鑧 (<CJK Ideograph>)";
" 2987	0x6DA5	涥 (<CJK Ideograph>)";
" 2988	0x6F0B	漋 (<CJK Ideograph>)";
" 2989	0x249EC	𤧬 (<CJK Ideograph Extension B>)";
" 2990	0x6D67	浧 (<CJK Ideograph>)";
" 2991	0x23F7F	𣽿 (<CJK Ideograph Extension B>)";
" 2992	0x3D8F	㶏 (<CJK Ideograph Extension A>)";
" 2993	0x6E04	渄 (<CJK Ideograph>)";
" 2994	0x2403C	𤀼 (<CJK Ideograph Extension B>)";
" 2995	0x5A3D	娽 (<CJK Ideograph>)";
" 2996	0x6E0A	渊 (<CJK Ideograph>)";
" 2997	0x5847	塇 (<CJK Ideograph>)";
" 2998	0x6D24	洤 (<CJK Ideograph>)";
" 2999	0x7842	硂 (<CJK Ideograph>)";
" 3000	0x713B	焻 (<CJK Ideograph>)";
" 3001	0x2431A	𤌚 (<CJK Ideograph Extension B>)";
" 3002	0x24276	𤉶 (<CJK Ideograph Extension B>)";
" 3003	0x70F1	烱 (<CJK Ideograph>)";
" 3004	0x7250	牐 (<CJK Ideograph>)";
" 3005	0x7287	犇 (<CJK Ideograph>)";
" 3006	0x7294	犔 (<CJK Ideograph>)";
" 3007	0x2478F	𤞏 (<CJK Ideograph Extension B>)";
" 3008	0x24725	𤜥 (<CJK Ideograph Extension B>)";
" 3009	0x5179	兹 (<CJK Ideograph>)";
" 3010	0x24AA4	𤪤 (<CJK Ideograph Extension B>)";
" 3011	0x205EB	𠗫 (<CJK Ideograph Extension B>)";
" 3012	0x747A	瑺 (<CJK Ideograph>)";
" 3013	0x23EF8	𣻸 (<CJK Ideograph Extension B>)";
" 3014	0x2365F	𣙟 (<CJK Ideograph Extension B>)";
" 3015	0x24A4A	𤩊 (<CJK Ideograph Extension B>)";
" 3016	0x24917	𤤗 (<CJK Ideograph Extension B>)";
" 3017	0x25FE1	𥿡 (<CJK Ideograph Extension B>)";
" 3018	0x3F06	㼆 (<CJK Ideograph Extension A>)";
" 3019	0x3EB1	㺱 (<CJK Ideograph Extension A>)";
" 3020	0x24ADF	𤫟 (<CJK Ideograph Extension B>)";
" 3021	0x28C23	𨰣 (<CJK Ideograph Extension B>)";
" 3022	0x23F35	𣼵 (<CJK Ideograph Extension B>)";
" 3023	0x60A7	悧 (<CJK Ideograph>)";
" 3024	0x3EF3	㻳 (<CJK Ideograph Extension A>)";
" 3025	0x74CC	瓌 (<CJK Ideograph>)";
" 3026	0x743C	琼 (<CJK Ideograph>)";
" 3027	0x9387	鎇 (<CJK Ideograph>)";
" 3028	0x7437	琷 (<CJK Ideograph>)";
" 3029	0x449F	䒟 (<CJK Ideograph Extension A>)";
" 3030	0x26DEA	𦷪 (<CJK Ideograph Extension B>)";
" 3031	0x4551	䕑 (<CJK Ideograph Extension A>)";
" 3032	0x7583	疃 (<CJK Ideograph>)";
" 3033	0x3F63	㽣 (<CJK Ideograph Extension A>)";
" 3034	0x24CD9	𤳙 (<CJK Ideograph Extension B>)";
" 3035	0x24D06	𤴆 (<CJK Ideograph Extension B>)";
" 3036	0x3F58	㽘 (<CJK Ideograph Extension A>)";
" 3037	0x7555	畕 (<CJK Ideograph>)";
" 3038	0x7673	癳 (<CJK Ideograph>)";
" 3039	0x2A5C6	𪗆 (<CJK Ideograph Extension B>)";
" 3040	0x3B19	㬙 (<CJK Ideograph Extension A>)";
" 3041	0x7468	瑨 (<CJK Ideograph>)";
" 3042	0x28ACC	𨫌 (<CJK Ideograph Extension B>)";
" 3043	0x249AB	𤦫 (<CJK Ideograph Extension B>)";
" 3044	0x2498E	𤦎 (<CJK Ideograph Extension B>)";
" 3045	0x3AFB	㫻 (<CJK Ideograph Extension A>)";
" 3046	0x3DCD	㷍 (<CJK Ideograph Extension A>)";
" 3047	0x24A4E	𤩎 (<CJK Ideograph Extension B>)";
" 3048	0x3EFF	㻿 (<CJK Ideograph Extension A>)";
" 3049	0x249C5	𤧅 (<CJK Ideograph Extension B>)";
" 3050	0x248F3	𤣳 (<CJK Ideograph Extension B>)";
" 3051	0x91FA	釺 (<CJK Ideograph>)";
" 3052	0x5732	圲 (<CJK Ideograph>)";
" 3053	0x9342	鍂 (<CJK Ideograph>)";
" 3054	0x28AE3	𨫣 (<CJK Ideograph Extension B>)";
" 3055	0x21864	𡡤 (<CJK Ideograph Extension B>)";
" 3056	0x50DF	僟 (<CJK Ideograph>)";
" 3057	0x25221	𥈡 (<CJK Ideograph Extension B>)";
" 3058	0x251E7	𥇧 (<CJK Ideograph Extension B>)";
" 3059	0x7778	睸 (<CJK Ideograph>)";
" 3060	0x23232	𣈲 (<CJK Ideograph Extension B>)";
" 3061	0x770E	眎 (<CJK Ideograph>)";
" 3062	0x770F	眏 (<CJK Ideograph>)";
" 3063	0x777B	睻 (<CJK Ideograph>)";
" 3064	0x24697	𤚗 (<CJK Ideograph Extension B>)";
" 3065	0x23781	𣞁 (<CJK Ideograph Extension B>)";
" 3066	0x3A5E	㩞 (<CJK Ideograph Extension A>)";
" 3067	0x248F0	𤣰 (<CJK Ideograph Extension B>)";
" 3068	0x7438	琸 (<CJK Ideograph>)";
" 3069	0x749B	璛 (<CJK Ideograph>)";
" 3070	0x3EBF	㺿 (<CJK Ideograph Extension A>)";
" 3071	0x24ABA	𤪺 (<CJK Ideograph Extension B>)";
" 3072	0x24AC7	𤫇 (<CJK Ideograph Extension B>)";
" 3073	0x40C8	䃈 (<CJK Ideograph Extension A>)";
" 3074	0x24A96	𤪖 (<CJK Ideograph Extension B>)";
" 3075	0x261AE	𦆮 (<CJK Ideograph Extension B>)";
" 3076	0x9307	錇 (<CJK Ideograph>)";
" 3077	0x25581	𥖁 (<CJK Ideograph Extension B>)";
" 3078	0x781E	砞 (<CJK Ideograph>)";
" 3079	0x788D	碍 (<CJK Ideograph>)";
" 3080	0x7888	碈 (<CJK Ideograph>)";
" 3081	0x78D2	磒 (<CJK Ideograph>)";
" 3082	0x73D0	珐 (<CJK Ideograph>)";
" 3083	0x7959	祙 (<CJK Ideograph>)";
" 3084	0x27741	𧝁 (<CJK Ideograph Extension B>)";
" 3085	0x256E3	𥛣 (<CJK Ideograph Extension B>)";
" 3086	0x410E	䄎 (<CJK Ideograph Extension A>)";
" 3087	0x799B	禛 (<CJK Ideograph>)";
" 3088	0x8496	蒖 (<CJK Ideograph>)";
" 3089	0x79A5	禥 (<CJK Ideograph>)";
" 3090	0x6A2D	樭 (<CJK Ideograph>)";
" 3091	0x23EFA	𣻺 (<CJK Ideograph Extension B>)";
" 3092	0x7A3A	稺 (<CJK Ideograph>)";
" 3093	0x79F4	秴 (<CJK Ideograph>)";
" 3094	0x416E	䅮 (<CJK Ideograph Extension A>)";
" 3095	0x216E6	𡛦 (<CJK Ideograph Extension B>)";
" 3096	0x4132	䄲 (<CJK Ideograph Extension A>)";
" 3097	0x9235	鈵 (<CJK Ideograph>)";
" 3098	0x79F1	秱 (<CJK Ideograph>)";
" 3099	0x20D4C	𠵌 (<CJK Ideograph Extension B>)";
" 3100	0x2498C	𤦌 (<CJK Ideograph Extension B>)";
" 3101	0x20299	𠊙 (<CJK Ideograph Extension B>)";
" 3102	0x23DBA	𣶺 (<CJK Ideograph Extension B>)";
" 3103	0x2176E	𡝮 (<CJK Ideograph Extension B>)";
" 3104	0x3597	㖗 (<CJK Ideograph Extension A>)";
" 3105	0x556B	啫 (<CJK Ideograph>)";
" 3106	0x3570	㕰 (<CJK Ideograph Extension A>)";
" 3107	0x36AA	㚪 (<CJK Ideograph Extension A>)";
" 3108	0x201D4	𠇔 (<CJK Ideograph Extension B>)";
" 3109	0x20C0D	𠰍 (<CJK Ideograph Extension B>)";
" 3110	0x7AE2	竢 (<CJK Ideograph>)";
" 3111	0x5A59	婙 (<CJK Ideograph>)";
" 3112	0x226F5	𢛵 (<CJK Ideograph Extension B>)";
" 3113	0x25AAF	𥪯 (<CJK Ideograph Extension B>)";
" 3114	0x25A9C	𥪜 (<CJK Ideograph Extension B>)";
" 3115	0x5A0D	娍 (<CJK Ideograph>)";
" 3116	0x2025B	𠉛 (<CJK Ideograph Extension B>)";
" 3117	0x78F0	磰 (<CJK Ideograph>)";
" 3118	0x5A2A	娪 (<CJK Ideograph>)";
" 3119	0x25BC6	𥯆 (<CJK Ideograph Extension B>)";
" 3120	0x7AFE	竾 (<CJK Ideograph>)";
" 3121	0x41F9	䇹 (<CJK Ideograph Extension A>)";
" 3122	0x7C5D	籝 (<CJK Ideograph>)";
" 3123	0x7C6D	籭 (<CJK Ideograph>)";
" 3124	0x4211	䈑 (<CJK Ideograph Extension A>)";
" 3125	0x25BB3	𥮳 (<CJK Ideograph Extension B>)";
" 3126	0x25EBC	𥺼 (<CJK Ideograph Extension B>)";
" 3127	0x25EA6	𥺦 (<CJK Ideograph Extension B>)";
" 3128	0x7CCD	糍 (<CJK Ideograph>)";
" 3129	0x249F9	𤧹 (<CJK Ideograph Extension B>)";
" 3130	0x217B0	𡞰 (<CJK Ideograph Extension B>)";
" 3131	0x7C8E	粎 (<CJK Ideograph>)";
" 3132	0x7C7C	籼 (<CJK Ideograph>)";
" 3133	0x7CAE	粮 (<CJK Ideograph>)";
" 3134	0x6AB2	檲 (<CJK Ideograph>)";
" 3135	0x7DDC	緜 (<CJK Ideograph>)";
" 3136	0x7E07	縇 (<CJK Ideograph>)";
" 3137	0x7DD3	緓 (<CJK Ideograph>)";
" 3138	0x7F4E	罎 (<CJK Ideograph>)"
].
(* /repo/encoding_tables/whatwg/index-big5.txt:2049-2304 *)
Definition index_big5_txt_8 : list line := [
" 3139	0x26261	𦉡 (<CJK Ideograph Extension B>)";
" 3140	0x2615C	𦅜 (<CJK Ideograph Extension B>)";
" 3141	0x27B48	𧭈 (<CJK Ideograph Extension B>)";
" 3142	0x7D97	綗 (<CJK Ideograph>)";
" 3143	0x25E82	𥺂 (<CJK Ideograph Extension B>)";
" 3144	0x426A	䉪 (<CJK Ideograph Extension A>)";
" 3145	0x26B75	𦭵 (<CJK Ideograph Extension B>)";
" 3146	0x20916	𠤖 (<CJK Ideograph Extension B>)";
" 3147	0x67D6	柖 (<CJK Ideograph>)";
" 3148	0x2004E	𠁎 (<CJK Ideograph Extension B>)";
" 3149	0x235CF	𣗏 (<CJK Ideograph Extension B>)";
" 3150	0x57C4	埄 (<CJK Ideograph>)";
" 3151	0x26412	𦐒 (<CJK Ideograph Extension B>)";
" 3152	0x263F8	𦏸 (<CJK Ideograph Extension B>)";
" 3153	0x24962	𤥢 (<CJK Ideograph Extension B>)";
" 3154	0x7FDD	翝 (<CJK Ideograph>)";
" 3155	0x7B27	笧 (<CJK Ideograph>)";
" 3156	0x2082C	𠠬 (<CJK Ideograph Extension B>)";
" 3157	0x25AE9	𥫩 (<CJK Ideograph Extension B>)";
" 3158	0x25D43	𥵃 (<CJK Ideograph Extension B>)";
" 3159	0x7B0C	笌 (<CJK Ideograph>)";
" 3160	0x25E0E	𥸎 (<CJK Ideograph Extension B>)";
" 3161	0x99E6	駦 (<CJK Ideograph>)";
" 3162	0x8645	虅 (<CJK Ideograph>)";
" 3163	0x9A63	驣 (<CJK Ideograph>)";
" 3164	0x6A1C	樜 (<CJK Ideograph>)";
" 3165	0x2343F	𣐿 (<CJK Ideograph Extension B>)";
" 3166	0x39E2	㧢 (<CJK Ideograph Extension A>)";
" 3167	0x249F7	𤧷 (<CJK Ideograph Extension B>)";
" 3168	0x265AD	𦖭 (<CJK Ideograph Extension B>)";
" 3169	0x9A1F	騟 (<CJK Ideograph>)";
" 3170	0x265A0	𦖠 (<CJK Ideograph Extension B>)";
" 3171	0x8480	蒀 (<CJK Ideograph>)";
" 3172	0x27127	𧄧 (<CJK Ideograph Extension B>)";
" 3173	0x26CD1	𦳑 (<CJK Ideograph Extension B>)";
" 3174	0x44EA	䓪 (<CJK Ideograph Extension A>)";
" 3175	0x8137	脷 (<CJK Ideograph>)";
" 3176	0x4402	䐂 (<CJK Ideograph Extension A>)";
" 3177	0x80C6	胆 (<CJK Ideograph>)";
" 3178	0x8109	脉 (<CJK Ideograph>)";
" 3179	0x8142	腂 (<CJK Ideograph>)";
" 3180	0x267B4	𦞴 (<CJK Ideograph Extension B>)";
" 3181	0x98C3	飃 (<CJK Ideograph>)";
" 3182	0x26A42	𦩂 (<CJK Ideograph Extension B>)";
" 3183	0x8262	艢 (<CJK Ideograph>)";
" 3184	0x8265	艥 (<CJK Ideograph>)";
" 3185	0x26A51	𦩑 (<CJK Ideograph Extension B>)";
" 3186	0x8453	葓 (<CJK Ideograph>)";
" 3187	0x26DA7	𦶧 (<CJK Ideograph Extension B>)";
" 3188	0x8610	蘐 (<CJK Ideograph>)";
" 3189	0x2721B	𧈛 (<CJK Ideograph Extension B>)";
" 3190	0x5A86	媆 (<CJK Ideograph>)";
" 3191	0x417F	䅿 (<CJK Ideograph Extension A>)";
" 3192	0x21840	𡡀 (<CJK Ideograph Extension B>)";
" 3193	0x5B2B	嬫 (<CJK Ideograph>)";
" 3194	0x218A1	𡢡 (<CJK Ideograph Extension B>)";
" 3195	0x5AE4	嫤 (<CJK Ideograph>)";
" 3196	0x218D8	𡣘 (<CJK Ideograph Extension B>)";
" 3197	0x86A0	蚠 (<CJK Ideograph>)";
" 3198	0x2F9BC	蜨 (CJK COMPATIBILITY IDEOGRAPH-2F9BC)";
" 3199	0x23D8F	𣶏 (<CJK Ideograph Extension B>)";
" 3200	0x882D	蠭 (<CJK Ideograph>)";
" 3201	0x27422	𧐢 (<CJK Ideograph Extension B>)";
" 3202	0x5A02	娂 (<CJK Ideograph>)";
" 3203	0x886E	衮 (<CJK Ideograph>)";
" 3204	0x4F45	佅 (<CJK Ideograph>)";
" 3205	0x8887	袇 (<CJK Ideograph>)";
" 3206	0x88BF	袿 (<CJK Ideograph>)";
" 3207	0x88E6	裦 (<CJK Ideograph>)";
" 3208	0x8965	襥 (<CJK Ideograph>)";
" 3209	0x894D	襍 (<CJK Ideograph>)";
" 3210	0x25683	𥚃 (<CJK Ideograph Extension B>)";
" 3211	0x8954	襔 (<CJK Ideograph>)";
" 3212	0x27785	𧞅 (<CJK Ideograph Extension B>)";
" 3213	0x27784	𧞄 (<CJK Ideograph Extension B>)";
" 3214	0x28BF5	𨯵 (<CJK Ideograph Extension B>)";
" 3215	0x28BD9	𨯙 (<CJK Ideograph Extension B>)";
" 3216	0x28B9C	𨮜 (<CJK Ideograph Extension B>)";
" 3217	0x289F9	𨧹 (<CJK Ideograph Extension B>)";
" 3218	0x3EAD	㺭 (<CJK Ideograph Extension A>)";
" 3219	0x84A3	蒣 (<CJK Ideograph>)";
" 3220	0x46F5	䛵 (<CJK Ideograph Extension A>)";
" 3221	0x46CF	䛏 (<CJK Ideograph Extension A>)";
" 3222	0x37F2	㟲 (<CJK Ideograph Extension A>)";
" 3223	0x8A3D	訽 (<CJK Ideograph>)";
" 3224	0x8A1C	訜 (<CJK Ideograph>)";
" 3225	0x29448	𩑈 (<CJK Ideograph Extension B>)";
" 3226	0x5F4D	彍 (<CJK Ideograph>)";
" 3227	0x922B	鈫 (<CJK Ideograph>)";
" 3228	0x24284	𤊄 (<CJK Ideograph Extension B>)";
" 3229	0x65D4	旔 (<CJK Ideograph>)";
" 3230	0x7129	焩 (<CJK Ideograph>)";
" 3231	0x70C4	烄 (<CJK Ideograph>)";
" 3232	0x21845	𡡅 (<CJK Ideograph Extension B>)";
" 3233	0x9D6D	鵭 (<CJK Ideograph>)";
" 3234	0x8C9F	貟 (<CJK Ideograph>)";
" 3235	0x8CE9	賩 (<CJK Ideograph>)";
" 3236	0x27DDC	𧷜 (<CJK Ideograph Extension B>)";
" 3237	0x599A	妚 (<CJK Ideograph>)";
" 3238	0x77C3	矃 (<CJK Ideograph>)";
" 3239	0x59F0	姰 (<CJK Ideograph>)";
" 3240	0x436E	䍮 (<CJK Ideograph Extension A>)";
" 3241	0x36D4	㛔 (<CJK Ideograph Extension A>)";
" 3242	0x8E2A	踪 (<CJK Ideograph>)";
" 3243	0x8EA7	躧 (<CJK Ideograph>)";
" 3244	0x24C09	𤰉 (<CJK Ideograph Extension B>)";
" 3245	0x8F30	輰 (<CJK Ideograph>)";
" 3246	0x8F4A	轊 (<CJK Ideograph>)";
" 3247	0x42F4	䋴 (<CJK Ideograph Extension A>)";
" 3248	0x6C58	汘 (<CJK Ideograph>)";
" 3249	0x6FBB	澻 (<CJK Ideograph>)";
" 3250	0x22321	𢌡 (<CJK Ideograph Extension B>)";
" 3251	0x489B	䢛 (<CJK Ideograph Extension A>)";
" 3252	0x6F79	潹 (<CJK Ideograph>)";
" 3253	0x6E8B	溋 (<CJK Ideograph>)";
" 3254	0x217DA	𡟚 (<CJK Ideograph Extension B>)";
" 3255	0x9BE9	鯩 (<CJK Ideograph>)";
" 3256	0x36B5	㚵 (<CJK Ideograph Extension A>)";
" 3257	0x2492F	𤤯 (<CJK Ideograph Extension B>)";
" 3258	0x90BB	邻 (<CJK Ideograph>)";
" 3259	0x9097	邗 (<CJK Ideograph>)";
" 3260	0x5571	啱 (<CJK Ideograph>)";
" 3261	0x4906	䤆 (<CJK Ideograph Extension A>)";
" 3262	0x91BB	醻 (<CJK Ideograph>)";
" 3263	0x9404	鐄 (<CJK Ideograph>)";
" 3264	0x28A4B	𨩋 (<CJK Ideograph Extension B>)";
" 3265	0x4062	䁢 (<CJK Ideograph Extension A>)";
" 3266	0x28AFC	𨫼 (<CJK Ideograph Extension B>)";
" 3267	0x9427	鐧 (<CJK Ideograph>)";
" 3268	0x28C1D	𨰝 (<CJK Ideograph Extension B>)";
" 3269	0x28C3B	𨰻 (<CJK Ideograph Extension B>)";
" 3270	0x84E5	蓥 (<CJK Ideograph>)";
" 3271	0x8A2B	訫 (<CJK Ideograph>)";
" 3272	0x9599	閙 (<CJK Ideograph>)";
" 3273	0x95A7	閧 (<CJK Ideograph>)";
" 3274	0x9597	閗 (<CJK Ideograph>)";
" 3275	0x9596	閖 (<CJK Ideograph>)";
" 3276	0x28D34	𨴴 (<CJK Ideograph Extension B>)";
" 3277	0x7445	瑅 (<CJK Ideograph>)";
" 3278	0x3EC2	㻂 (<CJK Ideograph Extension A>)";
" 3279	0x248FF	𤣿 (<CJK Ideograph Extension B>)";
" 3280	0x24A42	𤩂 (<CJK Ideograph Extension B>)";
" 3281	0x243EA	𤏪 (<CJK Ideograph Extension B>)";
" 3282	0x3EE7	㻧 (<CJK Ideograph Extension A>)";
" 3283	0x23225	𣈥 (<CJK Ideograph Extension B>)";
" 3284	0x968F	随 (<CJK Ideograph>)";
" 3285	0x28EE7	𨻧 (<CJK Ideograph Extension B>)";
" 3286	0x28E66	𨹦 (<CJK Ideograph Extension B>)";
" 3287	0x28E65	𨹥 (<CJK Ideograph Extension B>)";
" 3288	0x3ECC	㻌 (<CJK Ideograph Extension A>)";
" 3289	0x249ED	𤧭 (<CJK Ideograph Extension B>)";
" 3290	0x24A78	𤩸 (<CJK Ideograph Extension B>)";
" 3291	0x23FEE	𣿮 (<CJK Ideograph Extension B>)";
" 3292	0x7412	琒 (<CJK Ideograph>)";
" 3293	0x746B	瑫 (<CJK Ideograph>)";
" 3294	0x3EFC	㻼 (<CJK Ideograph Extension A>)";
" 3295	0x9741	靁 (<CJK Ideograph>)";
" 3296	0x290B0	𩂰 (<CJK Ideograph Extension B>)";
" 3297	0x6847	桇 (<CJK Ideograph>)";
" 3298	0x4A1D	䨝 (<CJK Ideograph Extension A>)";
" 3299	0x29093	𩂓 (<CJK Ideograph Extension B>)";
" 3300	0x257DF	𥟟 (<CJK Ideograph Extension B>)";
" 3301	0x975D	靝 (<CJK Ideograph>)";
" 3302	0x9368	鍨 (<CJK Ideograph>)";
" 3303	0x28989	𨦉 (<CJK Ideograph Extension B>)";
" 3304	0x28C26	𨰦 (<CJK Ideograph Extension B>)";
" 3305	0x28B2F	𨬯 (<CJK Ideograph Extension B>)";
" 3306	0x263BE	𦎾 (<CJK Ideograph Extension B>)";
" 3307	0x92BA	銺 (<CJK Ideograph>)";
" 3308	0x5B11	嬑 (<CJK Ideograph>)";
" 3309	0x8B69	譩 (<CJK Ideograph>)";
" 3310	0x493C	䤼 (<CJK Ideograph Extension A>)";
" 3311	0x73F9	珹 (<CJK Ideograph>)";
" 3312	0x2421B	𤈛 (<CJK Ideograph Extension B>)";
" 3313	0x979B	鞛 (<CJK Ideograph>)";
" 3314	0x9771	靱 (<CJK Ideograph>)";
" 3315	0x9938	餸 (<CJK Ideograph>)";
" 3316	0x20F26	𠼦 (<CJK Ideograph Extension B>)";
" 3317	0x5DC1	巁 (<CJK Ideograph>)";
" 3318	0x28BC5	𨯅 (<CJK Ideograph Extension B>)";
" 3319	0x24AB2	𤪲 (<CJK Ideograph Extension B>)";
" 3320	0x981F	頟 (<CJK Ideograph>)";
" 3321	0x294DA	𩓚 (<CJK Ideograph Extension B>)";
" 3322	0x92F6	鋶 (<CJK Ideograph>)";
" 3323	0x295D7	𩗗 (<CJK Ideograph Extension B>)";
" 3324	0x91E5	釥 (<CJK Ideograph>)";
" 3325	0x44C0	䓀 (<CJK Ideograph Extension A>)";
" 3326	0x28B50	𨭐 (<CJK Ideograph Extension B>)";
" 3327	0x24A67	𤩧 (<CJK Ideograph Extension B>)";
" 3328	0x28B64	𨭤 (<CJK Ideograph Extension B>)";
" 3329	0x98DC	飜 (<CJK Ideograph>)";
" 3330	0x28A45	𨩅 (<CJK Ideograph Extension B>)";
" 3331	0x3F00	㼀 (<CJK Ideograph Extension A>)";
" 3332	0x922A	鈪 (<CJK Ideograph>)";
" 3333	0x4925	䤥 (<CJK Ideograph Extension A>)";
" 3334	0x8414	萔 (<CJK Ideograph>)";
" 3335	0x993B	餻 (<CJK Ideograph>)";
" 3336	0x994D	饍 (<CJK Ideograph>)";
" 3337	0x27B06	𧬆 (<CJK Ideograph Extension B>)";
" 3338	0x3DFD	㷽 (<CJK Ideograph Extension A>)";
" 3339	0x999B	馛 (<CJK Ideograph>)";
" 3340	0x4B6F	䭯 (<CJK Ideograph Extension A>)";
" 3341	0x99AA	馪 (<CJK Ideograph>)";
" 3342	0x9A5C	驜 (<CJK Ideograph>)";
" 3343	0x28B65	𨭥 (<CJK Ideograph Extension B>)";
" 3344	0x258C8	𥣈 (<CJK Ideograph Extension B>)";
" 3345	0x6A8F	檏 (<CJK Ideograph>)";
" 3346	0x9A21	騡 (<CJK Ideograph>)";
" 3347	0x5AFE	嫾 (<CJK Ideograph>)";
" 3348	0x9A2F	騯 (<CJK Ideograph>)";
" 3349	0x298F1	𩣱 (<CJK Ideograph Extension B>)";
" 3350	0x4B90	䮐 (<CJK Ideograph Extension A>)";
" 3351	0x29948	𩥈 (<CJK Ideograph Extension B>)";
" 3352	0x99BC	馼 (<CJK Ideograph>)";
" 3353	0x4BBD	䮽 (<CJK Ideograph Extension A>)";
" 3354	0x4B97	䮗 (<CJK Ideograph Extension A>)";
" 3355	0x937D	鍽 (<CJK Ideograph>)";
" 3356	0x5872	塲 (<CJK Ideograph>)";
" 3357	0x21302	𡌂 (<CJK Ideograph Extension B>)";
" 3358	0x5822	堢 (<CJK Ideograph>)";
" 3359	0x249B8	𤦸 (<CJK Ideograph Extension B>)";
" 3360	0x214E8	𡓨 (<CJK Ideograph Extension B>)";
" 3361	0x7844	硄 (<CJK Ideograph>)";
" 3362	0x2271F	𢜟 (<CJK Ideograph Extension B>)";
" 3363	0x23DB8	𣶸 (<CJK Ideograph Extension B>)";
" 3364	0x68C5	棅 (<CJK Ideograph>)";
" 3365	0x3D7D	㵽 (<CJK Ideograph Extension A>)";
" 3366	0x9458	鑘 (<CJK Ideograph>)";
" 3367	0x3927	㤧 (<CJK Ideograph Extension A>)";
" 3368	0x6150	慐 (<CJK Ideograph>)";
" 3369	0x22781	𢞁 (<CJK Ideograph Extension B>)";
" 3370	0x2296B	𢥫 (<CJK Ideograph Extension B>)";
" 3371	0x6107	愇 (<CJK Ideograph>)";
" 3372	0x9C4F	鱏 (<CJK Ideograph>)";
" 3373	0x9C53	鱓 (<CJK Ideograph>)";
" 3374	0x9C7B	鱻 (<CJK Ideograph>)";
" 3375	0x9C35	鰵 (<CJK Ideograph>)";
" 3376	0x9C10	鰐 (<CJK Ideograph>)";
" 3377	0x9B7F	魿 (<CJK Ideograph>)";
" 3378	0x9BCF	鯏 (<CJK Ideograph>)";
" 3379	0x29E2D	𩸭 (<CJK Ideograph Extension B>)";
" 3380	0x9B9F	鮟 (<CJK Ideograph>)";
" 3381	0x2A1F5	𪇵 (<CJK Ideograph Extension B>)";
" 3382	0x2A0FE	𪃾 (<CJK Ideograph Extension B>)";
" 3383	0x9D21	鴡 (<CJK Ideograph>)";
" 3384	0x4CAE	䲮 (<CJK Ideograph Extension A>)";
" 3385	0x24104	𤄄 (<CJK Ideograph Extension B>)";
" 3386	0x9E18	鸘 (<CJK Ideograph>)";
" 3387	0x4CB0	䲰 (<CJK Ideograph Extension A>)";
" 3388	0x9D0C	鴌 (<CJK Ideograph>)";
" 3389	0x2A1B4	𪆴 (<CJK Ideograph Extension B>)";
" 3390	0x2A0ED	𪃭 (<CJK Ideograph Extension B>)";
" 3391	0x2A0F3	𪃳 (<CJK Ideograph Extension B>)";
" 3392	0x2992F	𩤯 (<CJK Ideograph Extension B>)";
" 3393	0x9DA5	鶥 (<CJK Ideograph>)";
" 3394	0x84BD	蒽 (<CJK Ideograph>)"
].
(* /repo/encoding_tables/whatwg/index-big5.txt:2305-2560 *)
Definition index_big5_txt_9 : list line := [
" 3395	0x26E12	𦸒 (<CJK Ideograph Extension B>)";
" 3396	0x26FDF	𦿟 (<CJK Ideograph Extension B>)";
" 3397	0x26B82	𦮂 (<CJK Ideograph Extension B>)";
" 3398	0x85FC	藼 (<CJK Ideograph>)";
" 3399	0x4533	䔳 (<CJK Ideograph Extension A>)";
" 3400	0x26DA4	𦶤 (<CJK Ideograph Extension B>)";
" 3401	0x26E84	𦺄 (<CJK Ideograph Extension B>)";
" 3402	0x26DF0	𦷰 (<CJK Ideograph Extension B>)";
" 3403	0x8420	萠 (<CJK Ideograph>)";
" 3404	0x85EE	藮 (<CJK Ideograph>)";
" 3405	0x26E00	𦸀 (<CJK Ideograph Extension B>)";
" 3406	0x237D7	𣟗 (<CJK Ideograph Extension B>)";
" 3407	0x26064	𦁤 (<CJK Ideograph Extension B>)";
" 3408	0x79E2	秢 (<CJK Ideograph>)";
" 3409	0x2359C	𣖜 (<CJK Ideograph Extension B>)";
" 3410	0x23640	𣙀 (<CJK Ideograph Extension B>)";
" 3411	0x492D	䤭 (<CJK Ideograph Extension A>)";
" 3412	0x249DE	𤧞 (<CJK Ideograph Extension B>)";
" 3413	0x3D62	㵢 (<CJK Ideograph Extension A>)";
" 3414	0x93DB	鏛 (<CJK Ideograph>)";
" 3415	0x92BE	銾 (<CJK Ideograph>)";
" 3416	0x9348	鍈 (<CJK Ideograph>)";
" 3417	0x202BF	𠊿 (<CJK Ideograph Extension B>)";
" 3418	0x78B9	碹 (<CJK Ideograph>)";
" 3419	0x9277	鉷 (<CJK Ideograph>)";
" 3420	0x944D	鑍 (<CJK Ideograph>)";
" 3421	0x4FE4	俤 (<CJK Ideograph>)";
" 3422	0x3440	㑀 (<CJK Ideograph Extension A>)";
" 3423	0x9064	遤 (<CJK Ideograph>)";
" 3424	0x2555D	𥕝 (<CJK Ideograph Extension B>)";
" 3425	0x783D	砽 (<CJK Ideograph>)";
" 3426	0x7854	硔 (<CJK Ideograph>)";
" 3427	0x78B6	碶 (<CJK Ideograph>)";
" 3428	0x784B	硋 (<CJK Ideograph>)";
" 3429	0x21757	𡝗 (<CJK Ideograph Extension B>)";
" 3430	0x231C9	𣇉 (<CJK Ideograph Extension B>)";
" 3431	0x24941	𤥁 (<CJK Ideograph Extension B>)";
" 3432	0x369A	㚚 (<CJK Ideograph Extension A>)";
" 3433	0x4F72	佲 (<CJK Ideograph>)";
" 3434	0x6FDA	濚 (<CJK Ideograph>)";
" 3435	0x6FD9	濙 (<CJK Ideograph>)";
" 3436	0x701E	瀞 (<CJK Ideograph>)";
" 3437	0x701E	瀞 (<CJK Ideograph>)";
" 3438	0x5414	吔 (<CJK Ideograph>)";
" 3439	0x241B5	𤆵 (<CJK Ideograph Extension B>)";
" 3440	0x57BB	垻 (<CJK Ideograph>)";
" 3441	0x58F3	壳 (<CJK Ideograph>)";
" 3442	0x578A	垊 (<CJK Ideograph>)";
" 3443	0x9D16	鴖 (<CJK Ideograph>)";
" 3444	0x57D7	埗 (<CJK Ideograph>)";
" 3445	0x7134	焴 (<CJK Ideograph>)";
" 3446	0x34AF	㒯 (<CJK Ideograph Extension A>)";
" 3447	0x241AC	𤆬 (<CJK Ideograph Extension B>)";
" 3448	0x71EB	燫 (<CJK Ideograph>)";
" 3449	0x26C40	𦱀 (<CJK Ideograph Extension B>)";
" 3450	0x24F97	𤾗 (<CJK Ideograph Extension B>)";
" 3451	0x5B28	嬨 (<CJK Ideograph>)";
" 3452	0x217B5	𡞵 (<CJK Ideograph Extension B>)";
" 3453	0x28A49	𨩉 (<CJK Ideograph Extension B>)";
" 3454	0x610C	愌 (<CJK Ideograph>)";
" 3455	0x5ACE	嫎 (<CJK Ideograph>)";
" 3456	0x5A0B	娋 (<CJK Ideograph>)";
" 3457	0x42BC	䊼 (<CJK Ideograph Extension A>)";
" 3458	0x24488	𤒈 (<CJK Ideograph Extension B>)";
" 3459	0x372C	㜬 (<CJK Ideograph Extension A>)";
" 3460	0x4B7B	䭻 (<CJK Ideograph Extension A>)";
" 3461	0x289FC	𨧼 (<CJK Ideograph Extension B>)";
" 3462	0x93BB	鎻 (<CJK Ideograph>)";
" 3463	0x93B8	鎸 (<CJK Ideograph>)";
" 3464	0x218D6	𡣖 (<CJK Ideograph Extension B>)";
" 3465	0x20F1D	𠼝 (<CJK Ideograph Extension B>)";
" 3466	0x8472	葲 (<CJK Ideograph>)";
" 3467	0x26CC0	𦳀 (<CJK Ideograph Extension B>)";
" 3468	0x21413	𡐓 (<CJK Ideograph Extension B>)";
" 3469	0x242FA	𤋺 (<CJK Ideograph Extension B>)";
" 3470	0x22C26	𢰦 (<CJK Ideograph Extension B>)";
" 3471	0x243C1	𤏁 (<CJK Ideograph Extension B>)";
" 3472	0x5994	妔 (<CJK Ideograph>)";
" 3473	0x23DB7	𣶷 (<CJK Ideograph Extension B>)";
" 3474	0x26741	𦝁 (<CJK Ideograph Extension B>)";
" 3475	0x7DA8	綨 (<CJK Ideograph>)";
" 3476	0x2615B	𦅛 (<CJK Ideograph Extension B>)";
" 3477	0x260A4	𦂤 (<CJK Ideograph Extension B>)";
" 3478	0x249B9	𤦹 (<CJK Ideograph Extension B>)";
" 3479	0x2498B	𤦋 (<CJK Ideograph Extension B>)";
" 3480	0x289FA	𨧺 (<CJK Ideograph Extension B>)";
" 3481	0x92E5	鋥 (<CJK Ideograph>)";
" 3482	0x73E2	珢 (<CJK Ideograph>)";
" 3483	0x3EE9	㻩 (<CJK Ideograph Extension A>)";
" 3484	0x74B4	璴 (<CJK Ideograph>)";
" 3485	0x28B63	𨭣 (<CJK Ideograph Extension B>)";
" 3486	0x2189F	𡢟 (<CJK Ideograph Extension B>)";
" 3487	0x3EE1	㻡 (<CJK Ideograph Extension A>)";
" 3488	0x24AB3	𤪳 (<CJK Ideograph Extension B>)";
" 3489	0x6AD8	櫘 (<CJK Ideograph>)";
" 3490	0x73F3	珳 (<CJK Ideograph>)";
" 3491	0x73FB	珻 (<CJK Ideograph>)";
" 3492	0x3ED6	㻖 (<CJK Ideograph Extension A>)";
" 3493	0x24A3E	𤨾 (<CJK Ideograph Extension B>)";
" 3494	0x24A94	𤪔 (<CJK Ideograph Extension B>)";
" 3495	0x217D9	𡟙 (<CJK Ideograph Extension B>)";
" 3496	0x24A66	𤩦 (<CJK Ideograph Extension B>)";
" 3497	0x203A7	𠎧 (<CJK Ideograph Extension B>)";
" 3498	0x21424	𡐤 (<CJK Ideograph Extension B>)";
" 3499	0x249E5	𤧥 (<CJK Ideograph Extension B>)";
" 3500	0x7448	瑈 (<CJK Ideograph>)";
" 3501	0x24916	𤤖 (<CJK Ideograph Extension B>)";
" 3502	0x70A5	炥 (<CJK Ideograph>)";
" 3503	0x24976	𤥶 (<CJK Ideograph Extension B>)";
" 3504	0x9284	銄 (<CJK Ideograph>)";
" 3505	0x73E6	珦 (<CJK Ideograph>)";
" 3506	0x935F	鍟 (<CJK Ideograph>)";
" 3507	0x204FE	𠓾 (<CJK Ideograph Extension B>)";
" 3508	0x9331	錱 (<CJK Ideograph>)";
" 3509	0x28ACE	𨫎 (<CJK Ideograph Extension B>)";
" 3510	0x28A16	𨨖 (<CJK Ideograph Extension B>)";
" 3511	0x9386	鎆 (<CJK Ideograph>)";
" 3512	0x28BE7	𨯧 (<CJK Ideograph Extension B>)";
" 3513	0x255D5	𥗕 (<CJK Ideograph Extension B>)";
" 3514	0x4935	䤵 (<CJK Ideograph Extension A>)";
" 3515	0x28A82	𨪂 (<CJK Ideograph Extension B>)";
" 3516	0x716B	煫 (<CJK Ideograph>)";
" 3517	0x24943	𤥃 (<CJK Ideograph Extension B>)";
" 3518	0x20CFF	𠳿 (<CJK Ideograph Extension B>)";
" 3519	0x56A4	嚤 (<CJK Ideograph>)";
" 3520	0x2061A	𠘚 (<CJK Ideograph Extension B>)";
" 3521	0x20BEB	𠯫 (<CJK Ideograph Extension B>)";
" 3522	0x20CB8	𠲸 (<CJK Ideograph Extension B>)";
" 3523	0x5502	唂 (<CJK Ideograph>)";
" 3524	0x79C4	秄 (<CJK Ideograph>)";
" 3525	0x217FA	𡟺 (<CJK Ideograph Extension B>)";
" 3526	0x7DFE	緾 (<CJK Ideograph>)";
" 3527	0x216C2	𡛂 (<CJK Ideograph Extension B>)";
" 3528	0x24A50	𤩐 (<CJK Ideograph Extension B>)";
" 3529	0x21852	𡡒 (<CJK Ideograph Extension B>)";
" 3530	0x452E	䔮 (<CJK Ideograph Extension A>)";
" 3531	0x9401	鐁 (<CJK Ideograph>)";
" 3532	0x370A	㜊 (<CJK Ideograph Extension A>)";
" 3533	0x28AC0	𨫀 (<CJK Ideograph Extension B>)";
" 3534	0x249AD	𤦭 (<CJK Ideograph Extension B>)";
" 3535	0x59B0	妰 (<CJK Ideograph>)";
" 3536	0x218BF	𡢿 (<CJK Ideograph Extension B>)";
" 3537	0x21883	𡢃 (<CJK Ideograph Extension B>)";
" 3538	0x27484	𧒄 (<CJK Ideograph Extension B>)";
" 3539	0x5AA1	媡 (<CJK Ideograph>)";
" 3540	0x36E2	㛢 (<CJK Ideograph Extension A>)";
" 3541	0x23D5B	𣵛 (<CJK Ideograph Extension B>)";
" 3542	0x36B0	㚰 (<CJK Ideograph Extension A>)";
" 3543	0x925F	鉟 (<CJK Ideograph>)";
" 3544	0x5A79	婹 (<CJK Ideograph>)";
" 3545	0x28A81	𨪁 (<CJK Ideograph Extension B>)";
" 3546	0x21862	𡡢 (<CJK Ideograph Extension B>)";
" 3547	0x9374	鍴 (<CJK Ideograph>)";
" 3548	0x3CCD	㳍 (<CJK Ideograph Extension A>)";
" 3549	0x20AB4	𠪴 (<CJK Ideograph Extension B>)";
" 3550	0x4A96	䪖 (<CJK Ideograph Extension A>)";
" 3551	0x398A	㦊 (<CJK Ideograph Extension A>)";
" 3552	0x50F4	僴 (<CJK Ideograph>)";
" 3553	0x3D69	㵩 (<CJK Ideograph Extension A>)";
" 3554	0x3D4C	㵌 (<CJK Ideograph Extension A>)";
" 3555	0x2139C	𡎜 (<CJK Ideograph Extension B>)";
" 3556	0x7175	煵 (<CJK Ideograph>)";
" 3557	0x42FB	䋻 (<CJK Ideograph Extension A>)";
" 3558	0x28218	𨈘 (<CJK Ideograph Extension B>)";
" 3559	0x6E0F	渏 (<CJK Ideograph>)";
" 3560	0x290E4	𩃤 (<CJK Ideograph Extension B>)";
" 3561	0x44EB	䓫 (<CJK Ideograph Extension A>)";
" 3562	0x6D57	浗 (<CJK Ideograph>)";
" 3563	0x27E4F	𧹏 (<CJK Ideograph Extension B>)";
" 3564	0x7067	灧 (<CJK Ideograph>)";
" 3565	0x6CAF	沯 (<CJK Ideograph>)";
" 3566	0x3CD6	㳖 (<CJK Ideograph Extension A>)";
" 3567	0x23FED	𣿭 (<CJK Ideograph Extension B>)";
" 3568	0x23E2D	𣸭 (<CJK Ideograph Extension B>)";
" 3569	0x6E02	渂 (<CJK Ideograph>)";
" 3570	0x6F0C	漌 (<CJK Ideograph>)";
" 3571	0x3D6F	㵯 (<CJK Ideograph Extension A>)";
" 3572	0x203F5	𠏵 (<CJK Ideograph Extension B>)";
" 3573	0x7551	畑 (<CJK Ideograph>)";
" 3574	0x36BC	㚼 (<CJK Ideograph Extension A>)";
" 3575	0x34C8	㓈 (<CJK Ideograph Extension A>)";
" 3576	0x4680	䚀 (<CJK Ideograph Extension A>)";
" 3577	0x3EDA	㻚 (<CJK Ideograph Extension A>)";
" 3578	0x4871	䡱 (<CJK Ideograph Extension A>)";
" 3579	0x59C4	姄 (<CJK Ideograph>)";
" 3580	0x926E	鉮 (<CJK Ideograph>)";
" 3581	0x493E	䤾 (<CJK Ideograph Extension A>)";
" 3582	0x8F41	轁 (<CJK Ideograph>)";
" 3583	0x28C1C	𨰜 (<CJK Ideograph Extension B>)";
" 3584	0x26BC0	𦯀 (<CJK Ideograph Extension B>)";
" 3585	0x5812	堒 (<CJK Ideograph>)";
" 3586	0x57C8	埈 (<CJK Ideograph>)";
" 3587	0x36D6	㛖 (<CJK Ideograph Extension A>)";
" 3588	0x21452	𡑒 (<CJK Ideograph Extension B>)";
" 3589	0x70FE	烾 (<CJK Ideograph>)";
" 3590	0x24362	𤍢 (<CJK Ideograph Extension B>)";
" 3591	0x24A71	𤩱 (<CJK Ideograph Extension B>)";
" 3592	0x22FE3	𢿣 (<CJK Ideograph Extension B>)";
" 3593	0x212B0	𡊰 (<CJK Ideograph Extension B>)";
" 3594	0x223BD	𢎽 (<CJK Ideograph Extension B>)";
" 3595	0x68B9	梹 (<CJK Ideograph>)";
" 3596	0x6967	楧 (<CJK Ideograph>)";
" 3597	0x21398	𡎘 (<CJK Ideograph Extension B>)";
" 3598	0x234E5	𣓥 (<CJK Ideograph Extension B>)";
" 3599	0x27BF4	𧯴 (<CJK Ideograph Extension B>)";
" 3600	0x236DF	𣛟 (<CJK Ideograph Extension B>)";
" 3601	0x28A83	𨪃 (<CJK Ideograph Extension B>)";
" 3602	0x237D6	𣟖 (<CJK Ideograph Extension B>)";
" 3603	0x233FA	𣏺 (<CJK Ideograph Extension B>)";
" 3604	0x24C9F	𤲟 (<CJK Ideograph Extension B>)";
" 3605	0x6A1A	樚 (<CJK Ideograph>)";
" 3606	0x236AD	𣚭 (<CJK Ideograph Extension B>)";
" 3607	0x26CB7	𦲷 (<CJK Ideograph Extension B>)";
" 3608	0x843E	萾 (<CJK Ideograph>)";
" 3609	0x44DF	䓟 (<CJK Ideograph Extension A>)";
" 3610	0x44CE	䓎 (<CJK Ideograph Extension A>)";
" 3611	0x26D26	𦴦 (<CJK Ideograph Extension B>)";
" 3612	0x26D51	𦵑 (<CJK Ideograph Extension B>)";
" 3613	0x26C82	𦲂 (<CJK Ideograph Extension B>)";
" 3614	0x26FDE	𦿞 (<CJK Ideograph Extension B>)";
" 3615	0x6F17	漗 (<CJK Ideograph>)";
" 3616	0x27109	𧄉 (<CJK Ideograph Extension B>)";
" 3617	0x833D	茽 (<CJK Ideograph>)";
" 3618	0x2173A	𡜺 (<CJK Ideograph Extension B>)";
" 3619	0x83ED	菭 (<CJK Ideograph>)";
" 3620	0x26C80	𦲀 (<CJK Ideograph Extension B>)";
" 3621	0x27053	𧁓 (<CJK Ideograph Extension B>)";
" 3622	0x217DB	𡟛 (<CJK Ideograph Extension B>)";
" 3623	0x5989	妉 (<CJK Ideograph>)";
" 3624	0x5A82	媂 (<CJK Ideograph>)";
" 3625	0x217B3	𡞳 (<CJK Ideograph Extension B>)";
" 3626	0x5A61	婡 (<CJK Ideograph>)";
" 3627	0x5A71	婱 (<CJK Ideograph>)";
" 3628	0x21905	𡤅 (<CJK Ideograph Extension B>)";
" 3629	0x241FC	𤇼 (<CJK Ideograph Extension B>)";
" 3630	0x372D	㜭 (<CJK Ideograph Extension A>)";
" 3631	0x59EF	姯 (<CJK Ideograph>)";
" 3632	0x2173C	𡜼 (<CJK Ideograph Extension B>)";
" 3633	0x36C7	㛇 (<CJK Ideograph Extension A>)";
" 3634	0x718E	熎 (<CJK Ideograph>)";
" 3635	0x9390	鎐 (<CJK Ideograph>)";
" 3636	0x669A	暚 (<CJK Ideograph>)";
" 3637	0x242A5	𤊥 (<CJK Ideograph Extension B>)";
" 3638	0x5A6E	婮 (<CJK Ideograph>)";
" 3639	0x5A2B	娫 (<CJK Ideograph>)";
" 3640	0x24293	𤊓 (<CJK Ideograph Extension B>)";
" 3641	0x6A2B	樫 (<CJK Ideograph>)";
" 3642	0x23EF9	𣻹 (<CJK Ideograph Extension B>)";
" 3643	0x27736	𧜶 (<CJK Ideograph Extension B>)";
" 3644	0x2445B	𤑛 (<CJK Ideograph Extension B>)";
" 3645	0x242CA	𤋊 (<CJK Ideograph Extension B>)";
" 3646	0x711D	焝 (<CJK Ideograph>)";
" 3647	0x24259	𤉙 (<CJK Ideograph Extension B>)";
" 3648	0x289E1	𨧡 (<CJK Ideograph Extension B>)";
" 3649	0x4FB0	侰 (<CJK Ideograph>)";
" 3650	0x26D28	𦴨 (<CJK Ideograph Extension B>)"
].
(* /repo/encoding_tables/whatwg/index-big5.txt:2561-2816 *)
Definition index_big5_txt_10 : list line := [
" 3651	0x5CC2	峂 (<CJK Ideograph>)";
" 3652	0x244CE	𤓎 (<CJK Ideograph Extension B>)";
" 3653	0x27E4D	𧹍 (<CJK Ideograph Extension B>)";
" 3654	0x243BD	𤎽 (<CJK Ideograph Extension B>)";
" 3655	0x6A0C	樌 (<CJK Ideograph>)";
" 3656	0x24256	𤉖 (<CJK Ideograph Extension B>)";
" 3657	0x21304	𡌄 (<CJK Ideograph Extension B>)";
" 3658	0x70A6	炦 (<CJK Ideograph>)";
" 3659	0x7133	焳 (<CJK Ideograph>)";
" 3660	0x243E9	𤏩 (<CJK Ideograph Extension B>)";
" 3661	0x3DA5	㶥 (<CJK Ideograph Extension A>)";
" 3662	0x6CDF	泟 (<CJK Ideograph>)";
" 3663	0x2F825	勇 (CJK COMPATIBILITY IDEOGRAPH-2F825)";
" 3664	0x24A4F	𤩏 (<CJK Ideograph Extension B>)";
" 3665	0x7E65	繥 (<CJK Ideograph>)";
" 3666	0x59EB	姫 (<CJK Ideograph>)";
" 3667	0x5D2F	崯 (<CJK Ideograph>)";
" 3668	0x3DF3	㷳 (<CJK Ideograph Extension A>)";
" 3669	0x5F5C	彜 (<CJK Ideograph>)";
" 3670	0x24A5D	𤩝 (<CJK Ideograph Extension B>)";
" 3671	0x217DF	𡟟 (<CJK Ideograph Extension B>)";
" 3672	0x7DA4	綤 (<CJK Ideograph>)";
" 3673	0x8426	萦 (<CJK Ideograph>)";
" 3674	0x5485	咅 (<CJK Ideograph>)";
" 3675	0x23AFA	𣫺 (<CJK Ideograph Extension B>)";
" 3676	0x23300	𣌀 (<CJK Ideograph Extension B>)";
" 3677	0x20214	𠈔 (<CJK Ideograph Extension B>)";
" 3678	0x577E	坾 (<CJK Ideograph>)";
" 3679	0x208D5	𠣕 (<CJK Ideograph Extension B>)";
" 3680	0x20619	𠘙 (<CJK Ideograph Extension B>)";
" 3681	0x3FE5	㿥 (<CJK Ideograph Extension A>)";
" 3682	0x21F9E	𡾞 (<CJK Ideograph Extension B>)";
" 3683	0x2A2B6	𪊶 (<CJK Ideograph Extension B>)";
" 3684	0x7003	瀃 (<CJK Ideograph>)";
" 3685	0x2915B	𩅛 (<CJK Ideograph Extension B>)";
" 3686	0x5D70	嵰 (<CJK Ideograph>)";
" 3687	0x738F	玏 (<CJK Ideograph>)";
" 3688	0x7CD3	糓 (<CJK Ideograph>)";
" 3689	0x28A59	𨩙 (<CJK Ideograph Extension B>)";
" 3690	0x29420	𩐠 (<CJK Ideograph Extension B>)";
" 3691	0x4FC8	俈 (<CJK Ideograph>)";
" 3692	0x7FE7	翧 (<CJK Ideograph>)";
" 3693	0x72CD	狍 (<CJK Ideograph>)";
" 3694	0x7310	猐 (<CJK Ideograph>)";
" 3695	0x27AF4	𧫴 (<CJK Ideograph Extension B>)";
" 3696	0x7338	猸 (<CJK Ideograph>)";
" 3697	0x7339	猹 (<CJK Ideograph>)";
" 3698	0x256F6	𥛶 (<CJK Ideograph Extension B>)";
" 3699	0x7341	獁 (<CJK Ideograph>)";
" 3700	0x7348	獈 (<CJK Ideograph>)";
" 3701	0x3EA9	㺩 (<CJK Ideograph Extension A>)";
" 3702	0x27B18	𧬘 (<CJK Ideograph Extension B>)";
" 3703	0x906C	遬 (<CJK Ideograph>)";
" 3704	0x71F5	燵 (<CJK Ideograph>)";
" 3705	0x248F2	𤣲 (<CJK Ideograph Extension B>)";
" 3706	0x73E1	珡 (<CJK Ideograph>)";
" 3707	0x81F6	臶 (<CJK Ideograph>)";
" 3708	0x3ECA	㻊 (<CJK Ideograph Extension A>)";
" 3709	0x770C	県 (<CJK Ideograph>)";
" 3710	0x3ED1	㻑 (<CJK Ideograph Extension A>)";
" 3711	0x6CA2	沢 (<CJK Ideograph>)";
" 3712	0x56FD	国 (<CJK Ideograph>)";
" 3713	0x7419	琙 (<CJK Ideograph>)";
" 3714	0x741E	琞 (<CJK Ideograph>)";
" 3715	0x741F	琟 (<CJK Ideograph>)";
" 3716	0x3EE2	㻢 (<CJK Ideograph Extension A>)";
" 3717	0x3EF0	㻰 (<CJK Ideograph Extension A>)";
" 3718	0x3EF4	㻴 (<CJK Ideograph Extension A>)";
" 3719	0x3EFA	㻺 (<CJK Ideograph Extension A>)";
" 3720	0x74D3	瓓 (<CJK Ideograph>)";
" 3721	0x3F0E	㼎 (<CJK Ideograph Extension A>)";
" 3722	0x3F53	㽓 (<CJK Ideograph Extension A>)";
" 3723	0x7542	畂 (<CJK Ideograph>)";
" 3724	0x756D	畭 (<CJK Ideograph>)";
" 3725	0x7572	畲 (<CJK Ideograph>)";
" 3726	0x758D	疍 (<CJK Ideograph>)";
" 3727	0x3F7C	㽼 (<CJK Ideograph Extension A>)";
" 3728	0x75C8	痈 (<CJK Ideograph>)";
" 3729	0x75DC	痜 (<CJK Ideograph>)";
" 3730	0x3FC0	㿀 (<CJK Ideograph Extension A>)";
" 3731	0x764D	癍 (<CJK Ideograph>)";
" 3732	0x3FD7	㿗 (<CJK Ideograph Extension A>)";
" 3733	0x7674	癴 (<CJK Ideograph>)";
" 3734	0x3FDC	㿜 (<CJK Ideograph Extension A>)";
" 3735	0x767A	発 (<CJK Ideograph>)";
" 3736	0x24F5C	𤽜 (<CJK Ideograph Extension B>)";
" 3737	0x7188	熈 (<CJK Ideograph>)";
" 3738	0x5623	嘣 (<CJK Ideograph>)";
" 3739	0x8980	覀 (<CJK Ideograph>)";
" 3740	0x5869	塩 (<CJK Ideograph>)";
" 3741	0x401D	䀝 (<CJK Ideograph Extension A>)";
" 3742	0x7743	睃 (<CJK Ideograph>)";
" 3743	0x4039	䀹 (<CJK Ideograph Extension A>)";
" 3744	0x6761	条 (<CJK Ideograph>)";
" 3745	0x4045	䁅 (<CJK Ideograph Extension A>)";
" 3746	0x35DB	㗛 (<CJK Ideograph Extension A>)";
" 3747	0x7798	瞘 (<CJK Ideograph>)";
" 3748	0x406A	䁪 (<CJK Ideograph Extension A>)";
" 3749	0x406F	䁯 (<CJK Ideograph Extension A>)";
" 3750	0x5C5E	属 (<CJK Ideograph>)";
" 3751	0x77BE	瞾 (<CJK Ideograph>)";
" 3752	0x77CB	矋 (<CJK Ideograph>)";
" 3753	0x58F2	売 (<CJK Ideograph>)";
" 3754	0x7818	砘 (<CJK Ideograph>)";
" 3755	0x70B9	点 (<CJK Ideograph>)";
" 3756	0x781C	砜 (<CJK Ideograph>)";
" 3757	0x40A8	䂨 (<CJK Ideograph Extension A>)";
" 3758	0x7839	砹 (<CJK Ideograph>)";
" 3759	0x7847	硇 (<CJK Ideograph>)";
" 3760	0x7851	硑 (<CJK Ideograph>)";
" 3761	0x7866	硦 (<CJK Ideograph>)";
" 3762	0x8448	葈 (<CJK Ideograph>)";
" 3763	0x25535	𥔵 (<CJK Ideograph Extension B>)";
" 3764	0x7933	礳 (<CJK Ideograph>)";
" 3765	0x6803	栃 (<CJK Ideograph>)";
" 3766	0x7932	礲 (<CJK Ideograph>)";
" 3767	0x4103	䄃 (<CJK Ideograph Extension A>)";
" 3768	0x4109	䄉 (<CJK Ideograph Extension A>)";
" 3769	0x7991	禑 (<CJK Ideograph>)";
" 3770	0x7999	禙 (<CJK Ideograph>)";
" 3771	0x8FBB	辻 (<CJK Ideograph>)";
" 3772	0x7A06	稆 (<CJK Ideograph>)";
" 3773	0x8FBC	込 (<CJK Ideograph>)";
" 3774	0x4167	䅧 (<CJK Ideograph Extension A>)";
" 3775	0x7A91	窑 (<CJK Ideograph>)";
" 3776	0x41B2	䆲 (<CJK Ideograph Extension A>)";
" 3777	0x7ABC	窼 (<CJK Ideograph>)";
" 3778	0x8279	艹 (<CJK Ideograph>)";
" 3779	0x41C4	䇄 (<CJK Ideograph Extension A>)";
" 3780	0x7ACF	竏 (<CJK Ideograph>)";
" 3781	0x7ADB	竛 (<CJK Ideograph>)";
" 3782	0x41CF	䇏 (<CJK Ideograph Extension A>)";
" 3783	0x4E21	両 (<CJK Ideograph>)";
" 3784	0x7B62	筢 (<CJK Ideograph>)";
" 3785	0x7B6C	筬 (<CJK Ideograph>)";
" 3786	0x7B7B	筻 (<CJK Ideograph>)";
" 3787	0x7C12	簒 (<CJK Ideograph>)";
" 3788	0x7C1B	簛 (<CJK Ideograph>)";
" 3789	0x4260	䉠 (<CJK Ideograph Extension A>)";
" 3790	0x427A	䉺 (<CJK Ideograph Extension A>)";
" 3791	0x7C7B	类 (<CJK Ideograph>)";
" 3792	0x7C9C	粜 (<CJK Ideograph>)";
" 3793	0x428C	䊌 (<CJK Ideograph Extension A>)";
" 3794	0x7CB8	粸 (<CJK Ideograph>)";
" 3795	0x4294	䊔 (<CJK Ideograph Extension A>)";
" 3796	0x7CED	糭 (<CJK Ideograph>)";
" 3797	0x8F93	输 (<CJK Ideograph>)";
" 3798	0x70C0	烀 (<CJK Ideograph>)";
" 3799	0x20CCF	𠳏 (<CJK Ideograph Extension B>)";
" 3800	0x7DCF	総 (<CJK Ideograph>)";
" 3801	0x7DD4	緔 (<CJK Ideograph>)";
" 3802	0x7DD0	緐 (<CJK Ideograph>)";
" 3803	0x7DFD	緽 (<CJK Ideograph>)";
" 3804	0x7FAE	羮 (<CJK Ideograph>)";
" 3805	0x7FB4	羴 (<CJK Ideograph>)";
" 3806	0x729F	犟 (<CJK Ideograph>)";
" 3807	0x4397	䎗 (<CJK Ideograph Extension A>)";
" 3808	0x8020	耠 (<CJK Ideograph>)";
" 3809	0x8025	耥 (<CJK Ideograph>)";
" 3810	0x7B39	笹 (<CJK Ideograph>)";
" 3811	0x802E	耮 (<CJK Ideograph>)";
" 3812	0x8031	耱 (<CJK Ideograph>)";
" 3813	0x8054	联 (<CJK Ideograph>)";
" 3814	0x3DCC	㷌 (<CJK Ideograph Extension A>)";
" 3815	0x57B4	垴 (<CJK Ideograph>)";
" 3816	0x70A0	炠 (<CJK Ideograph>)";
" 3817	0x80B7	肷 (<CJK Ideograph>)";
" 3818	0x80E9	胩 (<CJK Ideograph>)";
" 3819	0x43ED	䏭 (<CJK Ideograph Extension A>)";
" 3820	0x810C	脌 (<CJK Ideograph>)";
" 3821	0x732A	猪 (<CJK Ideograph>)";
" 3822	0x810E	脎 (<CJK Ideograph>)";
" 3823	0x8112	脒 (<CJK Ideograph>)";
" 3824	0x7560	畠 (<CJK Ideograph>)";
" 3825	0x8114	脔 (<CJK Ideograph>)";
" 3826	0x4401	䐁 (<CJK Ideograph Extension A>)";
" 3827	0x3B39	㬹 (<CJK Ideograph Extension A>)";
" 3828	0x8156	腖 (<CJK Ideograph>)";
" 3829	0x8159	腙 (<CJK Ideograph>)";
" 3830	0x815A	腚 (<CJK Ideograph>)";
" 3831	0x4413	䐓 (<CJK Ideograph Extension A>)";
" 3832	0x583A	堺 (<CJK Ideograph>)";
" 3833	0x817C	腼 (<CJK Ideograph>)";
" 3834	0x8184	膄 (<CJK Ideograph>)";
" 3835	0x4425	䐥 (<CJK Ideograph Extension A>)";
" 3836	0x8193	膓 (<CJK Ideograph>)";
" 3837	0x442D	䐭 (<CJK Ideograph Extension A>)";
" 3838	0x81A5	膥 (<CJK Ideograph>)";
" 3839	0x57EF	埯 (<CJK Ideograph>)";
" 3840	0x81C1	臁 (<CJK Ideograph>)";
" 3841	0x81E4	臤 (<CJK Ideograph>)";
" 3842	0x8254	艔 (<CJK Ideograph>)";
" 3843	0x448F	䒏 (<CJK Ideograph Extension A>)";
" 3844	0x82A6	芦 (<CJK Ideograph>)";
" 3845	0x8276	艶 (<CJK Ideograph>)";
" 3846	0x82CA	苊 (<CJK Ideograph>)";
" 3847	0x82D8	苘 (<CJK Ideograph>)";
" 3848	0x82FF	苿 (<CJK Ideograph>)";
" 3849	0x44B0	䒰 (<CJK Ideograph Extension A>)";
" 3850	0x8357	荗 (<CJK Ideograph>)";
" 3851	0x9669	险 (<CJK Ideograph>)";
" 3852	0x698A	榊 (<CJK Ideograph>)";
" 3853	0x8405	萅 (<CJK Ideograph>)";
" 3854	0x70F5	烵 (<CJK Ideograph>)";
" 3855	0x8464	葤 (<CJK Ideograph>)";
" 3856	0x60E3	惣 (<CJK Ideograph>)";
" 3857	0x8488	蒈 (<CJK Ideograph>)";
" 3858	0x4504	䔄 (<CJK Ideograph Extension A>)";
" 3859	0x84BE	蒾 (<CJK Ideograph>)";
" 3860	0x84E1	蓡 (<CJK Ideograph>)";
" 3861	0x84F8	蓸 (<CJK Ideograph>)";
" 3862	0x8510	蔐 (<CJK Ideograph>)";
" 3863	0x8538	蔸 (<CJK Ideograph>)";
" 3864	0x8552	蕒 (<CJK Ideograph>)";
" 3865	0x453B	䔻 (<CJK Ideograph Extension A>)";
" 3866	0x856F	蕯 (<CJK Ideograph>)";
" 3867	0x8570	蕰 (<CJK Ideograph>)";
" 3868	0x85E0	藠 (<CJK Ideograph>)";
" 3869	0x4577	䕷 (<CJK Ideograph Extension A>)";
" 3870	0x8672	虲 (<CJK Ideograph>)";
" 3871	0x8692	蚒 (<CJK Ideograph>)";
" 3872	0x86B2	蚲 (<CJK Ideograph>)";
" 3873	0x86EF	蛯 (<CJK Ideograph>)";
" 3874	0x9645	际 (<CJK Ideograph>)";
" 3875	0x878B	螋 (<CJK Ideograph>)";
" 3876	0x4606	䘆 (<CJK Ideograph Extension A>)";
" 3877	0x4617	䘗 (<CJK Ideograph Extension A>)";
" 3878	0x88AE	袮 (<CJK Ideograph>)";
" 3879	0x88FF	裿 (<CJK Ideograph>)";
" 3880	0x8924	褤 (<CJK Ideograph>)";
" 3881	0x8947	襇 (<CJK Ideograph>)";
" 3882	0x8991	覑 (<CJK Ideograph>)";
" 3883	0x27967	𧥧 (<CJK Ideograph Extension B>)";
" 3884	0x8A29	訩 (<CJK Ideograph>)";
" 3885	0x8A38	訸 (<CJK Ideograph>)";
" 3886	0x8A94	誔 (<CJK Ideograph>)";
" 3887	0x8AB4	誴 (<CJK Ideograph>)";
" 3888	0x8C51	豑 (<CJK Ideograph>)";
" 3889	0x8CD4	賔 (<CJK Ideograph>)";
" 3890	0x8CF2	賲 (<CJK Ideograph>)";
" 3891	0x8D1C	贜 (<CJK Ideograph>)";
" 3892	0x4798	䞘 (<CJK Ideograph Extension A>)";
" 3893	0x585F	塟 (<CJK Ideograph>)";
" 3894	0x8DC3	跃 (<CJK Ideograph>)";
" 3895	0x47ED	䟭 (<CJK Ideograph Extension A>)";
" 3896	0x4EEE	仮 (<CJK Ideograph>)";
" 3897	0x8E3A	踺 (<CJK Ideograph>)";
" 3898	0x55D8	嗘 (<CJK Ideograph>)";
" 3899	0x5754	坔 (<CJK Ideograph>)";
" 3900	0x8E71	蹱 (<CJK Ideograph>)";
" 3901	0x55F5	嗵 (<CJK Ideograph>)";
" 3902	0x8EB0	躰 (<CJK Ideograph>)";
" 3903	0x4837	䠷 (<CJK Ideograph Extension A>)";
" 3904	0x8ECE	軎 (<CJK Ideograph>)";
" 3905	0x8EE2	転 (<CJK Ideograph>)";
" 3906	0x8EE4	軤 (<CJK Ideograph>)"
].
(* /repo/encoding_tables/whatwg/index-big5.txt:2817-3072 *)
Definition index_big5_txt_11 : list line := [
" 3907	0x8EED	軭 (<CJK Ideograph>)";
" 3908	0x8EF2	軲 (<CJK Ideograph>)";
" 3909	0x8FB7	辷 (<CJK Ideograph>)";
" 3910	0x8FC1	迁 (<CJK Ideograph>)";
" 3911	0x8FCA	迊 (<CJK Ideograph>)";
" 3912	0x8FCC	迌 (<CJK Ideograph>)";
" 3913	0x9033	逳 (<CJK Ideograph>)";
" 3914	0x99C4	駄 (<CJK Ideograph>)";
" 3915	0x48AD	䢭 (<CJK Ideograph Extension A>)";
" 3916	0x98E0	飠 (<CJK Ideograph>)";
" 3917	0x9213	鈓 (<CJK Ideograph>)";
" 3918	0x491E	䤞 (<CJK Ideograph Extension A>)";
" 3919	0x9228	鈨 (<CJK Ideograph>)";
" 3920	0x9258	鉘 (<CJK Ideograph>)";
" 3921	0x926B	鉫 (<CJK Ideograph>)";
" 3922	0x92B1	銱 (<CJK Ideograph>)";
" 3923	0x92AE	銮 (<CJK Ideograph>)";
" 3924	0x92BF	銿 (<CJK Ideograph>)";
" 3925	0x92E3	鋣 (<CJK Ideograph>)";
" 3926	0x92EB	鋫 (<CJK Ideograph>)";
" 3927	0x92F3	鋳 (<CJK Ideograph>)";
" 3928	0x92F4	鋴 (<CJK Ideograph>)";
" 3929	0x92FD	鋽 (<CJK Ideograph>)";
" 3930	0x9343	鍃 (<CJK Ideograph>)";
" 3931	0x9384	鎄 (<CJK Ideograph>)";
" 3932	0x93AD	鎭 (<CJK Ideograph>)";
" 3933	0x4945	䥅 (<CJK Ideograph Extension A>)";
" 3934	0x4951	䥑 (<CJK Ideograph Extension A>)";
" 3935	0x9EBF	麿 (<CJK Ideograph>)";
" 3936	0x9417	鐗 (<CJK Ideograph>)";
" 3937	0x5301	匁 (<CJK Ideograph>)";
" 3938	0x941D	鐝 (<CJK Ideograph>)";
" 3939	0x942D	鐭 (<CJK Ideograph>)";
" 3940	0x943E	鐾 (<CJK Ideograph>)";
" 3941	0x496A	䥪 (<CJK Ideograph Extension A>)";
" 3942	0x9454	鑔 (<CJK Ideograph>)";
" 3943	0x9479	鑹 (<CJK Ideograph>)";
" 3944	0x952D	锭 (<CJK Ideograph>)";
" 3945	0x95A2	関 (<CJK Ideograph>)";
" 3946	0x49A7	䦧 (<CJK Ideograph Extension A>)";
" 3947	0x95F4	间 (<CJK Ideograph>)";
" 3948	0x9633	阳 (<CJK Ideograph>)";
" 3949	0x49E5	䧥 (<CJK Ideograph Extension A>)";
" 3950	0x67A0	枠 (<CJK Ideograph>)";
" 3951	0x4A24	䨤 (<CJK Ideograph Extension A>)";
" 3952	0x9740	靀 (<CJK Ideograph>)";
" 3953	0x4A35	䨵 (<CJK Ideograph Extension A>)";
" 3954	0x97B2	鞲 (<CJK Ideograph>)";
" 3955	0x97C2	韂 (<CJK Ideograph>)";
" 3956	0x5654	噔 (<CJK Ideograph>)";
" 3957	0x4AE4	䫤 (<CJK Ideograph Extension A>)";
" 3958	0x60E8	惨 (<CJK Ideograph>)";
" 3959	0x98B9	颹 (<CJK Ideograph>)";
" 3960	0x4B19	䬙 (<CJK Ideograph Extension A>)";
" 3961	0x98F1	飱 (<CJK Ideograph>)";
" 3962	0x5844	塄 (<CJK Ideograph>)";
" 3963	0x990E	餎 (<CJK Ideograph>)";
" 3964	0x9919	餙 (<CJK Ideograph>)";
" 3965	0x51B4	冴 (<CJK Ideograph>)";
" 3966	0x991C	餜 (<CJK Ideograph>)";
" 3967	0x9937	餷 (<CJK Ideograph>)";
" 3968	0x9942	饂 (<CJK Ideograph>)";
" 3969	0x995D	饝 (<CJK Ideograph>)";
" 3970	0x9962	饢 (<CJK Ideograph>)";
" 3971	0x4B70	䭰 (<CJK Ideograph Extension A>)";
" 3972	0x99C5	駅 (<CJK Ideograph>)";
" 3973	0x4B9D	䮝 (<CJK Ideograph Extension A>)";
" 3974	0x9A3C	騼 (<CJK Ideograph>)";
" 3975	0x9B0F	鬏 (<CJK Ideograph>)";
" 3976	0x7A83	窃 (<CJK Ideograph>)";
" 3977	0x9B69	魩 (<CJK Ideograph>)";
" 3978	0x9B81	鮁 (<CJK Ideograph>)";
" 3979	0x9BDD	鯝 (<CJK Ideograph>)";
" 3980	0x9BF1	鯱 (<CJK Ideograph>)";
" 3981	0x9BF4	鯴 (<CJK Ideograph>)";
" 3982	0x4C6D	䱭 (<CJK Ideograph Extension A>)";
" 3983	0x9C20	鰠 (<CJK Ideograph>)";
" 3984	0x376F	㝯 (<CJK Ideograph Extension A>)";
" 3985	0x21BC2	𡯂 (<CJK Ideograph Extension B>)";
" 3986	0x9D49	鵉 (<CJK Ideograph>)";
" 3987	0x9C3A	鰺 (<CJK Ideograph>)";
" 3988	0x9EFE	黾 (<CJK Ideograph>)";
" 3989	0x5650	噐 (<CJK Ideograph>)";
" 3990	0x9D93	鶓 (<CJK Ideograph>)";
" 3991	0x9DBD	鶽 (<CJK Ideograph>)";
" 3992	0x9DC0	鷀 (<CJK Ideograph>)";
" 3993	0x9DFC	鷼 (<CJK Ideograph>)";
" 3994	0x94F6	银 (<CJK Ideograph>)";
" 3995	0x8FB6	辶 (<CJK Ideograph>)";
" 3996	0x9E7B	鹻 (<CJK Ideograph>)";
" 3997	0x9EAC	麬 (<CJK Ideograph>)";
" 3998	0x9EB1	麱 (<CJK Ideograph>)";
" 3999	0x9EBD	麽 (<CJK Ideograph>)";
" 4000	0x9EC6	黆 (<CJK Ideograph>)";
" 4001	0x94DC	铜 (<CJK Ideograph>)";
" 4002	0x9EE2	黢 (<CJK Ideograph>)";
" 4003	0x9EF1	黱 (<CJK Ideograph>)";
" 4004	0x9EF8	黸 (<CJK Ideograph>)";
" 4005	0x7AC8	竈 (<CJK Ideograph>)";
" 4006	0x9F44	齄 (<CJK Ideograph>)";
" 4007	0x20094	𠂔 (<CJK Ideograph Extension B>)";
" 4008	0x202B7	𠊷 (<CJK Ideograph Extension B>)";
" 4009	0x203A0	𠎠 (<CJK Ideograph Extension B>)";
" 4010	0x691A	椚 (<CJK Ideograph>)";
" 4011	0x94C3	铃 (<CJK Ideograph>)";
" 4012	0x59AC	妬 (<CJK Ideograph>)";
" 4013	0x204D7	𠓗 (<CJK Ideograph Extension B>)";
" 4014	0x5840	塀 (<CJK Ideograph>)";
" 4015	0x94C1	铁 (<CJK Ideograph>)";
" 4016	0x37B9	㞹 (<CJK Ideograph Extension A>)";
" 4017	0x205D5	𠗕 (<CJK Ideograph Extension B>)";
" 4018	0x20615	𠘕 (<CJK Ideograph Extension B>)";
" 4019	0x20676	𠙶 (<CJK Ideograph Extension B>)";
" 4020	0x216BA	𡚺 (<CJK Ideograph Extension B>)";
" 4021	0x5757	块 (<CJK Ideograph>)";
" 4022	0x7173	煳 (<CJK Ideograph>)";
" 4023	0x20AC2	𠫂 (<CJK Ideograph Extension B>)";
" 4024	0x20ACD	𠫍 (<CJK Ideograph Extension B>)";
" 4025	0x20BBF	𠮿 (<CJK Ideograph Extension B>)";
" 4026	0x546A	呪 (<CJK Ideograph>)";
" 4027	0x2F83B	吆 (CJK COMPATIBILITY IDEOGRAPH-2F83B)";
" 4028	0x20BCB	𠯋 (<CJK Ideograph Extension B>)";
" 4029	0x549E	咞 (<CJK Ideograph>)";
" 4030	0x20BFB	𠯻 (<CJK Ideograph Extension B>)";
" 4031	0x20C3B	𠰻 (<CJK Ideograph Extension B>)";
" 4032	0x20C53	𠱓 (<CJK Ideograph Extension B>)";
" 4033	0x20C65	𠱥 (<CJK Ideograph Extension B>)";
" 4034	0x20C7C	𠱼 (<CJK Ideograph Extension B>)";
" 4035	0x60E7	惧 (<CJK Ideograph>)";
" 4036	0x20C8D	𠲍 (<CJK Ideograph Extension B>)";
" 4037	0x567A	噺 (<CJK Ideograph>)";
" 4038	0x20CB5	𠲵 (<CJK Ideograph Extension B>)";
" 4039	0x20CDD	𠳝 (<CJK Ideograph Extension B>)";
" 4040	0x20CED	𠳭 (<CJK Ideograph Extension B>)";
" 4041	0x20D6F	𠵯 (<CJK Ideograph Extension B>)";
" 4042	0x20DB2	𠶲 (<CJK Ideograph Extension B>)";
" 4043	0x20DC8	𠷈 (<CJK Ideograph Extension B>)";
" 4044	0x6955	楕 (<CJK Ideograph>)";
" 4045	0x9C2F	鰯 (<CJK Ideograph>)";
" 4046	0x87A5	螥 (<CJK Ideograph>)";
" 4047	0x20E04	𠸄 (<CJK Ideograph Extension B>)";
" 4048	0x20E0E	𠸎 (<CJK Ideograph Extension B>)";
" 4049	0x20ED7	𠻗 (<CJK Ideograph Extension B>)";
" 4050	0x20F90	𠾐 (<CJK Ideograph Extension B>)";
" 4051	0x20F2D	𠼭 (<CJK Ideograph Extension B>)";
" 4052	0x20E73	𠹳 (<CJK Ideograph Extension B>)";
" 4053	0x5C20	尠 (<CJK Ideograph>)";
" 4054	0x20FBC	𠾼 (<CJK Ideograph Extension B>)";
" 4055	0x5E0B	帋 (<CJK Ideograph>)";
" 4056	0x2105C	𡁜 (<CJK Ideograph Extension B>)";
" 4057	0x2104F	𡁏 (<CJK Ideograph Extension B>)";
" 4058	0x21076	𡁶 (<CJK Ideograph Extension B>)";
" 4059	0x671E	朞 (<CJK Ideograph>)";
" 4060	0x2107B	𡁻 (<CJK Ideograph Extension B>)";
" 4061	0x21088	𡂈 (<CJK Ideograph Extension B>)";
" 4062	0x21096	𡂖 (<CJK Ideograph Extension B>)";
" 4063	0x3647	㙇 (<CJK Ideograph Extension A>)";
" 4064	0x210BF	𡂿 (<CJK Ideograph Extension B>)";
" 4065	0x210D3	𡃓 (<CJK Ideograph Extension B>)";
" 4066	0x2112F	𡄯 (<CJK Ideograph Extension B>)";
" 4067	0x2113B	𡄻 (<CJK Ideograph Extension B>)";
" 4068	0x5364	卤 (<CJK Ideograph>)";
" 4069	0x84AD	蒭 (<CJK Ideograph>)";
" 4070	0x212E3	𡋣 (<CJK Ideograph Extension B>)";
" 4071	0x21375	𡍵 (<CJK Ideograph Extension B>)";
" 4072	0x21336	𡌶 (<CJK Ideograph Extension B>)";
" 4073	0x8B81	讁 (<CJK Ideograph>)";
" 4074	0x21577	𡕷 (<CJK Ideograph Extension B>)";
" 4075	0x21619	𡘙 (<CJK Ideograph Extension B>)";
" 4076	0x217C3	𡟃 (<CJK Ideograph Extension B>)";
" 4077	0x217C7	𡟇 (<CJK Ideograph Extension B>)";
" 4078	0x4E78	乸 (<CJK Ideograph>)";
" 4079	0x70BB	炻 (<CJK Ideograph>)";
" 4080	0x2182D	𡠭 (<CJK Ideograph Extension B>)";
" 4081	0x2196A	𡥪 (<CJK Ideograph Extension B>)";
" 4082	0x21A2D	𡨭 (<CJK Ideograph Extension B>)";
" 4083	0x21A45	𡩅 (<CJK Ideograph Extension B>)";
" 4084	0x21C2A	𡰪 (<CJK Ideograph Extension B>)";
" 4085	0x21C70	𡱰 (<CJK Ideograph Extension B>)";
" 4086	0x21CAC	𡲬 (<CJK Ideograph Extension B>)";
" 4087	0x21EC8	𡻈 (<CJK Ideograph Extension B>)";
" 4088	0x62C3	拃 (<CJK Ideograph>)";
" 4089	0x21ED5	𡻕 (<CJK Ideograph Extension B>)";
" 4090	0x21F15	𡼕 (<CJK Ideograph Extension B>)";
" 4091	0x7198	熘 (<CJK Ideograph>)";
" 4092	0x6855	桕 (<CJK Ideograph>)";
" 4093	0x22045	𢁅 (<CJK Ideograph Extension B>)";
" 4094	0x69E9	槩 (<CJK Ideograph>)";
" 4095	0x36C8	㛈 (<CJK Ideograph Extension A>)";
" 4096	0x2227C	𢉼 (<CJK Ideograph Extension B>)";
" 4097	0x223D7	𢏗 (<CJK Ideograph Extension B>)";
" 4098	0x223FA	𢏺 (<CJK Ideograph Extension B>)";
" 4099	0x2272A	𢜪 (<CJK Ideograph Extension B>)";
" 4100	0x22871	𢡱 (<CJK Ideograph Extension B>)";
" 4101	0x2294F	𢥏 (<CJK Ideograph Extension B>)";
" 4102	0x82FD	苽 (<CJK Ideograph>)";
" 4103	0x22967	𢥧 (<CJK Ideograph Extension B>)";
" 4104	0x22993	𢦓 (<CJK Ideograph Extension B>)";
" 4105	0x22AD5	𢫕 (<CJK Ideograph Extension B>)";
" 4106	0x89A5	覥 (<CJK Ideograph>)";
" 4107	0x22AE8	𢫨 (<CJK Ideograph Extension B>)";
" 4108	0x8FA0	辠 (<CJK Ideograph>)";
" 4109	0x22B0E	𢬎 (<CJK Ideograph Extension B>)";
" 4110	0x97B8	鞸 (<CJK Ideograph>)";
" 4111	0x22B3F	𢬿 (<CJK Ideograph Extension B>)";
" 4112	0x9847	顇 (<CJK Ideograph>)";
" 4113	0x9ABD	骽 (<CJK Ideograph>)";
" 4114	0x22C4C	𢱌 (<CJK Ideograph Extension B>)";
" 4116	0x22C88	𢲈 (<CJK Ideograph Extension B>)";
" 4117	0x22CB7	𢲷 (<CJK Ideograph Extension B>)";
" 4118	0x25BE8	𥯨 (<CJK Ideograph Extension B>)";
" 4119	0x22D08	𢴈 (<CJK Ideograph Extension B>)";
" 4120	0x22D12	𢴒 (<CJK Ideograph Extension B>)";
" 4121	0x22DB7	𢶷 (<CJK Ideograph Extension B>)";
" 4122	0x22D95	𢶕 (<CJK Ideograph Extension B>)";
" 4123	0x22E42	𢹂 (<CJK Ideograph Extension B>)";
" 4124	0x22F74	𢽴 (<CJK Ideograph Extension B>)";
" 4125	0x22FCC	𢿌 (<CJK Ideograph Extension B>)";
" 4126	0x23033	𣀳 (<CJK Ideograph Extension B>)";
" 4127	0x23066	𣁦 (<CJK Ideograph Extension B>)";
" 4128	0x2331F	𣌟 (<CJK Ideograph Extension B>)";
" 4129	0x233DE	𣏞 (<CJK Ideograph Extension B>)";
" 4130	0x5FB1	徱 (<CJK Ideograph>)";
" 4131	0x6648	晈 (<CJK Ideograph>)";
" 4132	0x66BF	暿 (<CJK Ideograph>)";
" 4133	0x27A79	𧩹 (<CJK Ideograph Extension B>)";
" 4134	0x23567	𣕧 (<CJK Ideograph Extension B>)";
" 4135	0x235F3	𣗳 (<CJK Ideograph Extension B>)";
" 4136	0x7201	爁 (<CJK Ideograph>)";
" 4137	0x249BA	𤦺 (<CJK Ideograph Extension B>)";
" 4138	0x77D7	矗 (<CJK Ideograph>)";
" 4139	0x2361A	𣘚 (<CJK Ideograph Extension B>)";
" 4140	0x23716	𣜖 (<CJK Ideograph Extension B>)";
" 4141	0x7E87	纇 (<CJK Ideograph>)";
" 4142	0x20346	𠍆 (<CJK Ideograph Extension B>)";
" 4143	0x58B5	墵 (<CJK Ideograph>)";
" 4144	0x670E	朎 (<CJK Ideograph>)";
" 4145	0x6918	椘 (<CJK Ideograph>)";
" 4146	0x23AA7	𣪧 (<CJK Ideograph Extension B>)";
" 4147	0x27657	𧙗 (<CJK Ideograph Extension B>)";
" 4148	0x25FE2	𥿢 (<CJK Ideograph Extension B>)";
" 4149	0x23E11	𣸑 (<CJK Ideograph Extension B>)";
" 4150	0x23EB9	𣺹 (<CJK Ideograph Extension B>)";
" 4151	0x275FE	𧗾 (<CJK Ideograph Extension B>)";
" 4152	0x2209A	𢂚 (<CJK Ideograph Extension B>)";
" 4153	0x48D0	䣐 (<CJK Ideograph Extension A>)";
" 4154	0x4AB8	䪸 (<CJK Ideograph Extension A>)";
" 4155	0x24119	𤄙 (<CJK Ideograph Extension B>)";
" 4156	0x28A9A	𨪚 (<CJK Ideograph Extension B>)";
" 4157	0x242EE	𤋮 (<CJK Ideograph Extension B>)";
" 4158	0x2430D	𤌍 (<CJK Ideograph Extension B>)";
" 4159	0x2403B	𤀻 (<CJK Ideograph Extension B>)";
" 4160	0x24334	𤌴 (<CJK Ideograph Extension B>)";
" 4161	0x24396	𤎖 (<CJK Ideograph Extension B>)";
" 4162	0x24A45	𤩅 (<CJK Ideograph Extension B>)";
" 4163	0x205CA	𠗊 (<CJK Ideograph Extension B>)"
].
(* /repo/encoding_tables/whatwg/index-big5.txt:3073-3328 *)
Definition index_big5_txt_12 : list line := [
" 4164	0x51D2	凒 (<CJK Ideograph>)";
" 4165	0x20611	𠘑 (<CJK Ideograph Extension B>)";
" 4166	0x599F	妟 (<CJK Ideograph>)";
" 4167	0x21EA8	𡺨 (<CJK Ideograph Extension B>)";
" 4168	0x3BBE	㮾 (<CJK Ideograph Extension A>)";
" 4169	0x23CFF	𣳿 (<CJK Ideograph Extension B>)";
" 4170	0x24404	𤐄 (<CJK Ideograph Extension B>)";
" 4171	0x244D6	𤓖 (<CJK Ideograph Extension B>)";
" 4172	0x5788	垈 (<CJK Ideograph>)";
" 4173	0x24674	𤙴 (<CJK Ideograph Extension B>)";
" 4174	0x399B	㦛 (<CJK Ideograph Extension A>)";
" 4175	0x2472F	𤜯 (<CJK Ideograph Extension B>)";
" 4176	0x285E8	𨗨 (<CJK Ideograph Extension B>)";
" 4177	0x299C9	𩧉 (<CJK Ideograph Extension B>)";
" 4178	0x3762	㝢 (<CJK Ideograph Extension A>)";
" 4179	0x221C3	𢇃 (<CJK Ideograph Extension B>)";
" 4180	0x8B5E	譞 (<CJK Ideograph>)";
" 4181	0x28B4E	𨭎 (<CJK Ideograph Extension B>)";
" 4182	0x99D6	駖 (<CJK Ideograph>)";
" 4183	0x24812	𤠒 (<CJK Ideograph Extension B>)";
" 4184	0x248FB	𤣻 (<CJK Ideograph Extension B>)";
" 4185	0x24A15	𤨕 (<CJK Ideograph Extension B>)";
" 4186	0x7209	爉 (<CJK Ideograph>)";
" 4187	0x24AC0	𤫀 (<CJK Ideograph Extension B>)";
" 4188	0x20C78	𠱸 (<CJK Ideograph Extension B>)";
" 4189	0x5965	奥 (<CJK Ideograph>)";
" 4190	0x24EA5	𤺥 (<CJK Ideograph Extension B>)";
" 4191	0x24F86	𤾆 (<CJK Ideograph Extension B>)";
" 4192	0x20779	𠝹 (<CJK Ideograph Extension B>)";
" 4193	0x8EDA	軚 (<CJK Ideograph>)";
" 4194	0x2502C	𥀬 (<CJK Ideograph Extension B>)";
" 4195	0x528F	劏 (<CJK Ideograph>)";
" 4196	0x573F	圿 (<CJK Ideograph>)";
" 4197	0x7171	煱 (<CJK Ideograph>)";
" 4198	0x25299	𥊙 (<CJK Ideograph Extension B>)";
" 4199	0x25419	𥐙 (<CJK Ideograph Extension B>)";
" 4200	0x23F4A	𣽊 (<CJK Ideograph Extension B>)";
" 4201	0x24AA7	𤪧 (<CJK Ideograph Extension B>)";
" 4202	0x55BC	喼 (<CJK Ideograph>)";
" 4203	0x25446	𥑆 (<CJK Ideograph Extension B>)";
" 4204	0x2546E	𥑮 (<CJK Ideograph Extension B>)";
" 4205	0x26B52	𦭒 (<CJK Ideograph Extension B>)";
" 4206	0x91D4	釔 (<CJK Ideograph>)";
" 4207	0x3473	㑳 (<CJK Ideograph Extension A>)";
" 4208	0x2553F	𥔿 (<CJK Ideograph Extension B>)";
" 4209	0x27632	𧘲 (<CJK Ideograph Extension B>)";
" 4210	0x2555E	𥕞 (<CJK Ideograph Extension B>)";
" 4211	0x4718	䜘 (<CJK Ideograph Extension A>)";
" 4212	0x25562	𥕢 (<CJK Ideograph Extension B>)";
" 4213	0x25566	𥕦 (<CJK Ideograph Extension B>)";
" 4214	0x257C7	𥟇 (<CJK Ideograph Extension B>)";
" 4215	0x2493F	𤤿 (<CJK Ideograph Extension B>)";
" 4216	0x2585D	𥡝 (<CJK Ideograph Extension B>)";
" 4217	0x5066	偦 (<CJK Ideograph>)";
" 4218	0x34FB	㓻 (<CJK Ideograph Extension A>)";
" 4219	0x233CC	𣏌 (<CJK Ideograph Extension B>)";
" 4220	0x60DE	惞 (<CJK Ideograph>)";
" 4221	0x25903	𥤃 (<CJK Ideograph Extension B>)";
" 4222	0x477C	䝼 (<CJK Ideograph Extension A>)";
" 4223	0x28948	𨥈 (<CJK Ideograph Extension B>)";
" 4224	0x25AAE	𥪮 (<CJK Ideograph Extension B>)";
" 4225	0x25B89	𥮉 (<CJK Ideograph Extension B>)";
" 4226	0x25C06	𥰆 (<CJK Ideograph Extension B>)";
" 4227	0x21D90	𡶐 (<CJK Ideograph Extension B>)";
" 4228	0x57A1	垡 (<CJK Ideograph>)";
" 4229	0x7151	煑 (<CJK Ideograph>)";
" 4230	0x6FB6	澶 (<CJK Ideograph>)";
" 4231	0x26102	𦄂 (<CJK Ideograph Extension B>)";
" 4232	0x27C12	𧰒 (<CJK Ideograph Extension B>)";
" 4233	0x9056	遖 (<CJK Ideograph>)";
" 4234	0x261B2	𦆲 (<CJK Ideograph Extension B>)";
" 4235	0x24F9A	𤾚 (<CJK Ideograph Extension B>)";
" 4236	0x8B62	譢 (<CJK Ideograph>)";
" 4237	0x26402	𦐂 (<CJK Ideograph Extension B>)";
" 4238	0x2644A	𦑊 (<CJK Ideograph Extension B>)";
" 4239	0x5D5B	嵛 (<CJK Ideograph>)";
" 4240	0x26BF7	𦯷 (<CJK Ideograph Extension B>)";
" 4241	0x8F36	輶 (<CJK Ideograph>)";
" 4242	0x26484	𦒄 (<CJK Ideograph Extension B>)";
" 4243	0x2191C	𡤜 (<CJK Ideograph Extension B>)";
" 4244	0x8AEA	諪 (<CJK Ideograph>)";
" 4245	0x249F6	𤧶 (<CJK Ideograph Extension B>)";
" 4246	0x26488	𦒈 (<CJK Ideograph Extension B>)";
" 4247	0x23FEF	𣿯 (<CJK Ideograph Extension B>)";
" 4248	0x26512	𦔒 (<CJK Ideograph Extension B>)";
" 4249	0x4BC0	䯀 (<CJK Ideograph Extension A>)";
" 4250	0x265BF	𦖿 (<CJK Ideograph Extension B>)";
" 4251	0x266B5	𦚵 (<CJK Ideograph Extension B>)";
" 4252	0x2271B	𢜛 (<CJK Ideograph Extension B>)";
" 4253	0x9465	鑥 (<CJK Ideograph>)";
" 4254	0x257E1	𥟡 (<CJK Ideograph Extension B>)";
" 4255	0x6195	憕 (<CJK Ideograph>)";
" 4256	0x5A27	娧 (<CJK Ideograph>)";
" 4257	0x2F8CD	晉 (CJK COMPATIBILITY IDEOGRAPH-2F8CD)";
" 4258	0x4FBB	侻 (<CJK Ideograph>)";
" 4259	0x56B9	嚹 (<CJK Ideograph>)";
" 4260	0x24521	𤔡 (<CJK Ideograph Extension B>)";
" 4261	0x266FC	𦛼 (<CJK Ideograph Extension B>)";
" 4262	0x4E6A	乪 (<CJK Ideograph>)";
" 4263	0x24934	𤤴 (<CJK Ideograph Extension B>)";
" 4264	0x9656	陖 (<CJK Ideograph>)";
" 4265	0x6D8F	涏 (<CJK Ideograph>)";
" 4266	0x26CBD	𦲽 (<CJK Ideograph Extension B>)";
" 4267	0x3618	㘘 (<CJK Ideograph Extension A>)";
" 4268	0x8977	襷 (<CJK Ideograph>)";
" 4269	0x26799	𦞙 (<CJK Ideograph Extension B>)";
" 4270	0x2686E	𦡮 (<CJK Ideograph Extension B>)";
" 4271	0x26411	𦐑 (<CJK Ideograph Extension B>)";
" 4272	0x2685E	𦡞 (<CJK Ideograph Extension B>)";
" 4273	0x71DF	營 (<CJK Ideograph>)";
" 4274	0x268C7	𦣇 (<CJK Ideograph Extension B>)";
" 4275	0x7B42	筂 (<CJK Ideograph>)";
" 4276	0x290C0	𩃀 (<CJK Ideograph Extension B>)";
" 4277	0x20A11	𠨑 (<CJK Ideograph Extension B>)";
" 4278	0x26926	𦤦 (<CJK Ideograph Extension B>)";
" 4279	0x9104	鄄 (<CJK Ideograph>)";
" 4280	0x26939	𦤹 (<CJK Ideograph Extension B>)";
" 4281	0x7A45	穅 (<CJK Ideograph>)";
" 4282	0x9DF0	鷰 (<CJK Ideograph>)";
" 4283	0x269FA	𦧺 (<CJK Ideograph Extension B>)";
" 4284	0x9A26	騦 (<CJK Ideograph>)";
" 4285	0x26A2D	𦨭 (<CJK Ideograph Extension B>)";
" 4286	0x365F	㙟 (<CJK Ideograph Extension A>)";
" 4287	0x26469	𦑩 (<CJK Ideograph Extension B>)";
" 4288	0x20021	𠀡 (<CJK Ideograph Extension B>)";
" 4289	0x7983	禃 (<CJK Ideograph>)";
" 4290	0x26A34	𦨴 (<CJK Ideograph Extension B>)";
" 4291	0x26B5B	𦭛 (<CJK Ideograph Extension B>)";
" 4292	0x5D2C	崬 (<CJK Ideograph>)";
" 4293	0x23519	𣔙 (<CJK Ideograph Extension B>)";
" 4294	0x83CF	菏 (<CJK Ideograph>)";
" 4295	0x26B9D	𦮝 (<CJK Ideograph Extension B>)";
" 4296	0x46D0	䛐 (<CJK Ideograph Extension A>)";
" 4297	0x26CA4	𦲤 (<CJK Ideograph Extension B>)";
" 4298	0x753B	画 (<CJK Ideograph>)";
" 4299	0x8865	补 (<CJK Ideograph>)";
" 4300	0x26DAE	𦶮 (<CJK Ideograph Extension B>)";
" 4301	0x58B6	墶 (<CJK Ideograph>)";
" 4302	0x371C	㜜 (<CJK Ideograph Extension A>)";
" 4303	0x2258D	𢖍 (<CJK Ideograph Extension B>)";
" 4304	0x2704B	𧁋 (<CJK Ideograph Extension B>)";
" 4305	0x271CD	𧇍 (<CJK Ideograph Extension B>)";
" 4306	0x3C54	㱔 (<CJK Ideograph Extension A>)";
" 4307	0x27280	𧊀 (<CJK Ideograph Extension B>)";
" 4308	0x27285	𧊅 (<CJK Ideograph Extension B>)";
" 4309	0x9281	銁 (<CJK Ideograph>)";
" 4310	0x2217A	𢅺 (<CJK Ideograph Extension B>)";
" 4311	0x2728B	𧊋 (<CJK Ideograph Extension B>)";
" 4312	0x9330	錰 (<CJK Ideograph>)";
" 4313	0x272E6	𧋦 (<CJK Ideograph Extension B>)";
" 4314	0x249D0	𤧐 (<CJK Ideograph Extension B>)";
" 4315	0x6C39	氹 (<CJK Ideograph>)";
" 4316	0x949F	钟 (<CJK Ideograph>)";
" 4317	0x27450	𧑐 (<CJK Ideograph Extension B>)";
" 4318	0x20EF8	𠻸 (<CJK Ideograph Extension B>)";
" 4319	0x8827	蠧 (<CJK Ideograph>)";
" 4320	0x88F5	裵 (<CJK Ideograph>)";
" 4321	0x22926	𢤦 (<CJK Ideograph Extension B>)";
" 4322	0x28473	𨑳 (<CJK Ideograph Extension B>)";
" 4323	0x217B1	𡞱 (<CJK Ideograph Extension B>)";
" 4324	0x6EB8	溸 (<CJK Ideograph>)";
" 4325	0x24A2A	𤨪 (<CJK Ideograph Extension B>)";
" 4326	0x21820	𡠠 (<CJK Ideograph Extension B>)";
" 4327	0x39A4	㦤 (<CJK Ideograph Extension A>)";
" 4328	0x36B9	㚹 (<CJK Ideograph Extension A>)";
" 4329	0x5C10	尐 (<CJK Ideograph>)";
" 4330	0x79E3	秣 (<CJK Ideograph>)";
" 4331	0x453F	䔿 (<CJK Ideograph Extension A>)";
" 4332	0x66B6	暶 (<CJK Ideograph>)";
" 4333	0x29CAD	𩲭 (<CJK Ideograph Extension B>)";
" 4334	0x298A4	𩢤 (<CJK Ideograph Extension B>)";
" 4335	0x8943	襃 (<CJK Ideograph>)";
" 4336	0x277CC	𧟌 (<CJK Ideograph Extension B>)";
" 4337	0x27858	𧡘 (<CJK Ideograph Extension B>)";
" 4338	0x56D6	囖 (<CJK Ideograph>)";
" 4339	0x40DF	䃟 (<CJK Ideograph Extension A>)";
" 4340	0x2160A	𡘊 (<CJK Ideograph Extension B>)";
" 4341	0x39A1	㦡 (<CJK Ideograph Extension A>)";
" 4342	0x2372F	𣜯 (<CJK Ideograph Extension B>)";
" 4343	0x280E8	𨃨 (<CJK Ideograph Extension B>)";
" 4344	0x213C5	𡏅 (<CJK Ideograph Extension B>)";
" 4345	0x71AD	熭 (<CJK Ideograph>)";
" 4346	0x8366	荦 (<CJK Ideograph>)";
" 4347	0x279DD	𧧝 (<CJK Ideograph Extension B>)";
" 4348	0x291A8	𩆨 (<CJK Ideograph Extension B>)";
" 4349	0x5A67	婧 (<CJK Ideograph>)";
" 4350	0x4CB7	䲷 (<CJK Ideograph Extension A>)";
" 4351	0x270AF	𧂯 (<CJK Ideograph Extension B>)";
" 4352	0x289AB	𨦫 (<CJK Ideograph Extension B>)";
" 4353	0x279FD	𧧽 (<CJK Ideograph Extension B>)";
" 4354	0x27A0A	𧨊 (<CJK Ideograph Extension B>)";
" 4355	0x27B0B	𧬋 (<CJK Ideograph Extension B>)";
" 4356	0x27D66	𧵦 (<CJK Ideograph Extension B>)";
" 4357	0x2417A	𤅺 (<CJK Ideograph Extension B>)";
" 4358	0x7B43	筃 (<CJK Ideograph>)";
" 4359	0x797E	祾 (<CJK Ideograph>)";
" 4360	0x28009	𨀉 (<CJK Ideograph Extension B>)";
" 4361	0x6FB5	澵 (<CJK Ideograph>)";
" 4362	0x2A2DF	𪋟 (<CJK Ideograph Extension B>)";
" 4363	0x6A03	樃 (<CJK Ideograph>)";
" 4364	0x28318	𨌘 (<CJK Ideograph Extension B>)";
" 4365	0x53A2	厢 (<CJK Ideograph>)";
" 4366	0x26E07	𦸇 (<CJK Ideograph Extension B>)";
" 4367	0x93BF	鎿 (<CJK Ideograph>)";
" 4368	0x6836	栶 (<CJK Ideograph>)";
" 4369	0x975D	靝 (<CJK Ideograph>)";
" 4370	0x2816F	𨅯 (<CJK Ideograph Extension B>)";
" 4371	0x28023	𨀣 (<CJK Ideograph Extension B>)";
" 4372	0x269B5	𦦵 (<CJK Ideograph Extension B>)";
" 4373	0x213ED	𡏭 (<CJK Ideograph Extension B>)";
" 4374	0x2322F	𣈯 (<CJK Ideograph Extension B>)";
" 4375	0x28048	𨁈 (<CJK Ideograph Extension B>)";
" 4376	0x5D85	嶅 (<CJK Ideograph>)";
" 4377	0x28C30	𨰰 (<CJK Ideograph Extension B>)";
" 4378	0x28083	𨂃 (<CJK Ideograph Extension B>)";
" 4379	0x5715	圕 (<CJK Ideograph>)";
" 4380	0x9823	頣 (<CJK Ideograph>)";
" 4381	0x28949	𨥉 (<CJK Ideograph Extension B>)";
" 4382	0x5DAB	嶫 (<CJK Ideograph>)";
" 4383	0x24988	𤦈 (<CJK Ideograph Extension B>)";
" 4384	0x65BE	斾 (<CJK Ideograph>)";
" 4385	0x69D5	槕 (<CJK Ideograph>)";
" 4386	0x53D2	叒 (<CJK Ideograph>)";
" 4387	0x24AA5	𤪥 (<CJK Ideograph Extension B>)";
" 4388	0x23F81	𣾁 (<CJK Ideograph Extension B>)";
" 4389	0x3C11	㰑 (<CJK Ideograph Extension A>)";
" 4390	0x6736	朶 (<CJK Ideograph>)";
" 4391	0x28090	𨂐 (<CJK Ideograph Extension B>)";
" 4392	0x280F4	𨃴 (<CJK Ideograph Extension B>)";
" 4393	0x2812E	𨄮 (<CJK Ideograph Extension B>)";
" 4394	0x21FA1	𡾡 (<CJK Ideograph Extension B>)";
" 4395	0x2814F	𨅏 (<CJK Ideograph Extension B>)";
" 4396	0x28189	𨆉 (<CJK Ideograph Extension B>)";
" 4397	0x281AF	𨆯 (<CJK Ideograph Extension B>)";
" 4398	0x2821A	𨈚 (<CJK Ideograph Extension B>)";
" 4399	0x28306	𨌆 (<CJK Ideograph Extension B>)";
" 4400	0x2832F	𨌯 (<CJK Ideograph Extension B>)";
" 4401	0x2838A	𨎊 (<CJK Ideograph Extension B>)";
" 4402	0x35CA	㗊 (<CJK Ideograph Extension A>)";
" 4403	0x28468	𨑨 (<CJK Ideograph Extension B>)";
" 4404	0x286AA	𨚪 (<CJK Ideograph Extension B>)";
" 4405	0x48FA	䣺 (<CJK Ideograph Extension A>)";
" 4406	0x63E6	揦 (<CJK Ideograph>)";
" 4407	0x28956	𨥖 (<CJK Ideograph Extension B>)";
" 4408	0x7808	砈 (<CJK Ideograph>)";
" 4409	0x9255	鉕 (<CJK Ideograph>)";
" 4410	0x289B8	𨦸 (<CJK Ideograph Extension B>)";
" 4411	0x43F2	䏲 (<CJK Ideograph Extension A>)";
" 4412	0x289E7	𨧧 (<CJK Ideograph Extension B>)";
" 4413	0x43DF	䏟 (<CJK Ideograph Extension A>)";
" 4414	0x289E8	𨧨 (<CJK Ideograph Extension B>)";
" 4415	0x28B46	𨭆 (<CJK Ideograph Extension B>)";
" 4416	0x28BD4	𨯔 (<CJK Ideograph Extension B>)";
" 4417	0x59F8	姸 (<CJK Ideograph>)";
" 4418	0x28C09	𨰉 (<CJK Ideograph Extension B>)";
" 4419	0x8F0B	輋 (<CJK Ideograph>)"
].
(* /repo/encoding_tables/whatwg/index-big5.txt:3329-3584 *)
Definition index_big5_txt_13 : list line := [
" 4420	0x28FC5	𨿅 (<CJK Ideograph Extension B>)";
" 4421	0x290EC	𩃬 (<CJK Ideograph Extension B>)";
" 4422	0x7B51	筑 (<CJK Ideograph>)";
" 4423	0x29110	𩄐 (<CJK Ideograph Extension B>)";
" 4424	0x2913C	𩄼 (<CJK Ideograph Extension B>)";
" 4425	0x3DF7	㷷 (<CJK Ideograph Extension A>)";
" 4426	0x2915E	𩅞 (<CJK Ideograph Extension B>)";
" 4427	0x24ACA	𤫊 (<CJK Ideograph Extension B>)";
" 4428	0x8FD0	运 (<CJK Ideograph>)";
" 4429	0x728F	犏 (<CJK Ideograph>)";
" 4430	0x568B	嚋 (<CJK Ideograph>)";
" 4431	0x294E7	𩓧 (<CJK Ideograph Extension B>)";
" 4432	0x295E9	𩗩 (<CJK Ideograph Extension B>)";
" 4433	0x295B0	𩖰 (<CJK Ideograph Extension B>)";
" 4434	0x295B8	𩖸 (<CJK Ideograph Extension B>)";
" 4435	0x29732	𩜲 (<CJK Ideograph Extension B>)";
" 4436	0x298D1	𩣑 (<CJK Ideograph Extension B>)";
" 4437	0x29949	𩥉 (<CJK Ideograph Extension B>)";
" 4438	0x2996A	𩥪 (<CJK Ideograph Extension B>)";
" 4439	0x299C3	𩧃 (<CJK Ideograph Extension B>)";
" 4440	0x29A28	𩨨 (<CJK Ideograph Extension B>)";
" 4441	0x29B0E	𩬎 (<CJK Ideograph Extension B>)";
" 4442	0x29D5A	𩵚 (<CJK Ideograph Extension B>)";
" 4443	0x29D9B	𩶛 (<CJK Ideograph Extension B>)";
" 4444	0x7E9F	纟 (<CJK Ideograph>)";
" 4445	0x29EF8	𩻸 (<CJK Ideograph Extension B>)";
" 4446	0x29F23	𩼣 (<CJK Ideograph Extension B>)";
" 4447	0x4CA4	䲤 (<CJK Ideograph Extension A>)";
" 4448	0x9547	镇 (<CJK Ideograph>)";
" 4449	0x2A293	𪊓 (<CJK Ideograph Extension B>)";
" 4450	0x71A2	熢 (<CJK Ideograph>)";
" 4451	0x2A2FF	𪋿 (<CJK Ideograph Extension B>)";
" 4452	0x4D91	䶑 (<CJK Ideograph Extension A>)";
" 4453	0x9012	递 (<CJK Ideograph>)";
" 4454	0x2A5CB	𪗋 (<CJK Ideograph Extension B>)";
" 4455	0x4D9C	䶜 (<CJK Ideograph Extension A>)";
" 4456	0x20C9C	𠲜 (<CJK Ideograph Extension B>)";
" 4457	0x8FBE	达 (<CJK Ideograph>)";
" 4458	0x55C1	嗁 (<CJK Ideograph>)";
" 4459	0x8FBA	辺 (<CJK Ideograph>)";
" 4460	0x224B0	𢒰 (<CJK Ideograph Extension B>)";
" 4461	0x8FB9	边 (<CJK Ideograph>)";
" 4462	0x24A93	𤪓 (<CJK Ideograph Extension B>)";
" 4463	0x4509	䔉 (<CJK Ideograph Extension A>)";
" 4464	0x7E7F	繿 (<CJK Ideograph>)";
" 4465	0x6F56	潖 (<CJK Ideograph>)";
" 4466	0x6AB1	檱 (<CJK Ideograph>)";
" 4467	0x4EEA	仪 (<CJK Ideograph>)";
" 4468	0x34E4	㓤 (<CJK Ideograph Extension A>)";
" 4469	0x28B2C	𨬬 (<CJK Ideograph Extension B>)";
" 4470	0x2789D	𧢝 (<CJK Ideograph Extension B>)";
" 4471	0x373A	㜺 (<CJK Ideograph Extension A>)";
" 4472	0x8E80	躀 (<CJK Ideograph>)";
" 4473	0x217F5	𡟵 (<CJK Ideograph Extension B>)";
" 4474	0x28024	𨀤 (<CJK Ideograph Extension B>)";
" 4475	0x28B6C	𨭬 (<CJK Ideograph Extension B>)";
" 4476	0x28B99	𨮙 (<CJK Ideograph Extension B>)";
" 4477	0x27A3E	𧨾 (<CJK Ideograph Extension B>)";
" 4478	0x266AF	𦚯 (<CJK Ideograph Extension B>)";
" 4479	0x3DEB	㷫 (<CJK Ideograph Extension A>)";
" 4480	0x27655	𧙕 (<CJK Ideograph Extension B>)";
" 4481	0x23CB7	𣲷 (<CJK Ideograph Extension B>)";
" 4482	0x25635	𥘵 (<CJK Ideograph Extension B>)";
" 4483	0x25956	𥥖 (<CJK Ideograph Extension B>)";
" 4484	0x4E9A	亚 (<CJK Ideograph>)";
" 4485	0x25E81	𥺁 (<CJK Ideograph Extension B>)";
" 4486	0x26258	𦉘 (<CJK Ideograph Extension B>)";
" 4487	0x56BF	嚿 (<CJK Ideograph>)";
" 4488	0x20E6D	𠹭 (<CJK Ideograph Extension B>)";
" 4489	0x8E0E	踎 (<CJK Ideograph>)";
" 4490	0x5B6D	孭 (<CJK Ideograph>)";
" 4491	0x23E88	𣺈 (<CJK Ideograph Extension B>)";
" 4492	0x24C9E	𤲞 (<CJK Ideograph Extension B>)";
" 4493	0x63DE	揞 (<CJK Ideograph>)";
" 4494	0x62D0	拐 (<CJK Ideograph>)";
" 4495	0x217F6	𡟶 (<CJK Ideograph Extension B>)";
" 4496	0x2187B	𡡻 (<CJK Ideograph Extension B>)";
" 4497	0x6530	攰 (<CJK Ideograph>)";
" 4498	0x562D	嘭 (<CJK Ideograph>)";
" 4499	0x25C4A	𥱊 (<CJK Ideograph Extension B>)";
" 4500	0x541A	吚 (<CJK Ideograph>)";
" 4501	0x25311	𥌑 (<CJK Ideograph Extension B>)";
" 4502	0x3DC6	㷆 (<CJK Ideograph Extension A>)";
" 4503	0x29D98	𩶘 (<CJK Ideograph Extension B>)";
" 4504	0x4C7D	䱽 (<CJK Ideograph Extension A>)";
" 4505	0x5622	嘢 (<CJK Ideograph>)";
" 4506	0x561E	嘞 (<CJK Ideograph>)";
" 4507	0x7F49	罉 (<CJK Ideograph>)";
" 4508	0x25ED8	𥻘 (<CJK Ideograph Extension B>)";
" 4509	0x5975	奵 (<CJK Ideograph>)";
" 4510	0x23D40	𣵀 (<CJK Ideograph Extension B>)";
" 4511	0x8770	蝰 (<CJK Ideograph>)";
" 4512	0x4E1C	东 (<CJK Ideograph>)";
" 4513	0x20FEA	𠿪 (<CJK Ideograph Extension B>)";
" 4514	0x20D49	𠵉 (<CJK Ideograph Extension B>)";
" 4515	0x236BA	𣚺 (<CJK Ideograph Extension B>)";
" 4516	0x8117	脗 (<CJK Ideograph>)";
" 4517	0x9D5E	鵞 (<CJK Ideograph>)";
" 4518	0x8D18	贘 (<CJK Ideograph>)";
" 4519	0x763B	瘻 (<CJK Ideograph>)";
" 4520	0x9C45	鱅 (<CJK Ideograph>)";
" 4521	0x764E	癎 (<CJK Ideograph>)";
" 4522	0x77B9	瞹 (<CJK Ideograph>)";
" 4523	0x9345	鍅 (<CJK Ideograph>)";
" 4524	0x5432	吲 (<CJK Ideograph>)";
" 4525	0x8148	腈 (<CJK Ideograph>)";
" 4526	0x82F7	苷 (<CJK Ideograph>)";
" 4527	0x5625	嘥 (<CJK Ideograph>)";
" 4528	0x8132	脲 (<CJK Ideograph>)";
" 4529	0x8418	萘 (<CJK Ideograph>)";
" 4530	0x80BD	肽 (<CJK Ideograph>)";
" 4531	0x55EA	嗪 (<CJK Ideograph>)";
" 4532	0x7962	祢 (<CJK Ideograph>)";
" 4533	0x5643	噃 (<CJK Ideograph>)";
" 4534	0x5416	吖 (<CJK Ideograph>)";
" 4535	0x20E9D	𠺝 (<CJK Ideograph Extension B>)";
" 4536	0x35CE	㗎 (<CJK Ideograph Extension A>)";
" 4537	0x5605	嘅 (<CJK Ideograph>)";
" 4538	0x55F1	嗱 (<CJK Ideograph>)";
" 4539	0x66F1	曱 (<CJK Ideograph>)";
" 4540	0x282E2	𨋢 (<CJK Ideograph Extension B>)";
" 4541	0x362D	㘭 (<CJK Ideograph Extension A>)";
" 4542	0x7534	甴 (<CJK Ideograph>)";
" 4543	0x55F0	嗰 (<CJK Ideograph>)";
" 4544	0x55BA	喺 (<CJK Ideograph>)";
" 4545	0x5497	咗 (<CJK Ideograph>)";
" 4546	0x5572	啲 (<CJK Ideograph>)";
" 4547	0x20C41	𠱁 (<CJK Ideograph Extension B>)";
" 4548	0x20C96	𠲖 (<CJK Ideograph Extension B>)";
" 4549	0x5ED0	廐 (<CJK Ideograph>)";
" 4550	0x25148	𥅈 (<CJK Ideograph Extension B>)";
" 4551	0x20E76	𠹶 (<CJK Ideograph Extension B>)";
" 4552	0x22C62	𢱢 (<CJK Ideograph Extension B>)";
" 4553	0x20EA2	𠺢 (<CJK Ideograph Extension B>)";
" 4554	0x9EAB	麫 (<CJK Ideograph>)";
" 4555	0x7D5A	絚 (<CJK Ideograph>)";
" 4556	0x55DE	嗞 (<CJK Ideograph>)";
" 4557	0x21075	𡁵 (<CJK Ideograph Extension B>)";
" 4558	0x629D	抝 (<CJK Ideograph>)";
" 4559	0x976D	靭 (<CJK Ideograph>)";
" 4560	0x5494	咔 (<CJK Ideograph>)";
" 4561	0x8CCD	賍 (<CJK Ideograph>)";
" 4562	0x71F6	燶 (<CJK Ideograph>)";
" 4563	0x9176	酶 (<CJK Ideograph>)";
" 4564	0x63FC	揼 (<CJK Ideograph>)";
" 4565	0x63B9	掹 (<CJK Ideograph>)";
" 4566	0x63FE	揾 (<CJK Ideograph>)";
" 4567	0x5569	啩 (<CJK Ideograph>)";
" 4568	0x22B43	𢭃 (<CJK Ideograph Extension B>)";
" 4569	0x9C72	鱲 (<CJK Ideograph>)";
" 4570	0x22EB3	𢺳 (<CJK Ideograph Extension B>)";
" 4571	0x519A	冚 (<CJK Ideograph>)";
" 4572	0x34DF	㓟 (<CJK Ideograph Extension A>)";
" 4573	0x20DA7	𠶧 (<CJK Ideograph Extension B>)";
" 4574	0x51A7	冧 (<CJK Ideograph>)";
" 4575	0x544D	呍 (<CJK Ideograph>)";
" 4576	0x551E	唞 (<CJK Ideograph>)";
" 4577	0x5513	唓 (<CJK Ideograph>)";
" 4578	0x7666	癦 (<CJK Ideograph>)";
" 4579	0x8E2D	踭 (<CJK Ideograph>)";
" 4580	0x2688A	𦢊 (<CJK Ideograph Extension B>)";
" 4581	0x75B1	疱 (<CJK Ideograph>)";
" 4582	0x80B6	肶 (<CJK Ideograph>)";
" 4583	0x8804	蠄 (<CJK Ideograph>)";
" 4584	0x8786	螆 (<CJK Ideograph>)";
" 4585	0x88C7	裇 (<CJK Ideograph>)";
" 4586	0x81B6	膶 (<CJK Ideograph>)";
" 4587	0x841C	萜 (<CJK Ideograph>)";
" 4588	0x210C1	𡃁 (<CJK Ideograph Extension B>)";
" 4589	0x44EC	䓬 (<CJK Ideograph Extension A>)";
" 4590	0x7304	猄 (<CJK Ideograph>)";
" 4591	0x24706	𤜆 (<CJK Ideograph Extension B>)";
" 4592	0x5B90	宐 (<CJK Ideograph>)";
" 4593	0x830B	茋 (<CJK Ideograph>)";
" 4594	0x26893	𦢓 (<CJK Ideograph Extension B>)";
" 4595	0x567B	噻 (<CJK Ideograph>)";
" 4596	0x226F4	𢛴 (<CJK Ideograph Extension B>)";
" 4597	0x27D2F	𧴯 (<CJK Ideograph Extension B>)";
" 4598	0x241A3	𤆣 (<CJK Ideograph Extension B>)";
" 4599	0x27D73	𧵳 (<CJK Ideograph Extension B>)";
" 4600	0x26ED0	𦻐 (<CJK Ideograph Extension B>)";
" 4601	0x272B6	𧊶 (<CJK Ideograph Extension B>)";
" 4602	0x9170	酰 (<CJK Ideograph>)";
" 4603	0x211D9	𡇙 (<CJK Ideograph Extension B>)";
" 4604	0x9208	鈈 (<CJK Ideograph>)";
" 4605	0x23CFC	𣳼 (<CJK Ideograph Extension B>)";
" 4606	0x2A6A9	𪚩 (<CJK Ideograph Extension B>)";
" 4607	0x20EAC	𠺬 (<CJK Ideograph Extension B>)";
" 4608	0x20EF9	𠻹 (<CJK Ideograph Extension B>)";
" 4609	0x7266	牦 (<CJK Ideograph>)";
" 4610	0x21CA2	𡲢 (<CJK Ideograph Extension B>)";
" 4611	0x474E	䝎 (<CJK Ideograph Extension A>)";
" 4612	0x24FC2	𤿂 (<CJK Ideograph Extension B>)";
" 4613	0x27FF9	𧿹 (<CJK Ideograph Extension B>)";
" 4614	0x20FEB	𠿫 (<CJK Ideograph Extension B>)";
" 4615	0x40FA	䃺 (<CJK Ideograph Extension A>)";
" 4616	0x9C5D	鱝 (<CJK Ideograph>)";
" 4617	0x651F	攟 (<CJK Ideograph>)";
" 4618	0x22DA0	𢶠 (<CJK Ideograph Extension B>)";
" 4619	0x48F3	䣳 (<CJK Ideograph Extension A>)";
" 4620	0x247E0	𤟠 (<CJK Ideograph Extension B>)";
" 4621	0x29D7C	𩵼 (<CJK Ideograph Extension B>)";
" 4622	0x20FEC	𠿬 (<CJK Ideograph Extension B>)";
" 4623	0x20E0A	𠸊 (<CJK Ideograph Extension B>)";
" 4624	0x6062	恢 (<CJK Ideograph>)";
" 4625	0x275A3	𧖣 (<CJK Ideograph Extension B>)";
" 4626	0x20FED	𠿭 (<CJK Ideograph Extension B>)";
" 4628	0x26048	𦁈 (<CJK Ideograph Extension B>)";
" 4629	0x21187	𡆇 (<CJK Ideograph Extension B>)";
" 4630	0x71A3	熣 (<CJK Ideograph>)";
" 4631	0x7E8E	纎 (<CJK Ideograph>)";
" 4632	0x9D50	鵐 (<CJK Ideograph>)";
" 4633	0x4E1A	业 (<CJK Ideograph>)";
" 4634	0x4E04	丄 (<CJK Ideograph>)";
" 4635	0x3577	㕷 (<CJK Ideograph Extension A>)";
" 4636	0x5B0D	嬍 (<CJK Ideograph>)";
" 4637	0x6CB2	沲 (<CJK Ideograph>)";
" 4638	0x5367	卧 (<CJK Ideograph>)";
" 4639	0x36AC	㚬 (<CJK Ideograph Extension A>)";
" 4640	0x39DC	㧜 (<CJK Ideograph Extension A>)";
" 4641	0x537D	卽 (<CJK Ideograph>)";
" 4642	0x36A5	㚥 (<CJK Ideograph Extension A>)";
" 4643	0x24618	𤘘 (<CJK Ideograph Extension B>)";
" 4644	0x589A	墚 (<CJK Ideograph>)";
" 4645	0x24B6E	𤭮 (<CJK Ideograph Extension B>)";
" 4646	0x822D	舭 (<CJK Ideograph>)";
" 4647	0x544B	呋 (<CJK Ideograph>)";
" 4648	0x57AA	垪 (<CJK Ideograph>)";
" 4649	0x25A95	𥪕 (<CJK Ideograph Extension B>)";
" 4650	0x20979	𠥹 (<CJK Ideograph Extension B>)";
" 4652	0x3A52	㩒 (<CJK Ideograph Extension A>)";
" 4653	0x22465	𢑥 (<CJK Ideograph Extension B>)";
" 4654	0x7374	獴 (<CJK Ideograph>)";
" 4655	0x29EAC	𩺬 (<CJK Ideograph Extension B>)";
" 4656	0x4D09	䴉 (<CJK Ideograph Extension A>)";
" 4657	0x9BED	鯭 (<CJK Ideograph>)";
" 4658	0x23CFE	𣳾 (<CJK Ideograph Extension B>)";
" 4659	0x29F30	𩼰 (<CJK Ideograph Extension B>)";
" 4660	0x4C5B	䱛 (<CJK Ideograph Extension A>)";
" 4661	0x24FA9	𤾩 (<CJK Ideograph Extension B>)";
" 4662	0x2959E	𩖞 (<CJK Ideograph Extension B>)";
" 4663	0x29FDE	𩿞 (<CJK Ideograph Extension B>)";
" 4664	0x845C	葜 (<CJK Ideograph>)";
" 4665	0x23DB6	𣶶 (<CJK Ideograph Extension B>)";
" 4666	0x272B2	𧊲 (<CJK Ideograph Extension B>)";
" 4667	0x267B3	𦞳 (<CJK Ideograph Extension B>)";
" 4668	0x23720	𣜠 (<CJK Ideograph Extension B>)";
" 4669	0x632E	挮 (<CJK Ideograph>)";
" 4670	0x7D25	紥 (<CJK Ideograph>)";
" 4671	0x23EF7	𣻷 (<CJK Ideograph Extension B>)";
" 4672	0x23E2C	𣸬 (<CJK Ideograph Extension B>)";
" 4673	0x3A2A	㨪 (<CJK Ideograph Extension A>)";
" 4674	0x9008	逈 (<CJK Ideograph>)";
" 4675	0x52CC	勌 (<CJK Ideograph>)";
" 4676	0x3E74	㹴 (<CJK Ideograph Extension A>)";
" 4677	0x367A	㙺 (<CJK Ideograph Extension A>)"
].
(* /repo/encoding_tables/whatwg/index-big5.txt:3585-3840 *)
Definition index_big5_txt_14 : list line := [
" 4678	0x45E9	䗩 (<CJK Ideograph Extension A>)";
" 4679	0x2048E	𠒎 (<CJK Ideograph Extension B>)";
" 4680	0x7640	癀 (<CJK Ideograph>)";
" 4681	0x5AF0	嫰 (<CJK Ideograph>)";
" 4682	0x20EB6	𠺶 (<CJK Ideograph Extension B>)";
" 4683	0x787A	硺 (<CJK Ideograph>)";
" 4684	0x27F2E	𧼮 (<CJK Ideograph Extension B>)";
" 4685	0x58A7	墧 (<CJK Ideograph>)";
" 4686	0x40BF	䂿 (<CJK Ideograph Extension A>)";
" 4687	0x567C	噼 (<CJK Ideograph>)";
" 4688	0x9B8B	鮋 (<CJK Ideograph>)";
" 4689	0x5D74	嵴 (<CJK Ideograph>)";
" 4690	0x7654	癔 (<CJK Ideograph>)";
" 4691	0x2A434	𪐴 (<CJK Ideograph Extension B>)";
" 4692	0x9E85	麅 (<CJK Ideograph>)";
" 4693	0x4CE1	䳡 (<CJK Ideograph Extension A>)";
" 4694	0x75F9	痹 (<CJK Ideograph>)";
" 4695	0x37FB	㟻 (<CJK Ideograph Extension A>)";
" 4696	0x6119	愙 (<CJK Ideograph>)";
" 4697	0x230DA	𣃚 (<CJK Ideograph Extension B>)";
" 4698	0x243F2	𤏲 (<CJK Ideograph Extension B>)";
" 4700	0x565D	噝 (<CJK Ideograph>)";
" 4701	0x212A9	𡊩 (<CJK Ideograph Extension B>)";
" 4702	0x57A7	垧 (<CJK Ideograph>)";
" 4703	0x24963	𤥣 (<CJK Ideograph Extension B>)";
" 4704	0x29E06	𩸆 (<CJK Ideograph Extension B>)";
" 4705	0x5234	刴 (<CJK Ideograph>)";
" 4706	0x270AE	𧂮 (<CJK Ideograph Extension B>)";
" 4707	0x35AD	㖭 (<CJK Ideograph Extension A>)";
" 4708	0x6C4A	汊 (<CJK Ideograph>)";
" 4709	0x9D7C	鵼 (<CJK Ideograph>)";
" 4710	0x7C56	籖 (<CJK Ideograph>)";
" 4711	0x9B39	鬹 (<CJK Ideograph>)";
" 4712	0x57DE	埞 (<CJK Ideograph>)";
" 4713	0x2176C	𡝬 (<CJK Ideograph Extension B>)";
" 4714	0x5C53	屓 (<CJK Ideograph>)";
" 4715	0x64D3	擓 (<CJK Ideograph>)";
" 4716	0x294D0	𩓐 (<CJK Ideograph Extension B>)";
" 4717	0x26335	𦌵 (<CJK Ideograph Extension B>)";
" 4718	0x27164	𧅤 (<CJK Ideograph Extension B>)";
" 4719	0x86AD	蚭 (<CJK Ideograph>)";
" 4720	0x20D28	𠴨 (<CJK Ideograph Extension B>)";
" 4721	0x26D22	𦴢 (<CJK Ideograph Extension B>)";
" 4722	0x24AE2	𤫢 (<CJK Ideograph Extension B>)";
" 4723	0x20D71	𠵱 (<CJK Ideograph Extension B>)";
" 4725	0x51FE	凾 (<CJK Ideograph>)";
" 4726	0x21F0F	𡼏 (<CJK Ideograph Extension B>)";
" 4727	0x5D8E	嶎 (<CJK Ideograph>)";
" 4728	0x9703	霃 (<CJK Ideograph>)";
" 4729	0x21DD1	𡷑 (<CJK Ideograph Extension B>)";
" 4730	0x9E81	麁 (<CJK Ideograph>)";
" 4731	0x904C	遌 (<CJK Ideograph>)";
" 4732	0x7B1F	笟 (<CJK Ideograph>)";
" 4733	0x9B02	鬂 (<CJK Ideograph>)";
" 4734	0x5CD1	峑 (<CJK Ideograph>)";
" 4735	0x7BA3	箣 (<CJK Ideograph>)";
" 4736	0x6268	扨 (<CJK Ideograph>)";
" 4737	0x6335	挵 (<CJK Ideograph>)";
" 4738	0x9AFF	髿 (<CJK Ideograph>)";
" 4739	0x7BCF	篏 (<CJK Ideograph>)";
" 4740	0x9B2A	鬪 (<CJK Ideograph>)";
" 4741	0x7C7E	籾 (<CJK Ideograph>)";
" 4742	0x9B2E	鬮 (<CJK Ideograph>)";
" 4743	0x7C42	籂 (<CJK Ideograph>)";
" 4744	0x7C86	粆 (<CJK Ideograph>)";
" 4745	0x9C15	鰕 (<CJK Ideograph>)";
" 4746	0x7BFC	篼 (<CJK Ideograph>)";
" 4747	0x9B09	鬉 (<CJK Ideograph>)";
" 4748	0x9F17	鼗 (<CJK Ideograph>)";
" 4749	0x9C1B	鰛 (<CJK Ideograph>)";
" 4750	0x2493E	𤤾 (<CJK Ideograph Extension B>)";
" 4751	0x9F5A	齚 (<CJK Ideograph>)";
" 4752	0x5573	啳 (<CJK Ideograph>)";
" 4753	0x5BC3	寃 (<CJK Ideograph>)";
" 4754	0x4FFD	俽 (<CJK Ideograph>)";
" 4755	0x9E98	麘 (<CJK Ideograph>)";
" 4756	0x4FF2	俲 (<CJK Ideograph>)";
" 4757	0x5260	剠 (<CJK Ideograph>)";
" 4758	0x3E06	㸆 (<CJK Ideograph Extension A>)";
" 4759	0x52D1	勑 (<CJK Ideograph>)";
" 4760	0x5767	坧 (<CJK Ideograph>)";
" 4761	0x5056	偖 (<CJK Ideograph>)";
" 4762	0x59B7	妷 (<CJK Ideograph>)";
" 4763	0x5E12	帒 (<CJK Ideograph>)";
" 4764	0x97C8	韈 (<CJK Ideograph>)";
" 4765	0x9DAB	鶫 (<CJK Ideograph>)";
" 4766	0x8F5C	轜 (<CJK Ideograph>)";
" 4767	0x5469	呩 (<CJK Ideograph>)";
" 4768	0x97B4	鞴 (<CJK Ideograph>)";
" 4769	0x9940	饀 (<CJK Ideograph>)";
" 4770	0x97BA	鞺 (<CJK Ideograph>)";
" 4771	0x532C	匬 (<CJK Ideograph>)";
" 4772	0x6130	愰 (<CJK Ideograph>)";
" 4773	0x692C	椬 (<CJK Ideograph>)";
" 4774	0x53DA	叚 (<CJK Ideograph>)";
" 4775	0x9C0A	鰊 (<CJK Ideograph>)";
" 4776	0x9D02	鴂 (<CJK Ideograph>)";
" 4777	0x4C3B	䰻 (<CJK Ideograph Extension A>)";
" 4778	0x9641	陁 (<CJK Ideograph>)";
" 4779	0x6980	榀 (<CJK Ideograph>)";
" 4780	0x50A6	傦 (<CJK Ideograph>)";
" 4781	0x7546	畆 (<CJK Ideograph>)";
" 4782	0x2176D	𡝭 (<CJK Ideograph Extension B>)";
" 4783	0x99DA	駚 (<CJK Ideograph>)";
" 4784	0x5273	剳 (<CJK Ideograph>)";
" 4786	0x9159	酙 (<CJK Ideograph>)";
" 4787	0x9681	隁 (<CJK Ideograph>)";
" 4788	0x915C	酜 (<CJK Ideograph>)";
" 4790	0x9151	酑 (<CJK Ideograph>)";
" 4791	0x28E97	𨺗 (<CJK Ideograph Extension B>)";
" 4792	0x637F	捿 (<CJK Ideograph>)";
" 4793	0x26D23	𦴣 (<CJK Ideograph Extension B>)";
" 4794	0x6ACA	櫊 (<CJK Ideograph>)";
" 4795	0x5611	嘑 (<CJK Ideograph>)";
" 4796	0x918E	醎 (<CJK Ideograph>)";
" 4797	0x757A	畺 (<CJK Ideograph>)";
" 4798	0x6285	抅 (<CJK Ideograph>)";
" 4799	0x203FC	𠏼 (<CJK Ideograph Extension B>)";
" 4800	0x734F	獏 (<CJK Ideograph>)";
" 4801	0x7C70	籰 (<CJK Ideograph>)";
" 4802	0x25C21	𥰡 (<CJK Ideograph Extension B>)";
" 4803	0x23CFD	𣳽 (<CJK Ideograph Extension B>)";
" 4805	0x24919	𤤙 (<CJK Ideograph Extension B>)";
" 4806	0x76D6	盖 (<CJK Ideograph>)";
" 4807	0x9B9D	鮝 (<CJK Ideograph>)";
" 4808	0x4E2A	个 (<CJK Ideograph>)";
" 4809	0x20CD4	𠳔 (<CJK Ideograph Extension B>)";
" 4810	0x83BE	莾 (<CJK Ideograph>)";
" 4811	0x8842	衂 (<CJK Ideograph>)";
" 4813	0x5C4A	届 (<CJK Ideograph>)";
" 4814	0x69C0	槀 (<CJK Ideograph>)";
" 4815	0x50ED	僭 (<CJK Ideograph>)";
" 4816	0x577A	坺 (<CJK Ideograph>)";
" 4817	0x521F	刟 (<CJK Ideograph>)";
" 4818	0x5DF5	巵 (<CJK Ideograph>)";
" 4819	0x4ECE	从 (<CJK Ideograph>)";
" 4820	0x6C31	氱 (<CJK Ideograph>)";
" 4821	0x201F2	𠇲 (<CJK Ideograph Extension B>)";
" 4822	0x4F39	伹 (<CJK Ideograph>)";
" 4823	0x549C	咜 (<CJK Ideograph>)";
" 4824	0x54DA	哚 (<CJK Ideograph>)";
" 4825	0x529A	劚 (<CJK Ideograph>)";
" 4826	0x8D82	趂 (<CJK Ideograph>)";
" 4827	0x35FE	㗾 (<CJK Ideograph Extension A>)";
" 4828	0x5F0C	弌 (<CJK Ideograph>)";
" 4829	0x35F3	㗳 (<CJK Ideograph Extension A>)";
" 4831	0x6B52	歒 (<CJK Ideograph>)";
" 4832	0x917C	酼 (<CJK Ideograph>)";
" 4833	0x9FA5	龥 (<CJK Ideograph>)";
" 4834	0x9B97	鮗 (<CJK Ideograph>)";
" 4835	0x982E	頮 (<CJK Ideograph>)";
" 4836	0x98B4	颴 (<CJK Ideograph>)";
" 4837	0x9ABA	骺 (<CJK Ideograph>)";
" 4838	0x9EA8	麨 (<CJK Ideograph>)";
" 4839	0x9E84	麄 (<CJK Ideograph>)";
" 4840	0x717A	煺 (<CJK Ideograph>)";
" 4841	0x7B14	笔 (<CJK Ideograph>)";
" 4843	0x6BFA	毺 (<CJK Ideograph>)";
" 4844	0x8818	蠘 (<CJK Ideograph>)";
" 4845	0x7F78	罸 (<CJK Ideograph>)";
" 4847	0x5620	嘠 (<CJK Ideograph>)";
" 4848	0x2A64A	𪙊 (<CJK Ideograph Extension B>)";
" 4849	0x8E77	蹷 (<CJK Ideograph>)";
" 4850	0x9F53	齓 (<CJK Ideograph>)";
" 4852	0x8DD4	跔 (<CJK Ideograph>)";
" 4853	0x8E4F	蹏 (<CJK Ideograph>)";
" 4854	0x9E1C	鸜 (<CJK Ideograph>)";
" 4855	0x8E01	踁 (<CJK Ideograph>)";
" 4856	0x6282	抂 (<CJK Ideograph>)";
" 4857	0x2837D	𨍽 (<CJK Ideograph Extension B>)";
" 4858	0x8E28	踨 (<CJK Ideograph>)";
" 4859	0x8E75	蹵 (<CJK Ideograph>)";
" 4860	0x7AD3	竓 (<CJK Ideograph>)";
" 4861	0x24A77	𤩷 (<CJK Ideograph Extension B>)";
" 4862	0x7A3E	稾 (<CJK Ideograph>)";
" 4863	0x78D8	磘 (<CJK Ideograph>)";
" 4864	0x6CEA	泪 (<CJK Ideograph>)";
" 4865	0x8A67	詧 (<CJK Ideograph>)";
" 4866	0x7607	瘇 (<CJK Ideograph>)";
" 4867	0x28A5A	𨩚 (<CJK Ideograph Extension B>)";
" 4868	0x9F26	鼦 (<CJK Ideograph>)";
" 4869	0x6CCE	泎 (<CJK Ideograph>)";
" 4870	0x87D6	蟖 (<CJK Ideograph>)";
" 4871	0x75C3	痃 (<CJK Ideograph>)";
" 4872	0x2A2B2	𪊲 (<CJK Ideograph Extension B>)";
" 4873	0x7853	硓 (<CJK Ideograph>)";
" 4874	0x2F840	咢 (CJK COMPATIBILITY IDEOGRAPH-2F840)";
" 4875	0x8D0C	贌 (<CJK Ideograph>)";
" 4876	0x72E2	狢 (<CJK Ideograph>)";
" 4877	0x7371	獱 (<CJK Ideograph>)";
" 4878	0x8B2D	謭 (<CJK Ideograph>)";
" 4879	0x7302	猂 (<CJK Ideograph>)";
" 4880	0x74F1	瓱 (<CJK Ideograph>)";
" 4881	0x8CEB	賫 (<CJK Ideograph>)";
" 4882	0x24ABB	𤪻 (<CJK Ideograph Extension B>)";
" 4883	0x862F	蘯 (<CJK Ideograph>)";
" 4884	0x5FBA	徺 (<CJK Ideograph>)";
" 4885	0x88A0	袠 (<CJK Ideograph>)";
" 4886	0x44B7	䒷 (<CJK Ideograph Extension A>)";
" 4888	0x2183B	𡠻 (<CJK Ideograph Extension B>)";
" 4889	0x26E05	𦸅 (<CJK Ideograph Extension B>)";
" 4891	0x8A7E	詾 (<CJK Ideograph>)";
" 4892	0x2251B	𢔛 (<CJK Ideograph Extension B>)";
" 4894	0x60FD	惽 (<CJK Ideograph>)";
" 4895	0x7667	癧 (<CJK Ideograph>)";
" 4896	0x9AD7	髗 (<CJK Ideograph>)";
" 4897	0x9D44	鵄 (<CJK Ideograph>)";
" 4898	0x936E	鍮 (<CJK Ideograph>)";
" 4899	0x9B8F	鮏 (<CJK Ideograph>)";
" 4900	0x87F5	蟵 (<CJK Ideograph>)";
" 4902	0x880F	蠏 (<CJK Ideograph>)";
" 4903	0x8CF7	賷 (<CJK Ideograph>)";
" 4904	0x732C	猬 (<CJK Ideograph>)";
" 4905	0x9721	霡 (<CJK Ideograph>)";
" 4906	0x9BB0	鮰 (<CJK Ideograph>)";
" 4907	0x35D6	㗖 (<CJK Ideograph Extension A>)";
" 4908	0x72B2	犲 (<CJK Ideograph>)";
" 4909	0x4C07	䰇 (<CJK Ideograph Extension A>)";
" 4910	0x7C51	籑 (<CJK Ideograph>)";
" 4911	0x994A	饊 (<CJK Ideograph>)";
" 4912	0x26159	𦅙 (<CJK Ideograph Extension B>)";
" 4913	0x6159	慙 (<CJK Ideograph>)";
" 4914	0x4C04	䰄 (<CJK Ideograph Extension A>)";
" 4915	0x9E96	麖 (<CJK Ideograph>)";
" 4916	0x617D	慽 (<CJK Ideograph>)";
" 4918	0x575F	坟 (<CJK Ideograph>)";
" 4919	0x616F	慯 (<CJK Ideograph>)";
" 4920	0x62A6	抦 (<CJK Ideograph>)";
" 4921	0x6239	戹 (<CJK Ideograph>)";
" 4922	0x62CE	拎 (<CJK Ideograph>)";
" 4923	0x3A5C	㩜 (<CJK Ideograph Extension A>)";
" 4924	0x61E2	懢 (<CJK Ideograph>)";
" 4925	0x53AA	厪 (<CJK Ideograph>)";
" 4926	0x233F5	𣏵 (<CJK Ideograph Extension B>)";
" 4927	0x6364	捤 (<CJK Ideograph>)";
" 4928	0x6802	栂 (<CJK Ideograph>)";
" 4929	0x35D2	㗒 (<CJK Ideograph Extension A>)";
" 4930	0x5D57	嵗 (<CJK Ideograph>)";
" 4931	0x28BC2	𨯂 (<CJK Ideograph Extension B>)";
" 4932	0x8FDA	迚 (<CJK Ideograph>)";
" 4933	0x28E39	𨸹 (<CJK Ideograph Extension B>)";
" 4935	0x50D9	僙 (<CJK Ideograph>)";
" 4936	0x21D46	𡵆 (<CJK Ideograph Extension B>)";
" 4937	0x7906	礆 (<CJK Ideograph>)";
" 4938	0x5332	匲 (<CJK Ideograph>)";
" 4939	0x9638	阸 (<CJK Ideograph>)";
" 4940	0x20F3B	𠼻 (<CJK Ideograph Extension B>)";
" 4941	0x4065	䁥 (<CJK Ideograph Extension A>)";
" 4943	0x77FE	矾 (<CJK Ideograph>)";
" 4945	0x7CC2	糂 (<CJK Ideograph>)";
" 4946	0x25F1A	𥼚 (<CJK Ideograph Extension B>)";
" 4947	0x7CDA	糚 (<CJK Ideograph>)";
" 4948	0x7A2D	稭 (<CJK Ideograph>)";
" 4949	0x8066	聦 (<CJK Ideograph>)";
" 4950	0x8063	聣 (<CJK Ideograph>)";
" 4951	0x7D4D	絍 (<CJK Ideograph>)"
].
(* /repo/encoding_tables/whatwg/index-big5.txt:3841-4096 *)
Definition index_big5_txt_15 : list line := [
" 4952	0x7505	甅 (<CJK Ideograph>)";
" 4953	0x74F2	瓲 (<CJK Ideograph>)";
" 4954	0x8994	覔 (<CJK Ideograph>)";
" 4955	0x821A	舚 (<CJK Ideograph>)";
" 4956	0x670C	朌 (<CJK Ideograph>)";
" 4957	0x8062	聢 (<CJK Ideograph>)";
" 4958	0x27486	𧒆 (<CJK Ideograph Extension B>)";
" 4959	0x805B	聛 (<CJK Ideograph>)";
" 4960	0x74F0	瓰 (<CJK Ideograph>)";
" 4961	0x8103	脃 (<CJK Ideograph>)";
" 4962	0x7724	眤 (<CJK Ideograph>)";
" 4963	0x8989	覉 (<CJK Ideograph>)";
" 4964	0x267CC	𦟌 (<CJK Ideograph Extension B>)";
" 4965	0x7553	畓 (<CJK Ideograph>)";
" 4966	0x26ED1	𦻑 (<CJK Ideograph Extension B>)";
" 4967	0x87A9	螩 (<CJK Ideograph>)";
" 4968	0x87CE	蟎 (<CJK Ideograph>)";
" 4969	0x81C8	臈 (<CJK Ideograph>)";
" 4970	0x878C	螌 (<CJK Ideograph>)";
" 4971	0x8A49	詉 (<CJK Ideograph>)";
" 4972	0x8CAD	貭 (<CJK Ideograph>)";
" 4973	0x8B43	譃 (<CJK Ideograph>)";
" 4974	0x772B	眫 (<CJK Ideograph>)";
" 4975	0x74F8	瓸 (<CJK Ideograph>)";
" 4976	0x84DA	蓚 (<CJK Ideograph>)";
" 4977	0x3635	㘵 (<CJK Ideograph Extension A>)";
" 4978	0x69B2	榲 (<CJK Ideograph>)";
" 4979	0x8DA6	趦 (<CJK Ideograph>)";
" 4981	0x89A9	覩 (<CJK Ideograph>)";
" 4982	0x7468	瑨 (<CJK Ideograph>)";
" 4983	0x6DB9	涹 (<CJK Ideograph>)";
" 4984	0x87C1	蟁 (<CJK Ideograph>)";
" 4985	0x24011	𤀑 (<CJK Ideograph Extension B>)";
" 4986	0x74E7	瓧 (<CJK Ideograph>)";
" 4987	0x3DDB	㷛 (<CJK Ideograph Extension A>)";
" 4988	0x7176	煶 (<CJK Ideograph>)";
" 4989	0x60A4	悤 (<CJK Ideograph>)";
" 4990	0x619C	憜 (<CJK Ideograph>)";
" 4991	0x3CD1	㳑 (<CJK Ideograph Extension A>)";
" 4992	0x7162	煢 (<CJK Ideograph>)";
" 4993	0x6077	恷 (<CJK Ideograph>)";
" 4995	0x7F71	罱 (<CJK Ideograph>)";
" 4996	0x28B2D	𨬭 (<CJK Ideograph Extension B>)";
" 4997	0x7250	牐 (<CJK Ideograph>)";
" 4998	0x60E9	惩 (<CJK Ideograph>)";
" 4999	0x4B7E	䭾 (<CJK Ideograph Extension A>)";
" 5000	0x5220	删 (<CJK Ideograph>)";
" 5001	0x3C18	㰘 (<CJK Ideograph Extension A>)";
" 5002	0x23CC7	𣳇 (<CJK Ideograph Extension B>)";
" 5003	0x25ED7	𥻗 (<CJK Ideograph Extension B>)";
" 5004	0x27656	𧙖 (<CJK Ideograph Extension B>)";
" 5005	0x25531	𥔱 (<CJK Ideograph Extension B>)";
" 5006	0x21944	𡥄 (<CJK Ideograph Extension B>)";
" 5007	0x212FE	𡋾 (<CJK Ideograph Extension B>)";
" 5008	0x29903	𩤃 (<CJK Ideograph Extension B>)";
" 5009	0x26DDC	𦷜 (<CJK Ideograph Extension B>)";
" 5010	0x270AD	𧂭 (<CJK Ideograph Extension B>)";
" 5011	0x5CC1	峁 (<CJK Ideograph>)";
" 5012	0x261AD	𦆭 (<CJK Ideograph Extension B>)";
" 5013	0x28A0F	𨨏 (<CJK Ideograph Extension B>)";
" 5014	0x23677	𣙷 (<CJK Ideograph Extension B>)";
" 5015	0x200EE	𠃮 (<CJK Ideograph Extension B>)";
" 5016	0x26846	𦡆 (<CJK Ideograph Extension B>)";
" 5017	0x24F0E	𤼎 (<CJK Ideograph Extension B>)";
" 5018	0x4562	䕢 (<CJK Ideograph Extension A>)";
" 5019	0x5B1F	嬟 (<CJK Ideograph>)";
" 5020	0x2634C	𦍌 (<CJK Ideograph Extension B>)";
" 5021	0x9F50	齐 (<CJK Ideograph>)";
" 5022	0x9EA6	麦 (<CJK Ideograph>)";
" 5023	0x2626B	𦉫 (<CJK Ideograph Extension B>)";
" 5024	0x3000	　 (IDEOGRAPHIC SPACE)";
" 5025	0xFF0C	， (FULLWIDTH COMMA)";
" 5026	0x3001	、 (IDEOGRAPHIC COMMA)";
" 5027	0x3002	。 (IDEOGRAPHIC FULL STOP)";
" 5028	0xFF0E	． (FULLWIDTH FULL STOP)";
" 5029	0x2027	‧ (HYPHENATION POINT)";
" 5030	0xFF1B	； (FULLWIDTH SEMICOLON)";
" 5031	0xFF1A	： (FULLWIDTH COLON)";
" 5032	0xFF1F	？ (FULLWIDTH QUESTION MARK)";
" 5033	0xFF01	！ (FULLWIDTH EXCLAMATION MARK)";
" 5034	0xFE30	︰ (PRESENTATION FORM FOR VERTICAL TWO DOT LEADER)";
" 5035	0x2026	… (HORIZONTAL ELLIPSIS)";
" 5036	0x2025	‥ (TWO DOT LEADER)";
" 5037	0xFE50	﹐ (SMALL COMMA)";
" 5038	0xFE51	﹑ (SMALL IDEOGRAPHIC COMMA)";
" 5039	0xFE52	﹒ (SMALL FULL STOP)";
" 5040	0x00B7	· (MIDDLE DOT)";
" 5041	0xFE54	﹔ (SMALL SEMICOLON)";
" 5042	0xFE55	﹕ (SMALL COLON)";
" 5043	0xFE56	﹖ (SMALL QUESTION MARK)";
" 5044	0xFE57	﹗ (SMALL EXCLAMATION MARK)";
" 5045	0xFF5C	｜ (FULLWIDTH VERTICAL LINE)";
" 5046	0x2013	– (EN DASH)";
" 5047	0xFE31	︱ (PRESENTATION FORM FOR VERTICAL EM DASH)";
" 5048	0x2014	— (EM DASH)";
" 5049	0xFE33	︳ (PRESENTATION FORM FOR VERTICAL LOW LINE)";
" 5050	0x2574	╴ (BOX DRAWINGS LIGHT LEFT)";
" 5051	0xFE34	︴ (PRESENTATION FORM FOR VERTICAL WAVY LOW LINE)";
" 5052	0xFE4F	﹏ (WAVY LOW LINE)";
" 5053	0xFF08	（ (FULLWIDTH LEFT PARENTHESIS)";
" 5054	0xFF09	） (FULLWIDTH RIGHT PARENTHESIS)";
" 5055	0xFE35	︵ (PRESENTATION FORM FOR VERTICAL LEFT PARENTHESIS)";
" 5056	0xFE36	︶ (PRESENTATION FORM FOR VERTICAL RIGHT PARENTHESIS)";
" 5057	0xFF5B	｛ (FULLWIDTH LEFT CURLY BRACKET)";
" 5058	0xFF5D	｝ (FULLWIDTH RIGHT CURLY BRACKET)";
" 5059	0xFE37	︷ (PRESENTATION FORM FOR VERTICAL LEFT CURLY BRACKET)";
" 5060	0xFE38	︸ (PRESENTATION FORM FOR VERTICAL RIGHT CURLY BRACKET)";
" 5061	0x3014	〔 (LEFT TORTOISE SHELL BRACKET)";
" 5062	0x3015	〕 (RIGHT TORTOISE SHELL BRACKET)";
" 5063	0xFE39	︹ (PRESENTATION FORM FOR VERTICAL LEFT TORTOISE SHELL BRACKET)";
" 5064	0xFE3A	︺ (PRESENTATION FORM FOR VERTICAL RIGHT TORTOISE SHELL BRACKET)";
" 5065	0x3010	【 (LEFT BLACK LENTICULAR BRACKET)";
" 5066	0x3011	】 (RIGHT BLACK LENTICULAR BRACKET)";
" 5067	0xFE3B	︻ (PRESENTATION FORM FOR VERTICAL LEFT BLACK LENTICULAR BRACKET)";
" 5068	0xFE3C	︼ (PRESENTATION FORM FOR VERTICAL RIGHT BLACK LENTICULAR BRACKET)";
" 5069	0x300A	《 (LEFT DOUBLE ANGLE BRACKET)";
" 5070	0x300B	》 (RIGHT DOUBLE ANGLE BRACKET)";
" 5071	0xFE3D	︽ (PRESENTATION FORM FOR VERTICAL LEFT DOUBLE ANGLE BRACKET)";
" 5072	0xFE3E	︾ (PRESENTATION FORM FOR VERTICAL RIGHT DOUBLE ANGLE BRACKET)";
" 5073	0x3008	〈 (LEFT ANGLE BRACKET)";
" 5074	0x3009	〉 (RIGHT ANGLE BRACKET)";
" 5075	0xFE3F	︿ (PRESENTATION FORM FOR VERTICAL LEFT ANGLE BRACKET)";
" 5076	0xFE40	﹀ (PRESENTATION FORM FOR VERTICAL RIGHT ANGLE BRACKET)";
" 5077	0x300C	「 (LEFT CORNER BRACKET)";
" 5078	0x300D	」 (RIGHT CORNER BRACKET)";
" 5079	0xFE41	﹁ (PRESENTATION FORM FOR VERTICAL LEFT CORNER BRACKET)";
" 5080	0xFE42	﹂ (PRESENTATION FORM FOR VERTICAL RIGHT CORNER BRACKET)";
" 5081	0x300E	『 (LEFT WHITE CORNER BRACKET)";
" 5082	0x300F	』 (RIGHT WHITE CORNER BRACKET)";
" 5083	0xFE43	﹃ (PRESENTATION FORM FOR VERTICAL LEFT WHITE CORNER BRACKET)";
" 5084	0xFE44	﹄ (PRESENTATION FORM FOR VERTICAL RIGHT WHITE CORNER BRACKET)";
" 5085	0xFE59	﹙ (SMALL LEFT PARENTHESIS)";
" 5086	0xFE5A	﹚ (SMALL RIGHT PARENTHESIS)";
" 5087	0xFE5B	﹛ (SMALL LEFT CURLY BRACKET)";
" 5088	0xFE5C	﹜ (SMALL RIGHT CURLY BRACKET)";
" 5089	0xFE5D	﹝ (SMALL LEFT TORTOISE SHELL BRACKET)";
" 5090	0xFE5E	﹞ (SMALL RIGHT TORTOISE SHELL BRACKET)";
" 5091	0x2018	‘ (LEFT SINGLE QUOTATION MARK)";
" 5092	0x2019	’ (RIGHT SINGLE QUOTATION MARK)";
" 5093	0x201C	“ (LEFT DOUBLE QUOTATION MARK)";
" 5094	0x201D	” (RIGHT DOUBLE QUOTATION MARK)";
" 5095	0x301D	〝 (REVERSED DOUBLE PRIME QUOTATION MARK)";
" 5096	0x301E	〞 (DOUBLE PRIME QUOTATION MARK)";
" 5097	0x2035	‵ (REVERSED PRIME)";
" 5098	0x2032	′ (PRIME)";
" 5099	0xFF03	＃ (FULLWIDTH NUMBER SIGN)";
" 5100	0xFF06	＆ (FULLWIDTH AMPERSAND)";
" 5101	0xFF0A	＊ (FULLWIDTH ASTERISK)";
" 5102	0x203B	※ (REFERENCE MARK)";
" 5103	0x00A7	§ (SECTION SIGN)";
" 5104	0x3003	〃 (DITTO MARK)";
" 5105	0x25CB	○ (WHITE CIRCLE)";
" 5106	0x25CF	● (BLACK CIRCLE)";
" 5107	0x25B3	△ (WHITE UP-POINTING TRIANGLE)";
" 5108	0x25B2	▲ (BLACK UP-POINTING TRIANGLE)";
" 5109	0x25CE	◎ (BULLSEYE)";
" 5110	0x2606	☆ (WHITE STAR)";
" 5111	0x2605	★ (BLACK STAR)";
" 5112	0x25C7	◇ (WHITE DIAMOND)";
" 5113	0x25C6	◆ (BLACK DIAMOND)";
" 5114	0x25A1	□ (WHITE SQUARE)";
" 5115	0x25A0	■ (BLACK SQUARE)";
" 5116	0x25BD	▽ (WHITE DOWN-POINTING TRIANGLE)";
" 5117	0x25BC	▼ (BLACK DOWN-POINTING TRIANGLE)";
" 5118	0x32A3	㊣ (CIRCLED IDEOGRAPH CORRECT)";
" 5119	0x2105	℅ (CARE OF)";
" 5120	0x00AF	¯ (MACRON)";
" 5121	0xFFE3	￣ (FULLWIDTH MACRON)";
" 5122	0xFF3F	＿ (FULLWIDTH LOW LINE)";
" 5123	0x02CD	ˍ (MODIFIER LETTER LOW MACRON)";
" 5124	0xFE49	﹉ (DASHED OVERLINE)";
" 5125	0xFE4A	﹊ (CENTRELINE OVERLINE)";
" 5126	0xFE4D	﹍ (DASHED LOW LINE)";
" 5127	0xFE4E	﹎ (CENTRELINE LOW LINE)";
" 5128	0xFE4B	﹋ (WAVY OVERLINE)";
" 5129	0xFE4C	﹌ (DOUBLE WAVY OVERLINE)";
" 5130	0xFE5F	﹟ (SMALL NUMBER SIGN)";
" 5131	0xFE60	﹠ (SMALL AMPERSAND)";
" 5132	0xFE61	﹡ (SMALL ASTERISK)";
" 5133	0xFF0B	＋ (FULLWIDTH PLUS SIGN)";
" 5134	0xFF0D	－ (FULLWIDTH HYPHEN-MINUS)";
" 5135	0x00D7	× (MULTIPLICATION SIGN)";
" 5136	0x00F7	÷ (DIVISION SIGN)";
" 5137	0x00B1	± (PLUS-MINUS SIGN)";
" 5138	0x221A	√ (SQUARE ROOT)";
" 5139	0xFF1C	＜ (FULLWIDTH LESS-THAN SIGN)";
" 5140	0xFF1E	＞ (FULLWIDTH GREATER-THAN SIGN)";
" 5141	0xFF1D	＝ (FULLWIDTH EQUALS SIGN)";
" 5142	0x2266	≦ (LESS-THAN OVER EQUAL TO)";
" 5143	0x2267	≧ (GREATER-THAN OVER EQUAL TO)";
" 5144	0x2260	≠ (NOT EQUAL TO)";
" 5145	0x221E	∞ (INFINITY)";
" 5146	0x2252	≒ (APPROXIMATELY EQUAL TO OR THE IMAGE OF)";
" 5147	0x2261	≡ (IDENTICAL TO)";
" 5148	0xFE62	﹢ (SMALL PLUS SIGN)";
" 5149	0xFE63	﹣ (SMALL HYPHEN-MINUS)";
" 5150	0xFE64	﹤ (SMALL LESS-THAN SIGN)";
" 5151	0xFE65	﹥ (SMALL GREATER-THAN SIGN)";
" 5152	0xFE66	﹦ (SMALL EQUALS SIGN)";
" 5153	0xFF5E	～ (FULLWIDTH TILDE)";
" 5154	0x2229	∩ (INTERSECTION)";
" 5155	0x222A	∪ (UNION)";
" 5156	0x22A5	⊥ (UP TACK)";
" 5157	0x2220	∠ (ANGLE)";
" 5158	0x221F	∟ (RIGHT ANGLE)";
" 5159	0x22BF	⊿ (RIGHT TRIANGLE)";
" 5160	0x33D2	㏒ (SQUARE LOG)";
" 5161	0x33D1	㏑ (SQUARE LN)";
" 5162	0x222B	∫ (INTEGRAL)";
" 5163	0x222E	∮ (CONTOUR INTEGRAL)";
" 5164	0x2235	∵ (BECAUSE)";
" 5165	0x2234	∴ (THEREFORE)";
" 5166	0x2640	♀ (FEMALE SIGN)";
" 5167	0x2642	♂ (MALE SIGN)";
" 5168	0x2295	⊕ (CIRCLED PLUS)";
" 5169	0x2299	⊙ (CIRCLED DOT OPERATOR)";
" 5170	0x2191	↑ (UPWARDS ARROW)";
" 5171	0x2193	↓ (DOWNWARDS ARROW)";
" 5172	0x2190	← (LEFTWARDS ARROW)";
" 5173	0x2192	→ (RIGHTWARDS ARROW)";
" 5174	0x2196	↖ (NORTH WEST ARROW)";
" 5175	0x2197	↗ (NORTH EAST ARROW)";
" 5176	0x2199	↙ (SOUTH WEST ARROW)";
" 5177	0x2198	↘ (SOUTH EAST ARROW)";
" 5178	0x2225	∥ (PARALLEL TO)";
" 5179	0x2223	∣ (DIVIDES)";
" 5180	0xFF0F	／ (FULLWIDTH SOLIDUS)";
" 5181	0xFF3C	＼ (FULLWIDTH REVERSE SOLIDUS)";
" 5182	0x2215	∕ (DIVISION SLASH)";
" 5183	0xFE68	﹨ (SMALL REVERSE SOLIDUS)";
" 5184	0xFF04	＄ (FULLWIDTH DOLLAR SIGN)";
" 5185	0xFFE5	￥ (FULLWIDTH YEN SIGN)";
" 5186	0x3012	〒 (POSTAL MARK)";
" 5187	0xFFE0	￠ (FULLWIDTH CENT SIGN)";
" 5188	0xFFE1	￡ (FULLWIDTH POUND SIGN)";
" 5189	0xFF05	％ (FULLWIDTH PERCENT SIGN)";
" 5190	0xFF20	＠ (FULLWIDTH COMMERCIAL AT)";
" 5191	0x2103	℃ (DEGREE CELSIUS)";
" 5192	0x2109	℉ (DEGREE FAHRENHEIT)";
" 5193	0xFE69	﹩ (SMALL DOLLAR SIGN)";
" 5194	0xFE6A	﹪ (SMALL PERCENT SIGN)";
" 5195	0xFE6B	﹫ (SMALL COMMERCIAL AT)";
" 5196	0x33D5	㏕ (SQUARE MIL)";
" 5197	0x339C	㎜ (SQUARE MM)";
" 5198	0x339D	㎝ (SQUARE CM)";
" 5199	0x339E	㎞ (SQUARE KM)";
" 5200	0x33CE	㏎ (SQUARE KM CAPITAL)";
" 5201	0x33A1	㎡ (SQUARE M SQUARED)";
" 5202	0x338E	㎎ (SQUARE MG)";
" 5203	0x338F	㎏ (SQUARE KG)";
" 5204	0x33C4	㏄ (SQUARE CC)";
" 5205	0x00B0	° (DEGREE SIGN)";
" 5206	0x5159	兙 (<CJK Ideograph>)";
" 5207	0x515B	兛 (<CJK Ideograph>)";
" 5208	0x515E	兞 (<CJK Ideograph>)";
" 5209	0x515D	兝 (<CJK Ideograph>)"
].
(* /repo/encoding_tables/whatwg/index-big5.txt:4097-4352 *)
Definition index_big5_txt_16 : list line := [
" 5210	0x5161	兡 (<CJK Ideograph>)";
" 5211	0x5163	兣 (<CJK Ideograph>)";
" 5212	0x55E7	嗧 (<CJK Ideograph>)";
" 5213	0x74E9	瓩 (<CJK Ideograph>)";
" 5214	0x7CCE	糎 (<CJK Ideograph>)";
" 5215	0x2581	▁ (LOWER ONE EIGHTH BLOCK)";
" 5216	0x2582	▂ (LOWER ONE QUARTER BLOCK)";
" 5217	0x2583	▃ (LOWER THREE EIGHTHS BLOCK)";
" 5218	0x2584	▄ (LOWER HALF BLOCK)";
" 5219	0x2585	▅ (LOWER FIVE EIGHTHS BLOCK)";
" 5220	0x2586	▆ (LOWER THREE QUARTERS BLOCK)";
" 5221	0x2587	▇ (LOWER SEVEN EIGHTHS BLOCK)";
" 5222	0x2588	█ (FULL BLOCK)";
" 5223	0x258F	▏ (LEFT ONE EIGHTH BLOCK)";
" 5224	0x258E	▎ (LEFT ONE QUARTER BLOCK)";
" 5225	0x258D	▍ (LEFT THREE EIGHTHS BLOCK)";
" 5226	0x258C	▌ (LEFT HALF BLOCK)";
" 5227	0x258B	▋ (LEFT FIVE EIGHTHS BLOCK)";
" 5228	0x258A	▊ (LEFT THREE QUARTERS BLOCK)";
" 5229	0x2589	▉ (LEFT SEVEN EIGHTHS BLOCK)";
" 5230	0x253C	┼ (BOX DRAWINGS LIGHT VERTICAL AND HORIZONTAL)";
" 5231	0x2534	┴ (BOX DRAWINGS LIGHT UP AND HORIZONTAL)";
" 5232	0x252C	┬ (BOX DRAWINGS LIGHT DOWN AND HORIZONTAL)";
" 5233	0x2524	┤ (BOX DRAWINGS LIGHT VERTICAL AND LEFT)";
" 5234	0x251C	├ (BOX DRAWINGS LIGHT VERTICAL AND RIGHT)";
" 5235	0x2594	▔ (UPPER ONE EIGHTH BLOCK)";
" 5236	0x2500	─ (BOX DRAWINGS LIGHT HORIZONTAL)";
" 5237	0x2502	│ (BOX DRAWINGS LIGHT VERTICAL)";
" 5238	0x2595	▕ (RIGHT ONE EIGHTH BLOCK)";
" 5239	0x250C	┌ (BOX DRAWINGS LIGHT DOWN AND RIGHT)";
" 5240	0x2510	┐ (BOX DRAWINGS LIGHT DOWN AND LEFT)";
" 5241	0x2514	└ (BOX DRAWINGS LIGHT UP AND RIGHT)";
" 5242	0x2518	┘ (BOX DRAWINGS LIGHT UP AND LEFT)";
" 5243	0x256D	╭ (BOX DRAWINGS LIGHT ARC DOWN AND RIGHT)";
" 5244	0x256E	╮ (BOX DRAWINGS LIGHT ARC DOWN AND LEFT)";
" 5245	0x2570	╰ (BOX DRAWINGS LIGHT ARC UP AND RIGHT)";
" 5246	0x256F	╯ (BOX DRAWINGS LIGHT ARC UP AND LEFT)";
" 5247	0x2550	═ (BOX DRAWINGS DOUBLE HORIZONTAL)";
" 5248	0x255E	╞ (BOX DRAWINGS VERTICAL SINGLE AND RIGHT DOUBLE)";
" 5249	0x256A	╪ (BOX DRAWINGS VERTICAL SINGLE AND HORIZONTAL DOUBLE)";
" 5250	0x2561	╡ (BOX DRAWINGS VERTICAL SINGLE AND LEFT DOUBLE)";
" 5251	0x25E2	◢ (BLACK LOWER RIGHT TRIANGLE)";
" 5252	0x25E3	◣ (BLACK LOWER LEFT TRIANGLE)";
" 5253	0x25E5	◥ (BLACK UPPER RIGHT TRIANGLE)";
" 5254	0x25E4	◤ (BLACK UPPER LEFT TRIANGLE)";
" 5255	0x2571	╱ (BOX DRAWINGS LIGHT DIAGONAL UPPER RIGHT TO LOWER LEFT)";
" 5256	0x2572	╲ (BOX DRAWINGS LIGHT DIAGONAL UPPER LEFT TO LOWER RIGHT)";
" 5257	0x2573	╳ (BOX DRAWINGS LIGHT DIAGONAL CROSS)";
" 5258	0xFF10	０ (FULLWIDTH DIGIT ZERO)";
" 5259	0xFF11	１ (FULLWIDTH DIGIT ONE)";
" 5260	0xFF12	２ (FULLWIDTH DIGIT TWO)";
" 5261	0xFF13	３ (FULLWIDTH DIGIT THREE)";
" 5262	0xFF14	４ (FULLWIDTH DIGIT FOUR)";
" 5263	0xFF15	５ (FULLWIDTH DIGIT FIVE)";
" 5264	0xFF16	６ (FULLWIDTH DIGIT SIX)";
" 5265	0xFF17	７ (FULLWIDTH DIGIT SEVEN)";
" 5266	0xFF18	８ (FULLWIDTH DIGIT EIGHT)";
" 5267	0xFF19	９ (FULLWIDTH DIGIT NINE)";
" 5268	0x2160	Ⅰ (ROMAN NUMERAL ONE)";
" 5269	0x2161	Ⅱ (ROMAN NUMERAL TWO)";
" 5270	0x2162	Ⅲ (ROMAN NUMERAL THREE)";
" 5271	0x2163	Ⅳ (ROMAN NUMERAL FOUR)";
" 5272	0x2164	Ⅴ (ROMAN NUMERAL FIVE)";
" 5273	0x2165	Ⅵ (ROMAN NUMERAL SIX)";
" 5274	0x2166	Ⅶ (ROMAN NUMERAL SEVEN)";
" 5275	0x2167	Ⅷ (ROMAN NUMERAL EIGHT)";
" 5276	0x2168	Ⅸ (ROMAN NUMERAL NINE)";
" 5277	0x2169	Ⅹ (ROMAN NUMERAL TEN)";
" 5278	0x3021	〡 (HANGZHOU NUMERAL ONE)";
" 5279	0x3022	〢 (HANGZHOU NUMERAL TWO)";
" 5280	0x3023	〣 (HANGZHOU NUMERAL THREE)";
" 5281	0x3024	〤 (HANGZHOU NUMERAL FOUR)";
" 5282	0x3025	〥 (HANGZHOU NUMERAL FIVE)";
" 5283	0x3026	〦 (HANGZHOU NUMERAL SIX)";
" 5284	0x3027	〧 (HANGZHOU NUMERAL SEVEN)";
" 5285	0x3028	〨 (HANGZHOU NUMERAL EIGHT)";
" 5286	0x3029	〩 (HANGZHOU NUMERAL NINE)";
" 5287	0x5341	十 (<CJK Ideograph>)";
" 5288	0x5344	卄 (<CJK Ideograph>)";
" 5289	0x5345	卅 (<CJK Ideograph>)";
" 5290	0xFF21	Ａ (FULLWIDTH LATIN CAPITAL LETTER A)";
" 5291	0xFF22	Ｂ (FULLWIDTH LATIN CAPITAL LETTER B)";
" 5292	0xFF23	Ｃ (FULLWIDTH LATIN CAPITAL LETTER C)";
" 5293	0xFF24	Ｄ (FULLWIDTH LATIN CAPITAL LETTER D)";
" 5294	0xFF25	Ｅ (FULLWIDTH LATIN CAPITAL LETTER E)";
" 5295	0xFF26	Ｆ (FULLWIDTH LATIN CAPITAL LETTER F)";
" 5296	0xFF27	Ｇ (FULLWIDTH LATIN CAPITAL LETTER G)";
" 5297	0xFF28	Ｈ (FULLWIDTH LATIN CAPITAL LETTER H)";
" 5298	0xFF29	Ｉ (FULLWIDTH LATIN CAPITAL LETTER I)";
" 5299	0xFF2A	Ｊ (FULLWIDTH LATIN CAPITAL LETTER J)";
" 5300	0xFF2B	Ｋ (FULLWIDTH LATIN CAPITAL LETTER K)";
" 5301	0xFF2C	Ｌ (FULLWIDTH LATIN CAPITAL LETTER L)";
" 5302	0xFF2D	Ｍ (FULLWIDTH LATIN CAPITAL LETTER M)";
" 5303	0xFF2E	Ｎ (FULLWIDTH LATIN CAPITAL LETTER N)";
" 5304	0xFF2F	Ｏ (FULLWIDTH LATIN CAPITAL LETTER O)";
" 5305	0xFF30	Ｐ (FULLWIDTH LATIN CAPITAL LETTER P)";
" 5306	0xFF31	Ｑ (FULLWIDTH LATIN CAPITAL LETTER Q)";
" 5307	0xFF32	Ｒ (FULLWIDTH LATIN CAPITAL LETTER R)";
" 5308	0xFF33	Ｓ (FULLWIDTH LATIN CAPITAL LETTER S)";
" 5309	0xFF34	Ｔ (FULLWIDTH LATIN CAPITAL LETTER T)";
" 5310	0xFF35	Ｕ (FULLWIDTH LATIN CAPITAL LETTER U)";
" 5311	0xFF36	Ｖ (FULLWIDTH LATIN CAPITAL LETTER V)";
" 5312	0xFF37	Ｗ (FULLWIDTH LATIN CAPITAL LETTER W)";
" 5313	0xFF38	Ｘ (FULLWIDTH LATIN CAPITAL LETTER X)";
" 5314	0xFF39	Ｙ (FULLWIDTH LATIN CAPITAL LETTER Y)";
" 5315	0xFF3A	Ｚ (FULLWIDTH LATIN CAPITAL LETTER Z)";
" 5316	0xFF41	ａ (FULLWIDTH LATIN SMALL LETTER A)";
" 5317	0xFF42	ｂ (FULLWIDTH LATIN SMALL LETTER B)";
" 5318	0xFF43	ｃ (FULLWIDTH LATIN SMALL LETTER C)";
" 5319	0xFF44	ｄ (FULLWIDTH LATIN SMALL LETTER D)";
" 5320	0xFF45	ｅ (FULLWIDTH LATIN SMALL LETTER E)";
" 5321	0xFF46	ｆ (FULLWIDTH LATIN SMALL LETTER F)";
" 5322	0xFF47	ｇ (FULLWIDTH LATIN SMALL LETTER G)";
" 5323	0xFF48	ｈ (FULLWIDTH LATIN SMALL LETTER H)";
" 5324	0xFF49	ｉ (FULLWIDTH LATIN SMALL LETTER I)";
" 5325	0xFF4A	ｊ (FULLWIDTH LATIN SMALL LETTER J)";
" 5326	0xFF4B	ｋ (FULLWIDTH LATIN SMALL LETTER K)";
" 5327	0xFF4C	ｌ (FULLWIDTH LATIN SMALL LETTER L)";
" 5328	0xFF4D	ｍ (FULLWIDTH LATIN SMALL LETTER M)";
" 5329	0xFF4E	ｎ (FULLWIDTH LATIN SMALL LETTER N)";
" 5330	0xFF4F	ｏ (FULLWIDTH LATIN SMALL LETTER O)";
" 5331	0xFF50	ｐ (FULLWIDTH LATIN SMALL LETTER P)";
" 5332	0xFF51	ｑ (FULLWIDTH LATIN SMALL LETTER Q)";
" 5333	0xFF52	ｒ (FULLWIDTH LATIN SMALL LETTER R)";
" 5334	0xFF53	ｓ (FULLWIDTH LATIN SMALL LETTER S)";
" 5335	0xFF54	ｔ (FULLWIDTH LATIN SMALL LETTER T)";
" 5336	0xFF55	ｕ (FULLWIDTH LATIN SMALL LETTER U)";
" 5337	0xFF56	ｖ (FULLWIDTH LATIN SMALL LETTER V)";
" 5338	0xFF57	ｗ (FULLWIDTH LATIN SMALL LETTER W)";
" 5339	0xFF58	ｘ (FULLWIDTH LATIN SMALL LETTER X)";
" 5340	0xFF59	ｙ (FULLWIDTH LATIN SMALL LETTER Y)";
" 5341	0xFF5A	ｚ (FULLWIDTH LATIN SMALL LETTER Z)";
" 5342	0x0391	Α (GREEK CAPITAL LETTER ALPHA)";
" 5343	0x0392	Β (GREEK CAPITAL LETTER BETA)";
" 5344	0x0393	Γ (GREEK CAPITAL LETTER GAMMA)";
" 5345	0x0394	Δ (GREEK CAPITAL LETTER DELTA)";
" 5346	0x0395	Ε (GREEK CAPITAL LETTER EPSILON)";
" 5347	0x0396	Ζ (GREEK CAPITAL LETTER ZETA)";
" 5348	0x0397	Η (GREEK CAPITAL LETTER ETA)";
" 5349	0x0398	Θ (GREEK CAPITAL LETTER THETA)";
" 5350	0x0399	Ι (GREEK CAPITAL LETTER IOTA)";
" 5351	0x039A	Κ (GREEK CAPITAL LETTER KAPPA)";
" 5352	0x039B	Λ (GREEK CAPITAL LETTER LAMDA)";
" 5353	0x039C	Μ (GREEK CAPITAL LETTER MU)";
" 5354	0x039D	Ν (GREEK CAPITAL LETTER NU)";
" 5355	0x039E	Ξ (GREEK CAPITAL LETTER XI)";
" 5356	0x039F	Ο (GREEK CAPITAL LETTER OMICRON)";
" 5357	0x03A0	Π (GREEK CAPITAL LETTER PI)";
" 5358	0x03A1	Ρ (GREEK CAPITAL LETTER RHO)";
" 5359	0x03A3	Σ (GREEK CAPITAL LETTER SIGMA)";
" 5360	0x03A4	Τ (GREEK CAPITAL LETTER TAU)";
" 5361	0x03A5	Υ (GREEK CAPITAL LETTER UPSILON)";
" 5362	0x03A6	Φ (GREEK CAPITAL LETTER PHI)";
" 5363	0x03A7	Χ (GREEK CAPITAL LETTER CHI)";
" 5364	0x03A8	Ψ (GREEK CAPITAL LETTER PSI)";
" 5365	0x03A9	Ω (GREEK CAPITAL LETTER OMEGA)";
" 5366	0x03B1	α (GREEK SMALL LETTER ALPHA)";
" 5367	0x03B2	β (GREEK SMALL LETTER BETA)";
" 5368	0x03B3	γ (GREEK SMALL LETTER GAMMA)";
" 5369	0x03B4	δ (GREEK SMALL LETTER DELTA)";
" 5370	0x03B5	ε (GREEK SMALL LETTER EPSILON)";
" 5371	0x03B6	ζ (GREEK SMALL LETTER ZETA)";
" 5372	0x03B7	η (GREEK SMALL LETTER ETA)";
" 5373	0x03B8	θ (GREEK SMALL LETTER THETA)";
" 5374	0x03B9	ι (GREEK SMALL LETTER IOTA)";
" 5375	0x03BA	κ (GREEK SMALL LETTER KAPPA)";
" 5376	0x03BB	λ (GREEK SMALL LETTER LAMDA)";
" 5377	0x03BC	μ (GREEK SMALL LETTER MU)";
" 5378	0x03BD	ν (GREEK SMALL LETTER NU)";
" 5379	0x03BE	ξ (GREEK SMALL LETTER XI)";
" 5380	0x03BF	ο (GREEK SMALL LETTER OMICRON)";
" 5381	0x03C0	π (GREEK SMALL LETTER PI)";
" 5382	0x03C1	ρ (GREEK SMALL LETTER RHO)";
" 5383	0x03C3	σ (GREEK SMALL LETTER SIGMA)";
" 5384	0x03C4	τ (GREEK SMALL LETTER TAU)";
" 5385	0x03C5	υ (GREEK SMALL LETTER UPSILON)";
" 5386	0x03C6	φ (GREEK SMALL LETTER PHI)";
" 5387	0x03C7	χ (GREEK SMALL LETTER CHI)";
" 5388	0x03C8	ψ (GREEK SMALL LETTER PSI)";
" 5389	0x03C9	ω (GREEK SMALL LETTER OMEGA)";
" 5390	0x3105	ㄅ (BOPOMOFO LETTER B)";
" 5391	0x3106	ㄆ (BOPOMOFO LETTER P)";
" 5392	0x3107	ㄇ (BOPOMOFO LETTER M)";
" 5393	0x3108	ㄈ (BOPOMOFO LETTER F)";
" 5394	0x3109	ㄉ (BOPOMOFO LETTER D)";
" 5395	0x310A	ㄊ (BOPOMOFO LETTER T)";
" 5396	0x310B	ㄋ (BOPOMOFO LETTER N)";
" 5397	0x310C	ㄌ (BOPOMOFO LETTER L)";
" 5398	0x310D	ㄍ (BOPOMOFO LETTER G)";
" 5399	0x310E	ㄎ (BOPOMOFO LETTER K)";
" 5400	0x310F	ㄏ (BOPOMOFO LETTER H)";
" 5401	0x3110	ㄐ (BOPOMOFO LETTER J)";
" 5402	0x3111	ㄑ (BOPOMOFO LETTER Q)";
" 5403	0x3112	ㄒ (BOPOMOFO LETTER X)";
" 5404	0x3113	ㄓ (BOPOMOFO LETTER ZH)";
" 5405	0x3114	ㄔ (BOPOMOFO LETTER CH)";
" 5406	0x3115	ㄕ (BOPOMOFO LETTER SH)";
" 5407	0x3116	ㄖ (BOPOMOFO LETTER R)";
" 5408	0x3117	ㄗ (BOPOMOFO LETTER Z)";
" 5409	0x3118	ㄘ (BOPOMOFO LETTER C)";
" 5410	0x3119	ㄙ (BOPOMOFO LETTER S)";
" 5411	0x311A	ㄚ (BOPOMOFO LETTER A)";
" 5412	0x311B	ㄛ (BOPOMOFO LETTER O)";
" 5413	0x311C	ㄜ (BOPOMOFO LETTER E)";
" 5414	0x311D	ㄝ (BOPOMOFO LETTER EH)";
" 5415	0x311E	ㄞ (BOPOMOFO LETTER AI)";
" 5416	0x311F	ㄟ (BOPOMOFO LETTER EI)";
" 5417	0x3120	ㄠ (BOPOMOFO LETTER AU)";
" 5418	0x3121	ㄡ (BOPOMOFO LETTER OU)";
" 5419	0x3122	ㄢ (BOPOMOFO LETTER AN)";
" 5420	0x3123	ㄣ (BOPOMOFO LETTER EN)";
" 5421	0x3124	ㄤ (BOPOMOFO LETTER ANG)";
" 5422	0x3125	ㄥ (BOPOMOFO LETTER ENG)";
" 5423	0x3126	ㄦ (BOPOMOFO LETTER ER)";
" 5424	0x3127	ㄧ (BOPOMOFO LETTER I)";
" 5425	0x3128	ㄨ (BOPOMOFO LETTER U)";
" 5426	0x3129	ㄩ (BOPOMOFO LETTER IU)";
" 5427	0x02D9	˙ (DOT ABOVE)";
" 5428	0x02C9	ˉ (MODIFIER LETTER MACRON)";
" 5429	0x02CA	ˊ (MODIFIER LETTER ACUTE ACCENT)";
" 5430	0x02C7	ˇ (CARON)";
" 5431	0x02CB	ˋ (MODIFIER LETTER GRAVE ACCENT)";
" 5432	0x2400	␀ (SYMBOL FOR NULL)";
" 5433	0x2401	␁ (SYMBOL FOR START OF HEADING)";
" 5434	0x2402	␂ (SYMBOL FOR START OF TEXT)";
" 5435	0x2403	␃ (SYMBOL FOR END OF TEXT)";
" 5436	0x2404	␄ (SYMBOL FOR END OF TRANSMISSION)";
" 5437	0x2405	␅ (SYMBOL FOR ENQUIRY)";
" 5438	0x2406	␆ (SYMBOL FOR ACKNOWLEDGE)";
" 5439	0x2407	␇ (SYMBOL FOR BELL)";
" 5440	0x2408	␈ (SYMBOL FOR BACKSPACE)";
" 5441	0x2409	␉ (SYMBOL FOR HORIZONTAL TABULATION)";
" 5442	0x240A	␊ (SYMBOL FOR LINE FEED)";
" 5443	0x240B	␋ (SYMBOL FOR VERTICAL TABULATION)";
" 5444	0x240C	␌ (SYMBOL FOR FORM FEED)";
" 5445	0x240D	␍ (SYMBOL FOR CARRIAGE RETURN)";
" 5446	0x240E	␎ (SYMBOL FOR SHIFT OUT)";
" 5447	0x240F	␏ (SYMBOL FOR SHIFT IN)";
" 5448	0x2410	␐ (SYMBOL FOR DATA LINK ESCAPE)";
" 5449	0x2411	␑ (SYMBOL FOR DEVICE CONTROL ONE)";
" 5450	0x2412	␒ (SYMBOL FOR DEVICE CONTROL TWO)";
" 5451	0x2413	␓ (SYMBOL FOR DEVICE CONTROL THREE)";
" 5452	0x2414	␔ (SYMBOL FOR DEVICE CONTROL FOUR)";
" 5453	0x2415	␕ (SYMBOL FOR NEGATIVE ACKNOWLEDGE)";
" 5454	0x2416	␖ (SYMBOL FOR SYNCHRONOUS IDLE)";
" 5455	0x2417	␗ (SYMBOL FOR END OF TRANSMISSION BLOCK)";
" 5456	0x2418	␘ (SYMBOL FOR CANCEL)";
" 5457	0x2419	␙ (SYMBOL FOR END OF MEDIUM)";
" 5458	0x241A	␚ (SYMBOL FOR SUBSTITUTE)";
" 5459	0x241B	␛ (SYMBOL FOR ESCAPE)";
" 5460	0x241C	␜ (SYMBOL FOR FILE SEPARATOR)";
" 5461	0x241D	␝ (SYMBOL FOR GROUP SEPARATOR)";
" 5462	0x241E	␞ (SYMBOL FOR RECORD SEPARATOR)";
" 5463	0x241F	␟ (SYMBOL FOR UNIT SEPARATOR)";
" 5464	0x2421	␡ (SYMBOL FOR DELETE)";
" 5465	0x20AC	€ (EURO SIGN)"
].
(* /repo/encoding_tables/whatwg/index-big5.txt:4353-4608 *)
Definition index_big5_txt_17 : list line := [
" 5495	0x4E00	一 (<CJK Ideograph>)";
" 5496	0x4E59	乙 (<CJK Ideograph>)";
" 5497	0x4E01	丁 (<CJK Ideograph>)";
" 5498	0x4E03	七 (<CJK Ideograph>)";
" 5499	0x4E43	乃 (<CJK Ideograph>)";
" 5500	0x4E5D	九 (<CJK Ideograph>)";
" 5501	0x4E86	了 (<CJK Ideograph>)";
" 5502	0x4E8C	二 (<CJK Ideograph>)";
" 5503	0x4EBA	人 (<CJK Ideograph>)";
" 5504	0x513F	儿 (<CJK Ideograph>)";
" 5505	0x5165	入 (<CJK Ideograph>)";
" 5506	0x516B	八 (<CJK Ideograph>)";
" 5507	0x51E0	几 (<CJK Ideograph>)";
" 5508	0x5200	刀 (<CJK Ideograph>)";
" 5509	0x5201	刁 (<CJK Ideograph>)";
" 5510	0x529B	力 (<CJK Ideograph>)";
" 5511	0x5315	匕 (<CJK Ideograph>)";
" 5512	0x5341	十 (<CJK Ideograph>)";
" 5513	0x535C	卜 (<CJK Ideograph>)";
" 5514	0x53C8	又 (<CJK Ideograph>)";
" 5515	0x4E09	三 (<CJK Ideograph>)";
" 5516	0x4E0B	下 (<CJK Ideograph>)";
" 5517	0x4E08	丈 (<CJK Ideograph>)";
" 5518	0x4E0A	上 (<CJK Ideograph>)";
" 5519	0x4E2B	丫 (<CJK Ideograph>)";
" 5520	0x4E38	丸 (<CJK Ideograph>)";
" 5521	0x51E1	凡 (<CJK Ideograph>)";
" 5522	0x4E45	久 (<CJK Ideograph>)";
" 5523	0x4E48	么 (<CJK Ideograph>)";
" 5524	0x4E5F	也 (<CJK Ideograph>)";
" 5525	0x4E5E	乞 (<CJK Ideograph>)";
" 5526	0x4E8E	于 (<CJK Ideograph>)";
" 5527	0x4EA1	亡 (<CJK Ideograph>)";
" 5528	0x5140	兀 (<CJK Ideograph>)";
" 5529	0x5203	刃 (<CJK Ideograph>)";
" 5530	0x52FA	勺 (<CJK Ideograph>)";
" 5531	0x5343	千 (<CJK Ideograph>)";
" 5532	0x53C9	叉 (<CJK Ideograph>)";
" 5533	0x53E3	口 (<CJK Ideograph>)";
" 5534	0x571F	土 (<CJK Ideograph>)";
" 5535	0x58EB	士 (<CJK Ideograph>)";
" 5536	0x5915	夕 (<CJK Ideograph>)";
" 5537	0x5927	大 (<CJK Ideograph>)";
" 5538	0x5973	女 (<CJK Ideograph>)";
" 5539	0x5B50	子 (<CJK Ideograph>)";
" 5540	0x5B51	孑 (<CJK Ideograph>)";
" 5541	0x5B53	孓 (<CJK Ideograph>)";
" 5542	0x5BF8	寸 (<CJK Ideograph>)";
" 5543	0x5C0F	小 (<CJK Ideograph>)";
" 5544	0x5C22	尢 (<CJK Ideograph>)";
" 5545	0x5C38	尸 (<CJK Ideograph>)";
" 5546	0x5C71	山 (<CJK Ideograph>)";
" 5547	0x5DDD	川 (<CJK Ideograph>)";
" 5548	0x5DE5	工 (<CJK Ideograph>)";
" 5549	0x5DF1	己 (<CJK Ideograph>)";
" 5550	0x5DF2	已 (<CJK Ideograph>)";
" 5551	0x5DF3	巳 (<CJK Ideograph>)";
" 5552	0x5DFE	巾 (<CJK Ideograph>)";
" 5553	0x5E72	干 (<CJK Ideograph>)";
" 5554	0x5EFE	廾 (<CJK Ideograph>)";
" 5555	0x5F0B	弋 (<CJK Ideograph>)";
" 5556	0x5F13	弓 (<CJK Ideograph>)";
" 5557	0x624D	才 (<CJK Ideograph>)";
" 5558	0x4E11	丑 (<CJK Ideograph>)";
" 5559	0x4E10	丐 (<CJK Ideograph>)";
" 5560	0x4E0D	不 (<CJK Ideograph>)";
" 5561	0x4E2D	中 (<CJK Ideograph>)";
" 5562	0x4E30	丰 (<CJK Ideograph>)";
" 5563	0x4E39	丹 (<CJK Ideograph>)";
" 5564	0x4E4B	之 (<CJK Ideograph>)";
" 5565	0x5C39	尹 (<CJK Ideograph>)";
" 5566	0x4E88	予 (<CJK Ideograph>)";
" 5567	0x4E91	云 (<CJK Ideograph>)";
" 5568	0x4E95	井 (<CJK Ideograph>)";
" 5569	0x4E92	互 (<CJK Ideograph>)";
" 5570	0x4E94	五 (<CJK Ideograph>)";
" 5571	0x4EA2	亢 (<CJK Ideograph>)";
" 5572	0x4EC1	仁 (<CJK Ideograph>)";
" 5573	0x4EC0	什 (<CJK Ideograph>)";
" 5574	0x4EC3	仃 (<CJK Ideograph>)";
" 5575	0x4EC6	仆 (<CJK Ideograph>)";
" 5576	0x4EC7	仇 (<CJK Ideograph>)";
" 5577	0x4ECD	仍 (<CJK Ideograph>)";
" 5578	0x4ECA	今 (<CJK Ideograph>)";
" 5579	0x4ECB	介 (<CJK Ideograph>)";
" 5580	0x4EC4	仄 (<CJK Ideograph>)";
" 5581	0x5143	元 (<CJK Ideograph>)";
" 5582	0x5141	允 (<CJK Ideograph>)";
" 5583	0x5167	內 (<CJK Ideograph>)";
" 5584	0x516D	六 (<CJK Ideograph>)";
" 5585	0x516E	兮 (<CJK Ideograph>)";
" 5586	0x516C	公 (<CJK Ideograph>)";
" 5587	0x5197	冗 (<CJK Ideograph>)";
" 5588	0x51F6	凶 (<CJK Ideograph>)";
" 5589	0x5206	分 (<CJK Ideograph>)";
" 5590	0x5207	切 (<CJK Ideograph>)";
" 5591	0x5208	刈 (<CJK Ideograph>)";
" 5592	0x52FB	勻 (<CJK Ideograph>)";
" 5593	0x52FE	勾 (<CJK Ideograph>)";
" 5594	0x52FF	勿 (<CJK Ideograph>)";
" 5595	0x5316	化 (<CJK Ideograph>)";
" 5596	0x5339	匹 (<CJK Ideograph>)";
" 5597	0x5348	午 (<CJK Ideograph>)";
" 5598	0x5347	升 (<CJK Ideograph>)";
" 5599	0x5345	卅 (<CJK Ideograph>)";
" 5600	0x535E	卞 (<CJK Ideograph>)";
" 5601	0x5384	厄 (<CJK Ideograph>)";
" 5602	0x53CB	友 (<CJK Ideograph>)";
" 5603	0x53CA	及 (<CJK Ideograph>)";
" 5604	0x53CD	反 (<CJK Ideograph>)";
" 5605	0x58EC	壬 (<CJK Ideograph>)";
" 5606	0x5929	天 (<CJK Ideograph>)";
" 5607	0x592B	夫 (<CJK Ideograph>)";
" 5608	0x592A	太 (<CJK Ideograph>)";
" 5609	0x592D	夭 (<CJK Ideograph>)";
" 5610	0x5B54	孔 (<CJK Ideograph>)";
" 5611	0x5C11	少 (<CJK Ideograph>)";
" 5612	0x5C24	尤 (<CJK Ideograph>)";
" 5613	0x5C3A	尺 (<CJK Ideograph>)";
" 5614	0x5C6F	屯 (<CJK Ideograph>)";
" 5615	0x5DF4	巴 (<CJK Ideograph>)";
" 5616	0x5E7B	幻 (<CJK Ideograph>)";
" 5617	0x5EFF	廿 (<CJK Ideograph>)";
" 5618	0x5F14	弔 (<CJK Ideograph>)";
" 5619	0x5F15	引 (<CJK Ideograph>)";
" 5620	0x5FC3	心 (<CJK Ideograph>)";
" 5621	0x6208	戈 (<CJK Ideograph>)";
" 5622	0x6236	戶 (<CJK Ideograph>)";
" 5623	0x624B	手 (<CJK Ideograph>)";
" 5624	0x624E	扎 (<CJK Ideograph>)";
" 5625	0x652F	支 (<CJK Ideograph>)";
" 5626	0x6587	文 (<CJK Ideograph>)";
" 5627	0x6597	斗 (<CJK Ideograph>)";
" 5628	0x65A4	斤 (<CJK Ideograph>)";
" 5629	0x65B9	方 (<CJK Ideograph>)";
" 5630	0x65E5	日 (<CJK Ideograph>)";
" 5631	0x66F0	曰 (<CJK Ideograph>)";
" 5632	0x6708	月 (<CJK Ideograph>)";
" 5633	0x6728	木 (<CJK Ideograph>)";
" 5634	0x6B20	欠 (<CJK Ideograph>)";
" 5635	0x6B62	止 (<CJK Ideograph>)";
" 5636	0x6B79	歹 (<CJK Ideograph>)";
" 5637	0x6BCB	毋 (<CJK Ideograph>)";
" 5638	0x6BD4	比 (<CJK Ideograph>)";
" 5639	0x6BDB	毛 (<CJK Ideograph>)";
" 5640	0x6C0F	氏 (<CJK Ideograph>)";
" 5641	0x6C34	水 (<CJK Ideograph>)";
" 5642	0x706B	火 (<CJK Ideograph>)";
" 5643	0x722A	爪 (<CJK Ideograph>)";
" 5644	0x7236	父 (<CJK Ideograph>)";
" 5645	0x723B	爻 (<CJK Ideograph>)";
" 5646	0x7247	片 (<CJK Ideograph>)";
" 5647	0x7259	牙 (<CJK Ideograph>)";
" 5648	0x725B	牛 (<CJK Ideograph>)";
" 5649	0x72AC	犬 (<CJK Ideograph>)";
" 5650	0x738B	王 (<CJK Ideograph>)";
" 5651	0x4E19	丙 (<CJK Ideograph>)";
" 5652	0x4E16	世 (<CJK Ideograph>)";
" 5653	0x4E15	丕 (<CJK Ideograph>)";
" 5654	0x4E14	且 (<CJK Ideograph>)";
" 5655	0x4E18	丘 (<CJK Ideograph>)";
" 5656	0x4E3B	主 (<CJK Ideograph>)";
" 5657	0x4E4D	乍 (<CJK Ideograph>)";
" 5658	0x4E4F	乏 (<CJK Ideograph>)";
" 5659	0x4E4E	乎 (<CJK Ideograph>)";
" 5660	0x4EE5	以 (<CJK Ideograph>)";
" 5661	0x4ED8	付 (<CJK Ideograph>)";
" 5662	0x4ED4	仔 (<CJK Ideograph>)";
" 5663	0x4ED5	仕 (<CJK Ideograph>)";
" 5664	0x4ED6	他 (<CJK Ideograph>)";
" 5665	0x4ED7	仗 (<CJK Ideograph>)";
" 5666	0x4EE3	代 (<CJK Ideograph>)";
" 5667	0x4EE4	令 (<CJK Ideograph>)";
" 5668	0x4ED9	仙 (<CJK Ideograph>)";
" 5669	0x4EDE	仞 (<CJK Ideograph>)";
" 5670	0x5145	充 (<CJK Ideograph>)";
" 5671	0x5144	兄 (<CJK Ideograph>)";
" 5672	0x5189	冉 (<CJK Ideograph>)";
" 5673	0x518A	冊 (<CJK Ideograph>)";
" 5674	0x51AC	冬 (<CJK Ideograph>)";
" 5675	0x51F9	凹 (<CJK Ideograph>)";
" 5676	0x51FA	出 (<CJK Ideograph>)";
" 5677	0x51F8	凸 (<CJK Ideograph>)";
" 5678	0x520A	刊 (<CJK Ideograph>)";
" 5679	0x52A0	加 (<CJK Ideograph>)";
" 5680	0x529F	功 (<CJK Ideograph>)";
" 5681	0x5305	包 (<CJK Ideograph>)";
" 5682	0x5306	匆 (<CJK Ideograph>)";
" 5683	0x5317	北 (<CJK Ideograph>)";
" 5684	0x531D	匝 (<CJK Ideograph>)";
" 5685	0x4EDF	仟 (<CJK Ideograph>)";
" 5686	0x534A	半 (<CJK Ideograph>)";
" 5687	0x5349	卉 (<CJK Ideograph>)";
" 5688	0x5361	卡 (<CJK Ideograph>)";
" 5689	0x5360	占 (<CJK Ideograph>)";
" 5690	0x536F	卯 (<CJK Ideograph>)";
" 5691	0x536E	卮 (<CJK Ideograph>)";
" 5692	0x53BB	去 (<CJK Ideograph>)";
" 5693	0x53EF	可 (<CJK Ideograph>)";
" 5694	0x53E4	古 (<CJK Ideograph>)";
" 5695	0x53F3	右 (<CJK Ideograph>)";
" 5696	0x53EC	召 (<CJK Ideograph>)";
" 5697	0x53EE	叮 (<CJK Ideograph>)";
" 5698	0x53E9	叩 (<CJK Ideograph>)";
" 5699	0x53E8	叨 (<CJK Ideograph>)";
" 5700	0x53FC	叼 (<CJK Ideograph>)";
" 5701	0x53F8	司 (<CJK Ideograph>)";
" 5702	0x53F5	叵 (<CJK Ideograph>)";
" 5703	0x53EB	叫 (<CJK Ideograph>)";
" 5704	0x53E6	另 (<CJK Ideograph>)";
" 5705	0x53EA	只 (<CJK Ideograph>)";
" 5706	0x53F2	史 (<CJK Ideograph>)";
" 5707	0x53F1	叱 (<CJK Ideograph>)";
" 5708	0x53F0	台 (<CJK Ideograph>)";
" 5709	0x53E5	句 (<CJK Ideograph>)";
" 5710	0x53ED	叭 (<CJK Ideograph>)";
" 5711	0x53FB	叻 (<CJK Ideograph>)";
" 5712	0x56DB	四 (<CJK Ideograph>)";
" 5713	0x56DA	囚 (<CJK Ideograph>)";
" 5714	0x5916	外 (<CJK Ideograph>)";
" 5715	0x592E	央 (<CJK Ideograph>)";
" 5716	0x5931	失 (<CJK Ideograph>)";
" 5717	0x5974	奴 (<CJK Ideograph>)";
" 5718	0x5976	奶 (<CJK Ideograph>)";
" 5719	0x5B55	孕 (<CJK Ideograph>)";
" 5720	0x5B83	它 (<CJK Ideograph>)";
" 5721	0x5C3C	尼 (<CJK Ideograph>)";
" 5722	0x5DE8	巨 (<CJK Ideograph>)";
" 5723	0x5DE7	巧 (<CJK Ideograph>)";
" 5724	0x5DE6	左 (<CJK Ideograph>)";
" 5725	0x5E02	市 (<CJK Ideograph>)";
" 5726	0x5E03	布 (<CJK Ideograph>)";
" 5727	0x5E73	平 (<CJK Ideograph>)";
" 5728	0x5E7C	幼 (<CJK Ideograph>)";
" 5729	0x5F01	弁 (<CJK Ideograph>)";
" 5730	0x5F18	弘 (<CJK Ideograph>)";
" 5731	0x5F17	弗 (<CJK Ideograph>)";
" 5732	0x5FC5	必 (<CJK Ideograph>)";
" 5733	0x620A	戊 (<CJK Ideograph>)";
" 5734	0x6253	打 (<CJK Ideograph>)";
" 5735	0x6254	扔 (<CJK Ideograph>)";
" 5736	0x6252	扒 (<CJK Ideograph>)";
" 5737	0x6251	扑 (<CJK Ideograph>)";
" 5738	0x65A5	斥 (<CJK Ideograph>)";
" 5739	0x65E6	旦 (<CJK Ideograph>)";
" 5740	0x672E	朮 (<CJK Ideograph>)";
" 5741	0x672C	本 (<CJK Ideograph>)";
" 5742	0x672A	未 (<CJK Ideograph>)";
" 5743	0x672B	末 (<CJK Ideograph>)";
" 5744	0x672D	札 (<CJK Ideograph>)";
" 5745	0x6B63	正 (<CJK Ideograph>)";
" 5746	0x6BCD	母 (<CJK Ideograph>)";
" 5747	0x6C11	民 (<CJK Ideograph>)";
" 5748	0x6C10	氐 (<CJK Ideograph>)";
" 5749	0x6C38	永 (<CJK Ideograph>)";
" 5750	0x6C41	汁 (<CJK Ideograph>)"
].
(* /repo/encoding_tables/whatwg/index-big5.txt:4609-4864 *)
Definition index_big5_txt_18 : list line := [
" 5751	0x6C40	汀 (<CJK Ideograph>)";
" 5752	0x6C3E	氾 (<CJK Ideograph>)";
" 5753	0x72AF	犯 (<CJK Ideograph>)";
" 5754	0x7384	玄 (<CJK Ideograph>)";
" 5755	0x7389	玉 (<CJK Ideograph>)";
" 5756	0x74DC	瓜 (<CJK Ideograph>)";
" 5757	0x74E6	瓦 (<CJK Ideograph>)";
" 5758	0x7518	甘 (<CJK Ideograph>)";
" 5759	0x751F	生 (<CJK Ideograph>)";
" 5760	0x7528	用 (<CJK Ideograph>)";
" 5761	0x7529	甩 (<CJK Ideograph>)";
" 5762	0x7530	田 (<CJK Ideograph>)";
" 5763	0x7531	由 (<CJK Ideograph>)";
" 5764	0x7532	甲 (<CJK Ideograph>)";
" 5765	0x7533	申 (<CJK Ideograph>)";
" 5766	0x758B	疋 (<CJK Ideograph>)";
" 5767	0x767D	白 (<CJK Ideograph>)";
" 5768	0x76AE	皮 (<CJK Ideograph>)";
" 5769	0x76BF	皿 (<CJK Ideograph>)";
" 5770	0x76EE	目 (<CJK Ideograph>)";
" 5771	0x77DB	矛 (<CJK Ideograph>)";
" 5772	0x77E2	矢 (<CJK Ideograph>)";
" 5773	0x77F3	石 (<CJK Ideograph>)";
" 5774	0x793A	示 (<CJK Ideograph>)";
" 5775	0x79BE	禾 (<CJK Ideograph>)";
" 5776	0x7A74	穴 (<CJK Ideograph>)";
" 5777	0x7ACB	立 (<CJK Ideograph>)";
" 5778	0x4E1E	丞 (<CJK Ideograph>)";
" 5779	0x4E1F	丟 (<CJK Ideograph>)";
" 5780	0x4E52	乒 (<CJK Ideograph>)";
" 5781	0x4E53	乓 (<CJK Ideograph>)";
" 5782	0x4E69	乩 (<CJK Ideograph>)";
" 5783	0x4E99	亙 (<CJK Ideograph>)";
" 5784	0x4EA4	交 (<CJK Ideograph>)";
" 5785	0x4EA6	亦 (<CJK Ideograph>)";
" 5786	0x4EA5	亥 (<CJK Ideograph>)";
" 5787	0x4EFF	仿 (<CJK Ideograph>)";
" 5788	0x4F09	伉 (<CJK Ideograph>)";
" 5789	0x4F19	伙 (<CJK Ideograph>)";
" 5790	0x4F0A	伊 (<CJK Ideograph>)";
" 5791	0x4F15	伕 (<CJK Ideograph>)";
" 5792	0x4F0D	伍 (<CJK Ideograph>)";
" 5793	0x4F10	伐 (<CJK Ideograph>)";
" 5794	0x4F11	休 (<CJK Ideograph>)";
" 5795	0x4F0F	伏 (<CJK Ideograph>)";
" 5796	0x4EF2	仲 (<CJK Ideograph>)";
" 5797	0x4EF6	件 (<CJK Ideograph>)";
" 5798	0x4EFB	任 (<CJK Ideograph>)";
" 5799	0x4EF0	仰 (<CJK Ideograph>)";
" 5800	0x4EF3	仳 (<CJK Ideograph>)";
" 5801	0x4EFD	份 (<CJK Ideograph>)";
" 5802	0x4F01	企 (<CJK Ideograph>)";
" 5803	0x4F0B	伋 (<CJK Ideograph>)";
" 5804	0x5149	光 (<CJK Ideograph>)";
" 5805	0x5147	兇 (<CJK Ideograph>)";
" 5806	0x5146	兆 (<CJK Ideograph>)";
" 5807	0x5148	先 (<CJK Ideograph>)";
" 5808	0x5168	全 (<CJK Ideograph>)";
" 5809	0x5171	共 (<CJK Ideograph>)";
" 5810	0x518D	再 (<CJK Ideograph>)";
" 5811	0x51B0	冰 (<CJK Ideograph>)";
" 5812	0x5217	列 (<CJK Ideograph>)";
" 5813	0x5211	刑 (<CJK Ideograph>)";
" 5814	0x5212	划 (<CJK Ideograph>)";
" 5815	0x520E	刎 (<CJK Ideograph>)";
" 5816	0x5216	刖 (<CJK Ideograph>)";
" 5817	0x52A3	劣 (<CJK Ideograph>)";
" 5818	0x5308	匈 (<CJK Ideograph>)";
" 5819	0x5321	匡 (<CJK Ideograph>)";
" 5820	0x5320	匠 (<CJK Ideograph>)";
" 5821	0x5370	印 (<CJK Ideograph>)";
" 5822	0x5371	危 (<CJK Ideograph>)";
" 5823	0x5409	吉 (<CJK Ideograph>)";
" 5824	0x540F	吏 (<CJK Ideograph>)";
" 5825	0x540C	同 (<CJK Ideograph>)";
" 5826	0x540A	吊 (<CJK Ideograph>)";
" 5827	0x5410	吐 (<CJK Ideograph>)";
" 5828	0x5401	吁 (<CJK Ideograph>)";
" 5829	0x540B	吋 (<CJK Ideograph>)";
" 5830	0x5404	各 (<CJK Ideograph>)";
" 5831	0x5411	向 (<CJK Ideograph>)";
" 5832	0x540D	名 (<CJK Ideograph>)";
" 5833	0x5408	合 (<CJK Ideograph>)";
" 5834	0x5403	吃 (<CJK Ideograph>)";
" 5835	0x540E	后 (<CJK Ideograph>)";
" 5836	0x5406	吆 (<CJK Ideograph>)";
" 5837	0x5412	吒 (<CJK Ideograph>)";
" 5838	0x56E0	因 (<CJK Ideograph>)";
" 5839	0x56DE	回 (<CJK Ideograph>)";
" 5840	0x56DD	囝 (<CJK Ideograph>)";
" 5841	0x5733	圳 (<CJK Ideograph>)";
" 5842	0x5730	地 (<CJK Ideograph>)";
" 5843	0x5728	在 (<CJK Ideograph>)";
" 5844	0x572D	圭 (<CJK Ideograph>)";
" 5845	0x572C	圬 (<CJK Ideograph>)";
" 5846	0x572F	圯 (<CJK Ideograph>)";
" 5847	0x5729	圩 (<CJK Ideograph>)";
" 5848	0x5919	夙 (<CJK Ideograph>)";
" 5849	0x591A	多 (<CJK Ideograph>)";
" 5850	0x5937	夷 (<CJK Ideograph>)";
" 5851	0x5938	夸 (<CJK Ideograph>)";
" 5852	0x5984	妄 (<CJK Ideograph>)";
" 5853	0x5978	奸 (<CJK Ideograph>)";
" 5854	0x5983	妃 (<CJK Ideograph>)";
" 5855	0x597D	好 (<CJK Ideograph>)";
" 5856	0x5979	她 (<CJK Ideograph>)";
" 5857	0x5982	如 (<CJK Ideograph>)";
" 5858	0x5981	妁 (<CJK Ideograph>)";
" 5859	0x5B57	字 (<CJK Ideograph>)";
" 5860	0x5B58	存 (<CJK Ideograph>)";
" 5861	0x5B87	宇 (<CJK Ideograph>)";
" 5862	0x5B88	守 (<CJK Ideograph>)";
" 5863	0x5B85	宅 (<CJK Ideograph>)";
" 5864	0x5B89	安 (<CJK Ideograph>)";
" 5865	0x5BFA	寺 (<CJK Ideograph>)";
" 5866	0x5C16	尖 (<CJK Ideograph>)";
" 5867	0x5C79	屹 (<CJK Ideograph>)";
" 5868	0x5DDE	州 (<CJK Ideograph>)";
" 5869	0x5E06	帆 (<CJK Ideograph>)";
" 5870	0x5E76	并 (<CJK Ideograph>)";
" 5871	0x5E74	年 (<CJK Ideograph>)";
" 5872	0x5F0F	式 (<CJK Ideograph>)";
" 5873	0x5F1B	弛 (<CJK Ideograph>)";
" 5874	0x5FD9	忙 (<CJK Ideograph>)";
" 5875	0x5FD6	忖 (<CJK Ideograph>)";
" 5876	0x620E	戎 (<CJK Ideograph>)";
" 5877	0x620C	戌 (<CJK Ideograph>)";
" 5878	0x620D	戍 (<CJK Ideograph>)";
" 5879	0x6210	成 (<CJK Ideograph>)";
" 5880	0x6263	扣 (<CJK Ideograph>)";
" 5881	0x625B	扛 (<CJK Ideograph>)";
" 5882	0x6258	托 (<CJK Ideograph>)";
" 5883	0x6536	收 (<CJK Ideograph>)";
" 5884	0x65E9	早 (<CJK Ideograph>)";
" 5885	0x65E8	旨 (<CJK Ideograph>)";
" 5886	0x65EC	旬 (<CJK Ideograph>)";
" 5887	0x65ED	旭 (<CJK Ideograph>)";
" 5888	0x66F2	曲 (<CJK Ideograph>)";
" 5889	0x66F3	曳 (<CJK Ideograph>)";
" 5890	0x6709	有 (<CJK Ideograph>)";
" 5891	0x673D	朽 (<CJK Ideograph>)";
" 5892	0x6734	朴 (<CJK Ideograph>)";
" 5893	0x6731	朱 (<CJK Ideograph>)";
" 5894	0x6735	朵 (<CJK Ideograph>)";
" 5895	0x6B21	次 (<CJK Ideograph>)";
" 5896	0x6B64	此 (<CJK Ideograph>)";
" 5897	0x6B7B	死 (<CJK Ideograph>)";
" 5898	0x6C16	氖 (<CJK Ideograph>)";
" 5899	0x6C5D	汝 (<CJK Ideograph>)";
" 5900	0x6C57	汗 (<CJK Ideograph>)";
" 5901	0x6C59	汙 (<CJK Ideograph>)";
" 5902	0x6C5F	江 (<CJK Ideograph>)";
" 5903	0x6C60	池 (<CJK Ideograph>)";
" 5904	0x6C50	汐 (<CJK Ideograph>)";
" 5905	0x6C55	汕 (<CJK Ideograph>)";
" 5906	0x6C61	污 (<CJK Ideograph>)";
" 5907	0x6C5B	汛 (<CJK Ideograph>)";
" 5908	0x6C4D	汍 (<CJK Ideograph>)";
" 5909	0x6C4E	汎 (<CJK Ideograph>)";
" 5910	0x7070	灰 (<CJK Ideograph>)";
" 5911	0x725F	牟 (<CJK Ideograph>)";
" 5912	0x725D	牝 (<CJK Ideograph>)";
" 5913	0x767E	百 (<CJK Ideograph>)";
" 5914	0x7AF9	竹 (<CJK Ideograph>)";
" 5915	0x7C73	米 (<CJK Ideograph>)";
" 5916	0x7CF8	糸 (<CJK Ideograph>)";
" 5917	0x7F36	缶 (<CJK Ideograph>)";
" 5918	0x7F8A	羊 (<CJK Ideograph>)";
" 5919	0x7FBD	羽 (<CJK Ideograph>)";
" 5920	0x8001	老 (<CJK Ideograph>)";
" 5921	0x8003	考 (<CJK Ideograph>)";
" 5922	0x800C	而 (<CJK Ideograph>)";
" 5923	0x8012	耒 (<CJK Ideograph>)";
" 5924	0x8033	耳 (<CJK Ideograph>)";
" 5925	0x807F	聿 (<CJK Ideograph>)";
" 5926	0x8089	肉 (<CJK Ideograph>)";
" 5927	0x808B	肋 (<CJK Ideograph>)";
" 5928	0x808C	肌 (<CJK Ideograph>)";
" 5929	0x81E3	臣 (<CJK Ideograph>)";
" 5930	0x81EA	自 (<CJK Ideograph>)";
" 5931	0x81F3	至 (<CJK Ideograph>)";
" 5932	0x81FC	臼 (<CJK Ideograph>)";
" 5933	0x820C	舌 (<CJK Ideograph>)";
" 5934	0x821B	舛 (<CJK Ideograph>)";
" 5935	0x821F	舟 (<CJK Ideograph>)";
" 5936	0x826E	艮 (<CJK Ideograph>)";
" 5937	0x8272	色 (<CJK Ideograph>)";
" 5938	0x827E	艾 (<CJK Ideograph>)";
" 5939	0x866B	虫 (<CJK Ideograph>)";
" 5940	0x8840	血 (<CJK Ideograph>)";
" 5941	0x884C	行 (<CJK Ideograph>)";
" 5942	0x8863	衣 (<CJK Ideograph>)";
" 5943	0x897F	西 (<CJK Ideograph>)";
" 5944	0x9621	阡 (<CJK Ideograph>)";
" 5945	0x4E32	串 (<CJK Ideograph>)";
" 5946	0x4EA8	亨 (<CJK Ideograph>)";
" 5947	0x4F4D	位 (<CJK Ideograph>)";
" 5948	0x4F4F	住 (<CJK Ideograph>)";
" 5949	0x4F47	佇 (<CJK Ideograph>)";
" 5950	0x4F57	佗 (<CJK Ideograph>)";
" 5951	0x4F5E	佞 (<CJK Ideograph>)";
" 5952	0x4F34	伴 (<CJK Ideograph>)";
" 5953	0x4F5B	佛 (<CJK Ideograph>)";
" 5954	0x4F55	何 (<CJK Ideograph>)";
" 5955	0x4F30	估 (<CJK Ideograph>)";
" 5956	0x4F50	佐 (<CJK Ideograph>)";
" 5957	0x4F51	佑 (<CJK Ideograph>)";
" 5958	0x4F3D	伽 (<CJK Ideograph>)";
" 5959	0x4F3A	伺 (<CJK Ideograph>)";
" 5960	0x4F38	伸 (<CJK Ideograph>)";
" 5961	0x4F43	佃 (<CJK Ideograph>)";
" 5962	0x4F54	佔 (<CJK Ideograph>)";
" 5963	0x4F3C	似 (<CJK Ideograph>)";
" 5964	0x4F46	但 (<CJK Ideograph>)";
" 5965	0x4F63	佣 (<CJK Ideograph>)";
" 5966	0x4F5C	作 (<CJK Ideograph>)";
" 5967	0x4F60	你 (<CJK Ideograph>)";
" 5968	0x4F2F	伯 (<CJK Ideograph>)";
" 5969	0x4F4E	低 (<CJK Ideograph>)";
" 5970	0x4F36	伶 (<CJK Ideograph>)";
" 5971	0x4F59	余 (<CJK Ideograph>)";
" 5972	0x4F5D	佝 (<CJK Ideograph>)";
" 5973	0x4F48	佈 (<CJK Ideograph>)";
" 5974	0x4F5A	佚 (<CJK Ideograph>)";
" 5975	0x514C	兌 (<CJK Ideograph>)";
" 5976	0x514B	克 (<CJK Ideograph>)";
" 5977	0x514D	免 (<CJK Ideograph>)";
" 5978	0x5175	兵 (<CJK Ideograph>)";
" 5979	0x51B6	冶 (<CJK Ideograph>)";
" 5980	0x51B7	冷 (<CJK Ideograph>)";
" 5981	0x5225	別 (<CJK Ideograph>)";
" 5982	0x5224	判 (<CJK Ideograph>)";
" 5983	0x5229	利 (<CJK Ideograph>)";
" 5984	0x522A	刪 (<CJK Ideograph>)";
" 5985	0x5228	刨 (<CJK Ideograph>)";
" 5986	0x52AB	劫 (<CJK Ideograph>)";
" 5987	0x52A9	助 (<CJK Ideograph>)";
" 5988	0x52AA	努 (<CJK Ideograph>)";
" 5989	0x52AC	劬 (<CJK Ideograph>)";
" 5990	0x5323	匣 (<CJK Ideograph>)";
" 5991	0x5373	即 (<CJK Ideograph>)";
" 5992	0x5375	卵 (<CJK Ideograph>)";
" 5993	0x541D	吝 (<CJK Ideograph>)";
" 5994	0x542D	吭 (<CJK Ideograph>)";
" 5995	0x541E	吞 (<CJK Ideograph>)";
" 5996	0x543E	吾 (<CJK Ideograph>)";
" 5997	0x5426	否 (<CJK Ideograph>)";
" 5998	0x544E	呎 (<CJK Ideograph>)";
" 5999	0x5427	吧 (<CJK Ideograph>)";
" 6000	0x5446	呆 (<CJK Ideograph>)";
" 6001	0x5443	呃 (<CJK Ideograph>)";
" 6002	0x5433	吳 (<CJK Ideograph>)";
" 6003	0x5448	呈 (<CJK Ideograph>)";
" 6004	0x5442	呂 (<CJK Ideograph>)";
" 6005	0x541B	君 (<CJK Ideograph>)";
" 6006	0x5429	吩 (<CJK Ideograph>)"
].
(* /repo/encoding_tables/whatwg/index-big5.txt:4865-5120 *)
Definition index_big5_txt_19 : list line := [
" 6007	0x544A	告 (<CJK Ideograph>)";
" 6008	0x5439	吹 (<CJK Ideograph>)";
" 6009	0x543B	吻 (<CJK Ideograph>)";
" 6010	0x5438	吸 (<CJK Ideograph>)";
" 6011	0x542E	吮 (<CJK Ideograph>)";
" 6012	0x5435	吵 (<CJK Ideograph>)";
" 6013	0x5436	吶 (<CJK Ideograph>)";
" 6014	0x5420	吠 (<CJK Ideograph>)";
" 6015	0x543C	吼 (<CJK Ideograph>)";
" 6016	0x5440	呀 (<CJK Ideograph>)";
" 6017	0x5431	吱 (<CJK Ideograph>)";
" 6018	0x542B	含 (<CJK Ideograph>)";
" 6019	0x541F	吟 (<CJK Ideograph>)";
" 6020	0x542C	听 (<CJK Ideograph>)";
" 6021	0x56EA	囪 (<CJK Ideograph>)";
" 6022	0x56F0	困 (<CJK Ideograph>)";
" 6023	0x56E4	囤 (<CJK Ideograph>)";
" 6024	0x56EB	囫 (<CJK Ideograph>)";
" 6025	0x574A	坊 (<CJK Ideograph>)";
" 6026	0x5751	坑 (<CJK Ideograph>)";
" 6027	0x5740	址 (<CJK Ideograph>)";
" 6028	0x574D	坍 (<CJK Ideograph>)";
" 6029	0x5747	均 (<CJK Ideograph>)";
" 6030	0x574E	坎 (<CJK Ideograph>)";
" 6031	0x573E	圾 (<CJK Ideograph>)";
" 6032	0x5750	坐 (<CJK Ideograph>)";
" 6033	0x574F	坏 (<CJK Ideograph>)";
" 6034	0x573B	圻 (<CJK Ideograph>)";
" 6035	0x58EF	壯 (<CJK Ideograph>)";
" 6036	0x593E	夾 (<CJK Ideograph>)";
" 6037	0x599D	妝 (<CJK Ideograph>)";
" 6038	0x5992	妒 (<CJK Ideograph>)";
" 6039	0x59A8	妨 (<CJK Ideograph>)";
" 6040	0x599E	妞 (<CJK Ideograph>)";
" 6041	0x59A3	妣 (<CJK Ideograph>)";
" 6042	0x5999	妙 (<CJK Ideograph>)";
" 6043	0x5996	妖 (<CJK Ideograph>)";
" 6044	0x598D	妍 (<CJK Ideograph>)";
" 6045	0x59A4	妤 (<CJK Ideograph>)";
" 6046	0x5993	妓 (<CJK Ideograph>)";
" 6047	0x598A	妊 (<CJK Ideograph>)";
" 6048	0x59A5	妥 (<CJK Ideograph>)";
" 6049	0x5B5D	孝 (<CJK Ideograph>)";
" 6050	0x5B5C	孜 (<CJK Ideograph>)";
" 6051	0x5B5A	孚 (<CJK Ideograph>)";
" 6052	0x5B5B	孛 (<CJK Ideograph>)";
" 6053	0x5B8C	完 (<CJK Ideograph>)";
" 6054	0x5B8B	宋 (<CJK Ideograph>)";
" 6055	0x5B8F	宏 (<CJK Ideograph>)";
" 6056	0x5C2C	尬 (<CJK Ideograph>)";
" 6057	0x5C40	局 (<CJK Ideograph>)";
" 6058	0x5C41	屁 (<CJK Ideograph>)";
" 6059	0x5C3F	尿 (<CJK Ideograph>)";
" 6060	0x5C3E	尾 (<CJK Ideograph>)";
" 6061	0x5C90	岐 (<CJK Ideograph>)";
" 6062	0x5C91	岑 (<CJK Ideograph>)";
" 6063	0x5C94	岔 (<CJK Ideograph>)";
" 6064	0x5C8C	岌 (<CJK Ideograph>)";
" 6065	0x5DEB	巫 (<CJK Ideograph>)";
" 6066	0x5E0C	希 (<CJK Ideograph>)";
" 6067	0x5E8F	序 (<CJK Ideograph>)";
" 6068	0x5E87	庇 (<CJK Ideograph>)";
" 6069	0x5E8A	床 (<CJK Ideograph>)";
" 6070	0x5EF7	廷 (<CJK Ideograph>)";
" 6071	0x5F04	弄 (<CJK Ideograph>)";
" 6072	0x5F1F	弟 (<CJK Ideograph>)";
" 6073	0x5F64	彤 (<CJK Ideograph>)";
" 6074	0x5F62	形 (<CJK Ideograph>)";
" 6075	0x5F77	彷 (<CJK Ideograph>)";
" 6076	0x5F79	役 (<CJK Ideograph>)";
" 6077	0x5FD8	忘 (<CJK Ideograph>)";
" 6078	0x5FCC	忌 (<CJK Ideograph>)";
" 6079	0x5FD7	志 (<CJK Ideograph>)";
" 6080	0x5FCD	忍 (<CJK Ideograph>)";
" 6081	0x5FF1	忱 (<CJK Ideograph>)";
" 6082	0x5FEB	快 (<CJK Ideograph>)";
" 6083	0x5FF8	忸 (<CJK Ideograph>)";
" 6084	0x5FEA	忪 (<CJK Ideograph>)";
" 6085	0x6212	戒 (<CJK Ideograph>)";
" 6086	0x6211	我 (<CJK Ideograph>)";
" 6087	0x6284	抄 (<CJK Ideograph>)";
" 6088	0x6297	抗 (<CJK Ideograph>)";
" 6089	0x6296	抖 (<CJK Ideograph>)";
" 6090	0x6280	技 (<CJK Ideograph>)";
" 6091	0x6276	扶 (<CJK Ideograph>)";
" 6092	0x6289	抉 (<CJK Ideograph>)";
" 6093	0x626D	扭 (<CJK Ideograph>)";
" 6094	0x628A	把 (<CJK Ideograph>)";
" 6095	0x627C	扼 (<CJK Ideograph>)";
" 6096	0x627E	找 (<CJK Ideograph>)";
" 6097	0x6279	批 (<CJK Ideograph>)";
" 6098	0x6273	扳 (<CJK Ideograph>)";
" 6099	0x6292	抒 (<CJK Ideograph>)";
" 6100	0x626F	扯 (<CJK Ideograph>)";
" 6101	0x6298	折 (<CJK Ideograph>)";
" 6102	0x626E	扮 (<CJK Ideograph>)";
" 6103	0x6295	投 (<CJK Ideograph>)";
" 6104	0x6293	抓 (<CJK Ideograph>)";
" 6105	0x6291	抑 (<CJK Ideograph>)";
" 6106	0x6286	抆 (<CJK Ideograph>)";
" 6107	0x6539	改 (<CJK Ideograph>)";
" 6108	0x653B	攻 (<CJK Ideograph>)";
" 6109	0x6538	攸 (<CJK Ideograph>)";
" 6110	0x65F1	旱 (<CJK Ideograph>)";
" 6111	0x66F4	更 (<CJK Ideograph>)";
" 6112	0x675F	束 (<CJK Ideograph>)";
" 6113	0x674E	李 (<CJK Ideograph>)";
" 6114	0x674F	杏 (<CJK Ideograph>)";
" 6115	0x6750	材 (<CJK Ideograph>)";
" 6116	0x6751	村 (<CJK Ideograph>)";
" 6117	0x675C	杜 (<CJK Ideograph>)";
" 6118	0x6756	杖 (<CJK Ideograph>)";
" 6119	0x675E	杞 (<CJK Ideograph>)";
" 6120	0x6749	杉 (<CJK Ideograph>)";
" 6121	0x6746	杆 (<CJK Ideograph>)";
" 6122	0x6760	杠 (<CJK Ideograph>)";
" 6123	0x6753	杓 (<CJK Ideograph>)";
" 6124	0x6757	杗 (<CJK Ideograph>)";
" 6125	0x6B65	步 (<CJK Ideograph>)";
" 6126	0x6BCF	每 (<CJK Ideograph>)";
" 6127	0x6C42	求 (<CJK Ideograph>)";
" 6128	0x6C5E	汞 (<CJK Ideograph>)";
" 6129	0x6C99	沙 (<CJK Ideograph>)";
" 6130	0x6C81	沁 (<CJK Ideograph>)";
" 6131	0x6C88	沈 (<CJK Ideograph>)";
" 6132	0x6C89	沉 (<CJK Ideograph>)";
" 6133	0x6C85	沅 (<CJK Ideograph>)";
" 6134	0x6C9B	沛 (<CJK Ideograph>)";
" 6135	0x6C6A	汪 (<CJK Ideograph>)";
" 6136	0x6C7A	決 (<CJK Ideograph>)";
" 6137	0x6C90	沐 (<CJK Ideograph>)";
" 6138	0x6C70	汰 (<CJK Ideograph>)";
" 6139	0x6C8C	沌 (<CJK Ideograph>)";
" 6140	0x6C68	汨 (<CJK Ideograph>)";
" 6141	0x6C96	沖 (<CJK Ideograph>)";
" 6142	0x6C92	沒 (<CJK Ideograph>)";
" 6143	0x6C7D	汽 (<CJK Ideograph>)";
" 6144	0x6C83	沃 (<CJK Ideograph>)";
" 6145	0x6C72	汲 (<CJK Ideograph>)";
" 6146	0x6C7E	汾 (<CJK Ideograph>)";
" 6147	0x6C74	汴 (<CJK Ideograph>)";
" 6148	0x6C86	沆 (<CJK Ideograph>)";
" 6149	0x6C76	汶 (<CJK Ideograph>)";
" 6150	0x6C8D	沍 (<CJK Ideograph>)";
" 6151	0x6C94	沔 (<CJK Ideograph>)";
" 6152	0x6C98	沘 (<CJK Ideograph>)";
" 6153	0x6C82	沂 (<CJK Ideograph>)";
" 6154	0x7076	灶 (<CJK Ideograph>)";
" 6155	0x707C	灼 (<CJK Ideograph>)";
" 6156	0x707D	災 (<CJK Ideograph>)";
" 6157	0x7078	灸 (<CJK Ideograph>)";
" 6158	0x7262	牢 (<CJK Ideograph>)";
" 6159	0x7261	牡 (<CJK Ideograph>)";
" 6160	0x7260	牠 (<CJK Ideograph>)";
" 6161	0x72C4	狄 (<CJK Ideograph>)";
" 6162	0x72C2	狂 (<CJK Ideograph>)";
" 6163	0x7396	玖 (<CJK Ideograph>)";
" 6164	0x752C	甬 (<CJK Ideograph>)";
" 6165	0x752B	甫 (<CJK Ideograph>)";
" 6166	0x7537	男 (<CJK Ideograph>)";
" 6167	0x7538	甸 (<CJK Ideograph>)";
" 6168	0x7682	皂 (<CJK Ideograph>)";
" 6169	0x76EF	盯 (<CJK Ideograph>)";
" 6170	0x77E3	矣 (<CJK Ideograph>)";
" 6171	0x79C1	私 (<CJK Ideograph>)";
" 6172	0x79C0	秀 (<CJK Ideograph>)";
" 6173	0x79BF	禿 (<CJK Ideograph>)";
" 6174	0x7A76	究 (<CJK Ideograph>)";
" 6175	0x7CFB	系 (<CJK Ideograph>)";
" 6176	0x7F55	罕 (<CJK Ideograph>)";
" 6177	0x8096	肖 (<CJK Ideograph>)";
" 6178	0x8093	肓 (<CJK Ideograph>)";
" 6179	0x809D	肝 (<CJK Ideograph>)";
" 6180	0x8098	肘 (<CJK Ideograph>)";
" 6181	0x809B	肛 (<CJK Ideograph>)";
" 6182	0x809A	肚 (<CJK Ideograph>)";
" 6183	0x80B2	育 (<CJK Ideograph>)";
" 6184	0x826F	良 (<CJK Ideograph>)";
" 6185	0x8292	芒 (<CJK Ideograph>)";
" 6186	0x828B	芋 (<CJK Ideograph>)";
" 6187	0x828D	芍 (<CJK Ideograph>)";
" 6188	0x898B	見 (<CJK Ideograph>)";
" 6189	0x89D2	角 (<CJK Ideograph>)";
" 6190	0x8A00	言 (<CJK Ideograph>)";
" 6191	0x8C37	谷 (<CJK Ideograph>)";
" 6192	0x8C46	豆 (<CJK Ideograph>)";
" 6193	0x8C55	豕 (<CJK Ideograph>)";
" 6194	0x8C9D	貝 (<CJK Ideograph>)";
" 6195	0x8D64	赤 (<CJK Ideograph>)";
" 6196	0x8D70	走 (<CJK Ideograph>)";
" 6197	0x8DB3	足 (<CJK Ideograph>)";
" 6198	0x8EAB	身 (<CJK Ideograph>)";
" 6199	0x8ECA	車 (<CJK Ideograph>)";
" 6200	0x8F9B	辛 (<CJK Ideograph>)";
" 6201	0x8FB0	辰 (<CJK Ideograph>)";
" 6202	0x8FC2	迂 (<CJK Ideograph>)";
" 6203	0x8FC6	迆 (<CJK Ideograph>)";
" 6204	0x8FC5	迅 (<CJK Ideograph>)";
" 6205	0x8FC4	迄 (<CJK Ideograph>)";
" 6206	0x5DE1	巡 (<CJK Ideograph>)";
" 6207	0x9091	邑 (<CJK Ideograph>)";
" 6208	0x90A2	邢 (<CJK Ideograph>)";
" 6209	0x90AA	邪 (<CJK Ideograph>)";
" 6210	0x90A6	邦 (<CJK Ideograph>)";
" 6211	0x90A3	那 (<CJK Ideograph>)";
" 6212	0x9149	酉 (<CJK Ideograph>)";
" 6213	0x91C6	釆 (<CJK Ideograph>)";
" 6214	0x91CC	里 (<CJK Ideograph>)";
" 6215	0x9632	防 (<CJK Ideograph>)";
" 6216	0x962E	阮 (<CJK Ideograph>)";
" 6217	0x9631	阱 (<CJK Ideograph>)";
" 6218	0x962A	阪 (<CJK Ideograph>)";
" 6219	0x962C	阬 (<CJK Ideograph>)";
" 6220	0x4E26	並 (<CJK Ideograph>)";
" 6221	0x4E56	乖 (<CJK Ideograph>)";
" 6222	0x4E73	乳 (<CJK Ideograph>)";
" 6223	0x4E8B	事 (<CJK Ideograph>)";
" 6224	0x4E9B	些 (<CJK Ideograph>)";
" 6225	0x4E9E	亞 (<CJK Ideograph>)";
" 6226	0x4EAB	享 (<CJK Ideograph>)";
" 6227	0x4EAC	京 (<CJK Ideograph>)";
" 6228	0x4F6F	佯 (<CJK Ideograph>)";
" 6229	0x4F9D	依 (<CJK Ideograph>)";
" 6230	0x4F8D	侍 (<CJK Ideograph>)";
" 6231	0x4F73	佳 (<CJK Ideograph>)";
" 6232	0x4F7F	使 (<CJK Ideograph>)";
" 6233	0x4F6C	佬 (<CJK Ideograph>)";
" 6234	0x4F9B	供 (<CJK Ideograph>)";
" 6235	0x4F8B	例 (<CJK Ideograph>)";
" 6236	0x4F86	來 (<CJK Ideograph>)";
" 6237	0x4F83	侃 (<CJK Ideograph>)";
" 6238	0x4F70	佰 (<CJK Ideograph>)";
" 6239	0x4F75	併 (<CJK Ideograph>)";
" 6240	0x4F88	侈 (<CJK Ideograph>)";
" 6241	0x4F69	佩 (<CJK Ideograph>)";
" 6242	0x4F7B	佻 (<CJK Ideograph>)";
" 6243	0x4F96	侖 (<CJK Ideograph>)";
" 6244	0x4F7E	佾 (<CJK Ideograph>)";
" 6245	0x4F8F	侏 (<CJK Ideograph>)";
" 6246	0x4F91	侑 (<CJK Ideograph>)";
" 6247	0x4F7A	佺 (<CJK Ideograph>)";
" 6248	0x5154	兔 (<CJK Ideograph>)";
" 6249	0x5152	兒 (<CJK Ideograph>)";
" 6250	0x5155	兕 (<CJK Ideograph>)";
" 6251	0x5169	兩 (<CJK Ideograph>)";
" 6252	0x5177	具 (<CJK Ideograph>)";
" 6253	0x5176	其 (<CJK Ideograph>)";
" 6254	0x5178	典 (<CJK Ideograph>)";
" 6255	0x51BD	冽 (<CJK Ideograph>)";
" 6256	0x51FD	函 (<CJK Ideograph>)";
" 6257	0x523B	刻 (<CJK Ideograph>)";
" 6258	0x5238	券 (<CJK Ideograph>)";
" 6259	0x5237	刷 (<CJK Ideograph>)";
" 6260	0x523A	刺 (<CJK Ideograph>)";
" 6261	0x5230	到 (<CJK Ideograph>)";
" 6262	0x522E	刮 (<CJK Ideograph>)"
].
(* /repo/encoding_tables/whatwg/index-big5.txt:5121-5376 *)
Definition index_big5_txt_20 : list line := [
" 6263	0x5236	制 (<CJK Ideograph>)";
" 6264	0x5241	剁 (<CJK Ideograph>)";
" 6265	0x52BE	劾 (<CJK Ideograph>)";
" 6266	0x52BB	劻 (<CJK Ideograph>)";
" 6267	0x5352	卒 (<CJK Ideograph>)";
" 6268	0x5354	協 (<CJK Ideograph>)";
" 6269	0x5353	卓 (<CJK Ideograph>)";
" 6270	0x5351	卑 (<CJK Ideograph>)";
" 6271	0x5366	卦 (<CJK Ideograph>)";
" 6272	0x5377	卷 (<CJK Ideograph>)";
" 6273	0x5378	卸 (<CJK Ideograph>)";
" 6274	0x5379	卹 (<CJK Ideograph>)";
" 6275	0x53D6	取 (<CJK Ideograph>)";
" 6276	0x53D4	叔 (<CJK Ideograph>)";
" 6277	0x53D7	受 (<CJK Ideograph>)";
" 6278	0x5473	味 (<CJK Ideograph>)";
" 6279	0x5475	呵 (<CJK Ideograph>)";
" 6280	0x5496	咖 (<CJK Ideograph>)";
" 6281	0x5478	呸 (<CJK Ideograph>)";
" 6282	0x5495	咕 (<CJK Ideograph>)";
" 6283	0x5480	咀 (<CJK Ideograph>)";
" 6284	0x547B	呻 (<CJK Ideograph>)";
" 6285	0x5477	呷 (<CJK Ideograph>)";
" 6286	0x5484	咄 (<CJK Ideograph>)";
" 6287	0x5492	咒 (<CJK Ideograph>)";
" 6288	0x5486	咆 (<CJK Ideograph>)";
" 6289	0x547C	呼 (<CJK Ideograph>)";
" 6290	0x5490	咐 (<CJK Ideograph>)";
" 6291	0x5471	呱 (<CJK Ideograph>)";
" 6292	0x5476	呶 (<CJK Ideograph>)";
" 6293	0x548C	和 (<CJK Ideograph>)";
" 6294	0x549A	咚 (<CJK Ideograph>)";
" 6295	0x5462	呢 (<CJK Ideograph>)";
" 6296	0x5468	周 (<CJK Ideograph>)";
" 6297	0x548B	咋 (<CJK Ideograph>)";
" 6298	0x547D	命 (<CJK Ideograph>)";
" 6299	0x548E	咎 (<CJK Ideograph>)";
" 6300	0x56FA	固 (<CJK Ideograph>)";
" 6301	0x5783	垃 (<CJK Ideograph>)";
" 6302	0x5777	坷 (<CJK Ideograph>)";
" 6303	0x576A	坪 (<CJK Ideograph>)";
" 6304	0x5769	坩 (<CJK Ideograph>)";
" 6305	0x5761	坡 (<CJK Ideograph>)";
" 6306	0x5766	坦 (<CJK Ideograph>)";
" 6307	0x5764	坤 (<CJK Ideograph>)";
" 6308	0x577C	坼 (<CJK Ideograph>)";
" 6309	0x591C	夜 (<CJK Ideograph>)";
" 6310	0x5949	奉 (<CJK Ideograph>)";
" 6311	0x5947	奇 (<CJK Ideograph>)";
" 6312	0x5948	奈 (<CJK Ideograph>)";
" 6313	0x5944	奄 (<CJK Ideograph>)";
" 6314	0x5954	奔 (<CJK Ideograph>)";
" 6315	0x59BE	妾 (<CJK Ideograph>)";
" 6316	0x59BB	妻 (<CJK Ideograph>)";
" 6317	0x59D4	委 (<CJK Ideograph>)";
" 6318	0x59B9	妹 (<CJK Ideograph>)";
" 6319	0x59AE	妮 (<CJK Ideograph>)";
" 6320	0x59D1	姑 (<CJK Ideograph>)";
" 6321	0x59C6	姆 (<CJK Ideograph>)";
" 6322	0x59D0	姐 (<CJK Ideograph>)";
" 6323	0x59CD	姍 (<CJK Ideograph>)";
" 6324	0x59CB	始 (<CJK Ideograph>)";
" 6325	0x59D3	姓 (<CJK Ideograph>)";
" 6326	0x59CA	姊 (<CJK Ideograph>)";
" 6327	0x59AF	妯 (<CJK Ideograph>)";
" 6328	0x59B3	妳 (<CJK Ideograph>)";
" 6329	0x59D2	姒 (<CJK Ideograph>)";
" 6330	0x59C5	姅 (<CJK Ideograph>)";
" 6331	0x5B5F	孟 (<CJK Ideograph>)";
" 6332	0x5B64	孤 (<CJK Ideograph>)";
" 6333	0x5B63	季 (<CJK Ideograph>)";
" 6334	0x5B97	宗 (<CJK Ideograph>)";
" 6335	0x5B9A	定 (<CJK Ideograph>)";
" 6336	0x5B98	官 (<CJK Ideograph>)";
" 6337	0x5B9C	宜 (<CJK Ideograph>)";
" 6338	0x5B99	宙 (<CJK Ideograph>)";
" 6339	0x5B9B	宛 (<CJK Ideograph>)";
" 6340	0x5C1A	尚 (<CJK Ideograph>)";
" 6341	0x5C48	屈 (<CJK Ideograph>)";
" 6342	0x5C45	居 (<CJK Ideograph>)";
" 6343	0x5C46	屆 (<CJK Ideograph>)";
" 6344	0x5CB7	岷 (<CJK Ideograph>)";
" 6345	0x5CA1	岡 (<CJK Ideograph>)";
" 6346	0x5CB8	岸 (<CJK Ideograph>)";
" 6347	0x5CA9	岩 (<CJK Ideograph>)";
" 6348	0x5CAB	岫 (<CJK Ideograph>)";
" 6349	0x5CB1	岱 (<CJK Ideograph>)";
" 6350	0x5CB3	岳 (<CJK Ideograph>)";
" 6351	0x5E18	帘 (<CJK Ideograph>)";
" 6352	0x5E1A	帚 (<CJK Ideograph>)";
" 6353	0x5E16	帖 (<CJK Ideograph>)";
" 6354	0x5E15	帕 (<CJK Ideograph>)";
" 6355	0x5E1B	帛 (<CJK Ideograph>)";
" 6356	0x5E11	帑 (<CJK Ideograph>)";
" 6357	0x5E78	幸 (<CJK Ideograph>)";
" 6358	0x5E9A	庚 (<CJK Ideograph>)";
" 6359	0x5E97	店 (<CJK Ideograph>)";
" 6360	0x5E9C	府 (<CJK Ideograph>)";
" 6361	0x5E95	底 (<CJK Ideograph>)";
" 6362	0x5E96	庖 (<CJK Ideograph>)";
" 6363	0x5EF6	延 (<CJK Ideograph>)";
" 6364	0x5F26	弦 (<CJK Ideograph>)";
" 6365	0x5F27	弧 (<CJK Ideograph>)";
" 6366	0x5F29	弩 (<CJK Ideograph>)";
" 6367	0x5F80	往 (<CJK Ideograph>)";
" 6368	0x5F81	征 (<CJK Ideograph>)";
" 6369	0x5F7F	彿 (<CJK Ideograph>)";
" 6370	0x5F7C	彼 (<CJK Ideograph>)";
" 6371	0x5FDD	忝 (<CJK Ideograph>)";
" 6372	0x5FE0	忠 (<CJK Ideograph>)";
" 6373	0x5FFD	忽 (<CJK Ideograph>)";
" 6374	0x5FF5	念 (<CJK Ideograph>)";
" 6375	0x5FFF	忿 (<CJK Ideograph>)";
" 6376	0x600F	怏 (<CJK Ideograph>)";
" 6377	0x6014	怔 (<CJK Ideograph>)";
" 6378	0x602F	怯 (<CJK Ideograph>)";
" 6379	0x6035	怵 (<CJK Ideograph>)";
" 6380	0x6016	怖 (<CJK Ideograph>)";
" 6381	0x602A	怪 (<CJK Ideograph>)";
" 6382	0x6015	怕 (<CJK Ideograph>)";
" 6383	0x6021	怡 (<CJK Ideograph>)";
" 6384	0x6027	性 (<CJK Ideograph>)";
" 6385	0x6029	怩 (<CJK Ideograph>)";
" 6386	0x602B	怫 (<CJK Ideograph>)";
" 6387	0x601B	怛 (<CJK Ideograph>)";
" 6388	0x6216	或 (<CJK Ideograph>)";
" 6389	0x6215	戕 (<CJK Ideograph>)";
" 6390	0x623F	房 (<CJK Ideograph>)";
" 6391	0x623E	戾 (<CJK Ideograph>)";
" 6392	0x6240	所 (<CJK Ideograph>)";
" 6393	0x627F	承 (<CJK Ideograph>)";
" 6394	0x62C9	拉 (<CJK Ideograph>)";
" 6395	0x62CC	拌 (<CJK Ideograph>)";
" 6396	0x62C4	拄 (<CJK Ideograph>)";
" 6397	0x62BF	抿 (<CJK Ideograph>)";
" 6398	0x62C2	拂 (<CJK Ideograph>)";
" 6399	0x62B9	抹 (<CJK Ideograph>)";
" 6400	0x62D2	拒 (<CJK Ideograph>)";
" 6401	0x62DB	招 (<CJK Ideograph>)";
" 6402	0x62AB	披 (<CJK Ideograph>)";
" 6403	0x62D3	拓 (<CJK Ideograph>)";
" 6404	0x62D4	拔 (<CJK Ideograph>)";
" 6405	0x62CB	拋 (<CJK Ideograph>)";
" 6406	0x62C8	拈 (<CJK Ideograph>)";
" 6407	0x62A8	抨 (<CJK Ideograph>)";
" 6408	0x62BD	抽 (<CJK Ideograph>)";
" 6409	0x62BC	押 (<CJK Ideograph>)";
" 6410	0x62D0	拐 (<CJK Ideograph>)";
" 6411	0x62D9	拙 (<CJK Ideograph>)";
" 6412	0x62C7	拇 (<CJK Ideograph>)";
" 6413	0x62CD	拍 (<CJK Ideograph>)";
" 6414	0x62B5	抵 (<CJK Ideograph>)";
" 6415	0x62DA	拚 (<CJK Ideograph>)";
" 6416	0x62B1	抱 (<CJK Ideograph>)";
" 6417	0x62D8	拘 (<CJK Ideograph>)";
" 6418	0x62D6	拖 (<CJK Ideograph>)";
" 6419	0x62D7	拗 (<CJK Ideograph>)";
" 6420	0x62C6	拆 (<CJK Ideograph>)";
" 6421	0x62AC	抬 (<CJK Ideograph>)";
" 6422	0x62CE	拎 (<CJK Ideograph>)";
" 6423	0x653E	放 (<CJK Ideograph>)";
" 6424	0x65A7	斧 (<CJK Ideograph>)";
" 6425	0x65BC	於 (<CJK Ideograph>)";
" 6426	0x65FA	旺 (<CJK Ideograph>)";
" 6427	0x6614	昔 (<CJK Ideograph>)";
" 6428	0x6613	易 (<CJK Ideograph>)";
" 6429	0x660C	昌 (<CJK Ideograph>)";
" 6430	0x6606	昆 (<CJK Ideograph>)";
" 6431	0x6602	昂 (<CJK Ideograph>)";
" 6432	0x660E	明 (<CJK Ideograph>)";
" 6433	0x6600	昀 (<CJK Ideograph>)";
" 6434	0x660F	昏 (<CJK Ideograph>)";
" 6435	0x6615	昕 (<CJK Ideograph>)";
" 6436	0x660A	昊 (<CJK Ideograph>)";
" 6437	0x6607	昇 (<CJK Ideograph>)";
" 6438	0x670D	服 (<CJK Ideograph>)";
" 6439	0x670B	朋 (<CJK Ideograph>)";
" 6440	0x676D	杭 (<CJK Ideograph>)";
" 6441	0x678B	枋 (<CJK Ideograph>)";
" 6442	0x6795	枕 (<CJK Ideograph>)";
" 6443	0x6771	東 (<CJK Ideograph>)";
" 6444	0x679C	果 (<CJK Ideograph>)";
" 6445	0x6773	杳 (<CJK Ideograph>)";
" 6446	0x6777	杷 (<CJK Ideograph>)";
" 6447	0x6787	枇 (<CJK Ideograph>)";
" 6448	0x679D	枝 (<CJK Ideograph>)";
" 6449	0x6797	林 (<CJK Ideograph>)";
" 6450	0x676F	杯 (<CJK Ideograph>)";
" 6451	0x6770	杰 (<CJK Ideograph>)";
" 6452	0x677F	板 (<CJK Ideograph>)";
" 6453	0x6789	枉 (<CJK Ideograph>)";
" 6454	0x677E	松 (<CJK Ideograph>)";
" 6455	0x6790	析 (<CJK Ideograph>)";
" 6456	0x6775	杵 (<CJK Ideograph>)";
" 6457	0x679A	枚 (<CJK Ideograph>)";
" 6458	0x6793	枓 (<CJK Ideograph>)";
" 6459	0x677C	杼 (<CJK Ideograph>)";
" 6460	0x676A	杪 (<CJK Ideograph>)";
" 6461	0x6772	杲 (<CJK Ideograph>)";
" 6462	0x6B23	欣 (<CJK Ideograph>)";
" 6463	0x6B66	武 (<CJK Ideograph>)";
" 6464	0x6B67	歧 (<CJK Ideograph>)";
" 6465	0x6B7F	歿 (<CJK Ideograph>)";
" 6466	0x6C13	氓 (<CJK Ideograph>)";
" 6467	0x6C1B	氛 (<CJK Ideograph>)";
" 6468	0x6CE3	泣 (<CJK Ideograph>)";
" 6469	0x6CE8	注 (<CJK Ideograph>)";
" 6470	0x6CF3	泳 (<CJK Ideograph>)";
" 6471	0x6CB1	沱 (<CJK Ideograph>)";
" 6472	0x6CCC	泌 (<CJK Ideograph>)";
" 6473	0x6CE5	泥 (<CJK Ideograph>)";
" 6474	0x6CB3	河 (<CJK Ideograph>)";
" 6475	0x6CBD	沽 (<CJK Ideograph>)";
" 6476	0x6CBE	沾 (<CJK Ideograph>)";
" 6477	0x6CBC	沼 (<CJK Ideograph>)";
" 6478	0x6CE2	波 (<CJK Ideograph>)";
" 6479	0x6CAB	沫 (<CJK Ideograph>)";
" 6480	0x6CD5	法 (<CJK Ideograph>)";
" 6481	0x6CD3	泓 (<CJK Ideograph>)";
" 6482	0x6CB8	沸 (<CJK Ideograph>)";
" 6483	0x6CC4	泄 (<CJK Ideograph>)";
" 6484	0x6CB9	油 (<CJK Ideograph>)";
" 6485	0x6CC1	況 (<CJK Ideograph>)";
" 6486	0x6CAE	沮 (<CJK Ideograph>)";
" 6487	0x6CD7	泗 (<CJK Ideograph>)";
" 6488	0x6CC5	泅 (<CJK Ideograph>)";
" 6489	0x6CF1	泱 (<CJK Ideograph>)";
" 6490	0x6CBF	沿 (<CJK Ideograph>)";
" 6491	0x6CBB	治 (<CJK Ideograph>)";
" 6492	0x6CE1	泡 (<CJK Ideograph>)";
" 6493	0x6CDB	泛 (<CJK Ideograph>)";
" 6494	0x6CCA	泊 (<CJK Ideograph>)";
" 6495	0x6CAC	沬 (<CJK Ideograph>)";
" 6496	0x6CEF	泯 (<CJK Ideograph>)";
" 6497	0x6CDC	泜 (<CJK Ideograph>)";
" 6498	0x6CD6	泖 (<CJK Ideograph>)";
" 6499	0x6CE0	泠 (<CJK Ideograph>)";
" 6500	0x7095	炕 (<CJK Ideograph>)";
" 6501	0x708E	炎 (<CJK Ideograph>)";
" 6502	0x7092	炒 (<CJK Ideograph>)";
" 6503	0x708A	炊 (<CJK Ideograph>)";
" 6504	0x7099	炙 (<CJK Ideograph>)";
" 6505	0x722C	爬 (<CJK Ideograph>)";
" 6506	0x722D	爭 (<CJK Ideograph>)";
" 6507	0x7238	爸 (<CJK Ideograph>)";
" 6508	0x7248	版 (<CJK Ideograph>)";
" 6509	0x7267	牧 (<CJK Ideograph>)";
" 6510	0x7269	物 (<CJK Ideograph>)";
" 6511	0x72C0	狀 (<CJK Ideograph>)";
" 6512	0x72CE	狎 (<CJK Ideograph>)";
" 6513	0x72D9	狙 (<CJK Ideograph>)";
" 6514	0x72D7	狗 (<CJK Ideograph>)";
" 6515	0x72D0	狐 (<CJK Ideograph>)";
" 6516	0x73A9	玩 (<CJK Ideograph>)";
" 6517	0x73A8	玨 (<CJK Ideograph>)";
" 6518	0x739F	玟 (<CJK Ideograph>)"
].
(* /repo/encoding_tables/whatwg/index-big5.txt:5377-5632 *)
Definition index_big5_txt_21 : list line := [
" 6519	0x73AB	玫 (<CJK Ideograph>)";
" 6520	0x73A5	玥 (<CJK Ideograph>)";
" 6521	0x753D	甽 (<CJK Ideograph>)";
" 6522	0x759D	疝 (<CJK Ideograph>)";
" 6523	0x7599	疙 (<CJK Ideograph>)";
" 6524	0x759A	疚 (<CJK Ideograph>)";
" 6525	0x7684	的 (<CJK Ideograph>)";
" 6526	0x76C2	盂 (<CJK Ideograph>)";
" 6527	0x76F2	盲 (<CJK Ideograph>)";
" 6528	0x76F4	直 (<CJK Ideograph>)";
" 6529	0x77E5	知 (<CJK Ideograph>)";
" 6530	0x77FD	矽 (<CJK Ideograph>)";
" 6531	0x793E	社 (<CJK Ideograph>)";
" 6532	0x7940	祀 (<CJK Ideograph>)";
" 6533	0x7941	祁 (<CJK Ideograph>)";
" 6534	0x79C9	秉 (<CJK Ideograph>)";
" 6535	0x79C8	秈 (<CJK Ideograph>)";
" 6536	0x7A7A	空 (<CJK Ideograph>)";
" 6537	0x7A79	穹 (<CJK Ideograph>)";
" 6538	0x7AFA	竺 (<CJK Ideograph>)";
" 6539	0x7CFE	糾 (<CJK Ideograph>)";
" 6540	0x7F54	罔 (<CJK Ideograph>)";
" 6541	0x7F8C	羌 (<CJK Ideograph>)";
" 6542	0x7F8B	羋 (<CJK Ideograph>)";
" 6543	0x8005	者 (<CJK Ideograph>)";
" 6544	0x80BA	肺 (<CJK Ideograph>)";
" 6545	0x80A5	肥 (<CJK Ideograph>)";
" 6546	0x80A2	肢 (<CJK Ideograph>)";
" 6547	0x80B1	肱 (<CJK Ideograph>)";
" 6548	0x80A1	股 (<CJK Ideograph>)";
" 6549	0x80AB	肫 (<CJK Ideograph>)";
" 6550	0x80A9	肩 (<CJK Ideograph>)";
" 6551	0x80B4	肴 (<CJK Ideograph>)";
" 6552	0x80AA	肪 (<CJK Ideograph>)";
" 6553	0x80AF	肯 (<CJK Ideograph>)";
" 6554	0x81E5	臥 (<CJK Ideograph>)";
" 6555	0x81FE	臾 (<CJK Ideograph>)";
" 6556	0x820D	舍 (<CJK Ideograph>)";
" 6557	0x82B3	芳 (<CJK Ideograph>)";
" 6558	0x829D	芝 (<CJK Ideograph>)";
" 6559	0x8299	芙 (<CJK Ideograph>)";
" 6560	0x82AD	芭 (<CJK Ideograph>)";
" 6561	0x82BD	芽 (<CJK Ideograph>)";
" 6562	0x829F	芟 (<CJK Ideograph>)";
" 6563	0x82B9	芹 (<CJK Ideograph>)";
" 6564	0x82B1	花 (<CJK Ideograph>)";
" 6565	0x82AC	芬 (<CJK Ideograph>)";
" 6566	0x82A5	芥 (<CJK Ideograph>)";
" 6567	0x82AF	芯 (<CJK Ideograph>)";
" 6568	0x82B8	芸 (<CJK Ideograph>)";
" 6569	0x82A3	芣 (<CJK Ideograph>)";
" 6570	0x82B0	芰 (<CJK Ideograph>)";
" 6571	0x82BE	芾 (<CJK Ideograph>)";
" 6572	0x82B7	芷 (<CJK Ideograph>)";
" 6573	0x864E	虎 (<CJK Ideograph>)";
" 6574	0x8671	虱 (<CJK Ideograph>)";
" 6575	0x521D	初 (<CJK Ideograph>)";
" 6576	0x8868	表 (<CJK Ideograph>)";
" 6577	0x8ECB	軋 (<CJK Ideograph>)";
" 6578	0x8FCE	迎 (<CJK Ideograph>)";
" 6579	0x8FD4	返 (<CJK Ideograph>)";
" 6580	0x8FD1	近 (<CJK Ideograph>)";
" 6581	0x90B5	邵 (<CJK Ideograph>)";
" 6582	0x90B8	邸 (<CJK Ideograph>)";
" 6583	0x90B1	邱 (<CJK Ideograph>)";
" 6584	0x90B6	邶 (<CJK Ideograph>)";
" 6585	0x91C7	采 (<CJK Ideograph>)";
" 6586	0x91D1	金 (<CJK Ideograph>)";
" 6587	0x9577	長 (<CJK Ideograph>)";
" 6588	0x9580	門 (<CJK Ideograph>)";
" 6589	0x961C	阜 (<CJK Ideograph>)";
" 6590	0x9640	陀 (<CJK Ideograph>)";
" 6591	0x963F	阿 (<CJK Ideograph>)";
" 6592	0x963B	阻 (<CJK Ideograph>)";
" 6593	0x9644	附 (<CJK Ideograph>)";
" 6594	0x9642	陂 (<CJK Ideograph>)";
" 6595	0x96B9	隹 (<CJK Ideograph>)";
" 6596	0x96E8	雨 (<CJK Ideograph>)";
" 6597	0x9752	青 (<CJK Ideograph>)";
" 6598	0x975E	非 (<CJK Ideograph>)";
" 6599	0x4E9F	亟 (<CJK Ideograph>)";
" 6600	0x4EAD	亭 (<CJK Ideograph>)";
" 6601	0x4EAE	亮 (<CJK Ideograph>)";
" 6602	0x4FE1	信 (<CJK Ideograph>)";
" 6603	0x4FB5	侵 (<CJK Ideograph>)";
" 6604	0x4FAF	侯 (<CJK Ideograph>)";
" 6605	0x4FBF	便 (<CJK Ideograph>)";
" 6606	0x4FE0	俠 (<CJK Ideograph>)";
" 6607	0x4FD1	俑 (<CJK Ideograph>)";
" 6608	0x4FCF	俏 (<CJK Ideograph>)";
" 6609	0x4FDD	保 (<CJK Ideograph>)";
" 6610	0x4FC3	促 (<CJK Ideograph>)";
" 6611	0x4FB6	侶 (<CJK Ideograph>)";
" 6612	0x4FD8	俘 (<CJK Ideograph>)";
" 6613	0x4FDF	俟 (<CJK Ideograph>)";
" 6614	0x4FCA	俊 (<CJK Ideograph>)";
" 6615	0x4FD7	俗 (<CJK Ideograph>)";
" 6616	0x4FAE	侮 (<CJK Ideograph>)";
" 6617	0x4FD0	俐 (<CJK Ideograph>)";
" 6618	0x4FC4	俄 (<CJK Ideograph>)";
" 6619	0x4FC2	係 (<CJK Ideograph>)";
" 6620	0x4FDA	俚 (<CJK Ideograph>)";
" 6621	0x4FCE	俎 (<CJK Ideograph>)";
" 6622	0x4FDE	俞 (<CJK Ideograph>)";
" 6623	0x4FB7	侷 (<CJK Ideograph>)";
" 6624	0x5157	兗 (<CJK Ideograph>)";
" 6625	0x5192	冒 (<CJK Ideograph>)";
" 6626	0x5191	冑 (<CJK Ideograph>)";
" 6627	0x51A0	冠 (<CJK Ideograph>)";
" 6628	0x524E	剎 (<CJK Ideograph>)";
" 6629	0x5243	剃 (<CJK Ideograph>)";
" 6630	0x524A	削 (<CJK Ideograph>)";
" 6631	0x524D	前 (<CJK Ideograph>)";
" 6632	0x524C	剌 (<CJK Ideograph>)";
" 6633	0x524B	剋 (<CJK Ideograph>)";
" 6634	0x5247	則 (<CJK Ideograph>)";
" 6635	0x52C7	勇 (<CJK Ideograph>)";
" 6636	0x52C9	勉 (<CJK Ideograph>)";
" 6637	0x52C3	勃 (<CJK Ideograph>)";
" 6638	0x52C1	勁 (<CJK Ideograph>)";
" 6639	0x530D	匍 (<CJK Ideograph>)";
" 6640	0x5357	南 (<CJK Ideograph>)";
" 6641	0x537B	卻 (<CJK Ideograph>)";
" 6642	0x539A	厚 (<CJK Ideograph>)";
" 6643	0x53DB	叛 (<CJK Ideograph>)";
" 6644	0x54AC	咬 (<CJK Ideograph>)";
" 6645	0x54C0	哀 (<CJK Ideograph>)";
" 6646	0x54A8	咨 (<CJK Ideograph>)";
" 6647	0x54CE	哎 (<CJK Ideograph>)";
" 6648	0x54C9	哉 (<CJK Ideograph>)";
" 6649	0x54B8	咸 (<CJK Ideograph>)";
" 6650	0x54A6	咦 (<CJK Ideograph>)";
" 6651	0x54B3	咳 (<CJK Ideograph>)";
" 6652	0x54C7	哇 (<CJK Ideograph>)";
" 6653	0x54C2	哂 (<CJK Ideograph>)";
" 6654	0x54BD	咽 (<CJK Ideograph>)";
" 6655	0x54AA	咪 (<CJK Ideograph>)";
" 6656	0x54C1	品 (<CJK Ideograph>)";
" 6657	0x54C4	哄 (<CJK Ideograph>)";
" 6658	0x54C8	哈 (<CJK Ideograph>)";
" 6659	0x54AF	咯 (<CJK Ideograph>)";
" 6660	0x54AB	咫 (<CJK Ideograph>)";
" 6661	0x54B1	咱 (<CJK Ideograph>)";
" 6662	0x54BB	咻 (<CJK Ideograph>)";
" 6663	0x54A9	咩 (<CJK Ideograph>)";
" 6664	0x54A7	咧 (<CJK Ideograph>)";
" 6665	0x54BF	咿 (<CJK Ideograph>)";
" 6666	0x56FF	囿 (<CJK Ideograph>)";
" 6667	0x5782	垂 (<CJK Ideograph>)";
" 6668	0x578B	型 (<CJK Ideograph>)";
" 6669	0x57A0	垠 (<CJK Ideograph>)";
" 6670	0x57A3	垣 (<CJK Ideograph>)";
" 6671	0x57A2	垢 (<CJK Ideograph>)";
" 6672	0x57CE	城 (<CJK Ideograph>)";
" 6673	0x57AE	垮 (<CJK Ideograph>)";
" 6674	0x5793	垓 (<CJK Ideograph>)";
" 6675	0x5955	奕 (<CJK Ideograph>)";
" 6676	0x5951	契 (<CJK Ideograph>)";
" 6677	0x594F	奏 (<CJK Ideograph>)";
" 6678	0x594E	奎 (<CJK Ideograph>)";
" 6679	0x5950	奐 (<CJK Ideograph>)";
" 6680	0x59DC	姜 (<CJK Ideograph>)";
" 6681	0x59D8	姘 (<CJK Ideograph>)";
" 6682	0x59FF	姿 (<CJK Ideograph>)";
" 6683	0x59E3	姣 (<CJK Ideograph>)";
" 6684	0x59E8	姨 (<CJK Ideograph>)";
" 6685	0x5A03	娃 (<CJK Ideograph>)";
" 6686	0x59E5	姥 (<CJK Ideograph>)";
" 6687	0x59EA	姪 (<CJK Ideograph>)";
" 6688	0x59DA	姚 (<CJK Ideograph>)";
" 6689	0x59E6	姦 (<CJK Ideograph>)";
" 6690	0x5A01	威 (<CJK Ideograph>)";
" 6691	0x59FB	姻 (<CJK Ideograph>)";
" 6692	0x5B69	孩 (<CJK Ideograph>)";
" 6693	0x5BA3	宣 (<CJK Ideograph>)";
" 6694	0x5BA6	宦 (<CJK Ideograph>)";
" 6695	0x5BA4	室 (<CJK Ideograph>)";
" 6696	0x5BA2	客 (<CJK Ideograph>)";
" 6697	0x5BA5	宥 (<CJK Ideograph>)";
" 6698	0x5C01	封 (<CJK Ideograph>)";
" 6699	0x5C4E	屎 (<CJK Ideograph>)";
" 6700	0x5C4F	屏 (<CJK Ideograph>)";
" 6701	0x5C4D	屍 (<CJK Ideograph>)";
" 6702	0x5C4B	屋 (<CJK Ideograph>)";
" 6703	0x5CD9	峙 (<CJK Ideograph>)";
" 6704	0x5CD2	峒 (<CJK Ideograph>)";
" 6705	0x5DF7	巷 (<CJK Ideograph>)";
" 6706	0x5E1D	帝 (<CJK Ideograph>)";
" 6707	0x5E25	帥 (<CJK Ideograph>)";
" 6708	0x5E1F	帟 (<CJK Ideograph>)";
" 6709	0x5E7D	幽 (<CJK Ideograph>)";
" 6710	0x5EA0	庠 (<CJK Ideograph>)";
" 6711	0x5EA6	度 (<CJK Ideograph>)";
" 6712	0x5EFA	建 (<CJK Ideograph>)";
" 6713	0x5F08	弈 (<CJK Ideograph>)";
" 6714	0x5F2D	弭 (<CJK Ideograph>)";
" 6715	0x5F65	彥 (<CJK Ideograph>)";
" 6716	0x5F88	很 (<CJK Ideograph>)";
" 6717	0x5F85	待 (<CJK Ideograph>)";
" 6718	0x5F8A	徊 (<CJK Ideograph>)";
" 6719	0x5F8B	律 (<CJK Ideograph>)";
" 6720	0x5F87	徇 (<CJK Ideograph>)";
" 6721	0x5F8C	後 (<CJK Ideograph>)";
" 6722	0x5F89	徉 (<CJK Ideograph>)";
" 6723	0x6012	怒 (<CJK Ideograph>)";
" 6724	0x601D	思 (<CJK Ideograph>)";
" 6725	0x6020	怠 (<CJK Ideograph>)";
" 6726	0x6025	急 (<CJK Ideograph>)";
" 6727	0x600E	怎 (<CJK Ideograph>)";
" 6728	0x6028	怨 (<CJK Ideograph>)";
" 6729	0x604D	恍 (<CJK Ideograph>)";
" 6730	0x6070	恰 (<CJK Ideograph>)";
" 6731	0x6068	恨 (<CJK Ideograph>)";
" 6732	0x6062	恢 (<CJK Ideograph>)";
" 6733	0x6046	恆 (<CJK Ideograph>)";
" 6734	0x6043	恃 (<CJK Ideograph>)";
" 6735	0x606C	恬 (<CJK Ideograph>)";
" 6736	0x606B	恫 (<CJK Ideograph>)";
" 6737	0x606A	恪 (<CJK Ideograph>)";
" 6738	0x6064	恤 (<CJK Ideograph>)";
" 6739	0x6241	扁 (<CJK Ideograph>)";
" 6740	0x62DC	拜 (<CJK Ideograph>)";
" 6741	0x6316	挖 (<CJK Ideograph>)";
" 6742	0x6309	按 (<CJK Ideograph>)";
" 6743	0x62FC	拼 (<CJK Ideograph>)";
" 6744	0x62ED	拭 (<CJK Ideograph>)";
" 6745	0x6301	持 (<CJK Ideograph>)";
" 6746	0x62EE	拮 (<CJK Ideograph>)";
" 6747	0x62FD	拽 (<CJK Ideograph>)";
" 6748	0x6307	指 (<CJK Ideograph>)";
" 6749	0x62F1	拱 (<CJK Ideograph>)";
" 6750	0x62F7	拷 (<CJK Ideograph>)";
" 6751	0x62EF	拯 (<CJK Ideograph>)";
" 6752	0x62EC	括 (<CJK Ideograph>)";
" 6753	0x62FE	拾 (<CJK Ideograph>)";
" 6754	0x62F4	拴 (<CJK Ideograph>)";
" 6755	0x6311	挑 (<CJK Ideograph>)";
" 6756	0x6302	挂 (<CJK Ideograph>)";
" 6757	0x653F	政 (<CJK Ideograph>)";
" 6758	0x6545	故 (<CJK Ideograph>)";
" 6759	0x65AB	斫 (<CJK Ideograph>)";
" 6760	0x65BD	施 (<CJK Ideograph>)";
" 6761	0x65E2	既 (<CJK Ideograph>)";
" 6762	0x6625	春 (<CJK Ideograph>)";
" 6763	0x662D	昭 (<CJK Ideograph>)";
" 6764	0x6620	映 (<CJK Ideograph>)";
" 6765	0x6627	昧 (<CJK Ideograph>)";
" 6766	0x662F	是 (<CJK Ideograph>)";
" 6767	0x661F	星 (<CJK Ideograph>)";
" 6768	0x6628	昨 (<CJK Ideograph>)";
" 6769	0x6631	昱 (<CJK Ideograph>)";
" 6770	0x6624	昤 (<CJK Ideograph>)";
" 6771	0x66F7	曷 (<CJK Ideograph>)";
" 6772	0x67FF	柿 (<CJK Ideograph>)";
" 6773	0x67D3	染 (<CJK Ideograph>)";
" 6774	0x67F1	柱 (<CJK Ideograph>)"
].
(* /repo/encoding_tables/whatwg/index-big5.txt:5633-5888 *)
Definition index_big5_txt_22 : list line := [
" 6775	0x67D4	柔 (<CJK Ideograph>)";
" 6776	0x67D0	某 (<CJK Ideograph>)";
" 6777	0x67EC	柬 (<CJK Ideograph>)";
" 6778	0x67B6	架 (<CJK Ideograph>)";
" 6779	0x67AF	枯 (<CJK Ideograph>)";
" 6780	0x67F5	柵 (<CJK Ideograph>)";
" 6781	0x67E9	柩 (<CJK Ideograph>)";
" 6782	0x67EF	柯 (<CJK Ideograph>)";
" 6783	0x67C4	柄 (<CJK Ideograph>)";
" 6784	0x67D1	柑 (<CJK Ideograph>)";
" 6785	0x67B4	枴 (<CJK Ideograph>)";
" 6786	0x67DA	柚 (<CJK Ideograph>)";
" 6787	0x67E5	查 (<CJK Ideograph>)";
" 6788	0x67B8	枸 (<CJK Ideograph>)";
" 6789	0x67CF	柏 (<CJK Ideograph>)";
" 6790	0x67DE	柞 (<CJK Ideograph>)";
" 6791	0x67F3	柳 (<CJK Ideograph>)";
" 6792	0x67B0	枰 (<CJK Ideograph>)";
" 6793	0x67D9	柙 (<CJK Ideograph>)";
" 6794	0x67E2	柢 (<CJK Ideograph>)";
" 6795	0x67DD	柝 (<CJK Ideograph>)";
" 6796	0x67D2	柒 (<CJK Ideograph>)";
" 6797	0x6B6A	歪 (<CJK Ideograph>)";
" 6798	0x6B83	殃 (<CJK Ideograph>)";
" 6799	0x6B86	殆 (<CJK Ideograph>)";
" 6800	0x6BB5	段 (<CJK Ideograph>)";
" 6801	0x6BD2	毒 (<CJK Ideograph>)";
" 6802	0x6BD7	毗 (<CJK Ideograph>)";
" 6803	0x6C1F	氟 (<CJK Ideograph>)";
" 6804	0x6CC9	泉 (<CJK Ideograph>)";
" 6805	0x6D0B	洋 (<CJK Ideograph>)";
" 6806	0x6D32	洲 (<CJK Ideograph>)";
" 6807	0x6D2A	洪 (<CJK Ideograph>)";
" 6808	0x6D41	流 (<CJK Ideograph>)";
" 6809	0x6D25	津 (<CJK Ideograph>)";
" 6810	0x6D0C	洌 (<CJK Ideograph>)";
" 6811	0x6D31	洱 (<CJK Ideograph>)";
" 6812	0x6D1E	洞 (<CJK Ideograph>)";
" 6813	0x6D17	洗 (<CJK Ideograph>)";
" 6814	0x6D3B	活 (<CJK Ideograph>)";
" 6815	0x6D3D	洽 (<CJK Ideograph>)";
" 6816	0x6D3E	派 (<CJK Ideograph>)";
" 6817	0x6D36	洶 (<CJK Ideograph>)";
" 6818	0x6D1B	洛 (<CJK Ideograph>)";
" 6819	0x6CF5	泵 (<CJK Ideograph>)";
" 6820	0x6D39	洹 (<CJK Ideograph>)";
" 6821	0x6D27	洧 (<CJK Ideograph>)";
" 6822	0x6D38	洸 (<CJK Ideograph>)";
" 6823	0x6D29	洩 (<CJK Ideograph>)";
" 6824	0x6D2E	洮 (<CJK Ideograph>)";
" 6825	0x6D35	洵 (<CJK Ideograph>)";
" 6826	0x6D0E	洎 (<CJK Ideograph>)";
" 6827	0x6D2B	洫 (<CJK Ideograph>)";
" 6828	0x70AB	炫 (<CJK Ideograph>)";
" 6829	0x70BA	為 (<CJK Ideograph>)";
" 6830	0x70B3	炳 (<CJK Ideograph>)";
" 6831	0x70AC	炬 (<CJK Ideograph>)";
" 6832	0x70AF	炯 (<CJK Ideograph>)";
" 6833	0x70AD	炭 (<CJK Ideograph>)";
" 6834	0x70B8	炸 (<CJK Ideograph>)";
" 6835	0x70AE	炮 (<CJK Ideograph>)";
" 6836	0x70A4	炤 (<CJK Ideograph>)";
" 6837	0x7230	爰 (<CJK Ideograph>)";
" 6838	0x7272	牲 (<CJK Ideograph>)";
" 6839	0x726F	牯 (<CJK Ideograph>)";
" 6840	0x7274	牴 (<CJK Ideograph>)";
" 6841	0x72E9	狩 (<CJK Ideograph>)";
" 6842	0x72E0	狠 (<CJK Ideograph>)";
" 6843	0x72E1	狡 (<CJK Ideograph>)";
" 6844	0x73B7	玷 (<CJK Ideograph>)";
" 6845	0x73CA	珊 (<CJK Ideograph>)";
" 6846	0x73BB	玻 (<CJK Ideograph>)";
" 6847	0x73B2	玲 (<CJK Ideograph>)";
" 6848	0x73CD	珍 (<CJK Ideograph>)";
" 6849	0x73C0	珀 (<CJK Ideograph>)";
" 6850	0x73B3	玳 (<CJK Ideograph>)";
" 6851	0x751A	甚 (<CJK Ideograph>)";
" 6852	0x752D	甭 (<CJK Ideograph>)";
" 6853	0x754F	畏 (<CJK Ideograph>)";
" 6854	0x754C	界 (<CJK Ideograph>)";
" 6855	0x754E	畎 (<CJK Ideograph>)";
" 6856	0x754B	畋 (<CJK Ideograph>)";
" 6857	0x75AB	疫 (<CJK Ideograph>)";
" 6858	0x75A4	疤 (<CJK Ideograph>)";
" 6859	0x75A5	疥 (<CJK Ideograph>)";
" 6860	0x75A2	疢 (<CJK Ideograph>)";
" 6861	0x75A3	疣 (<CJK Ideograph>)";
" 6862	0x7678	癸 (<CJK Ideograph>)";
" 6863	0x7686	皆 (<CJK Ideograph>)";
" 6864	0x7687	皇 (<CJK Ideograph>)";
" 6865	0x7688	皈 (<CJK Ideograph>)";
" 6866	0x76C8	盈 (<CJK Ideograph>)";
" 6867	0x76C6	盆 (<CJK Ideograph>)";
" 6868	0x76C3	盃 (<CJK Ideograph>)";
" 6869	0x76C5	盅 (<CJK Ideograph>)";
" 6870	0x7701	省 (<CJK Ideograph>)";
" 6871	0x76F9	盹 (<CJK Ideograph>)";
" 6872	0x76F8	相 (<CJK Ideograph>)";
" 6873	0x7709	眉 (<CJK Ideograph>)";
" 6874	0x770B	看 (<CJK Ideograph>)";
" 6875	0x76FE	盾 (<CJK Ideograph>)";
" 6876	0x76FC	盼 (<CJK Ideograph>)";
" 6877	0x7707	眇 (<CJK Ideograph>)";
" 6878	0x77DC	矜 (<CJK Ideograph>)";
" 6879	0x7802	砂 (<CJK Ideograph>)";
" 6880	0x7814	研 (<CJK Ideograph>)";
" 6881	0x780C	砌 (<CJK Ideograph>)";
" 6882	0x780D	砍 (<CJK Ideograph>)";
" 6883	0x7946	祆 (<CJK Ideograph>)";
" 6884	0x7949	祉 (<CJK Ideograph>)";
" 6885	0x7948	祈 (<CJK Ideograph>)";
" 6886	0x7947	祇 (<CJK Ideograph>)";
" 6887	0x79B9	禹 (<CJK Ideograph>)";
" 6888	0x79BA	禺 (<CJK Ideograph>)";
" 6889	0x79D1	科 (<CJK Ideograph>)";
" 6890	0x79D2	秒 (<CJK Ideograph>)";
" 6891	0x79CB	秋 (<CJK Ideograph>)";
" 6892	0x7A7F	穿 (<CJK Ideograph>)";
" 6893	0x7A81	突 (<CJK Ideograph>)";
" 6894	0x7AFF	竿 (<CJK Ideograph>)";
" 6895	0x7AFD	竽 (<CJK Ideograph>)";
" 6896	0x7C7D	籽 (<CJK Ideograph>)";
" 6897	0x7D02	紂 (<CJK Ideograph>)";
" 6898	0x7D05	紅 (<CJK Ideograph>)";
" 6899	0x7D00	紀 (<CJK Ideograph>)";
" 6900	0x7D09	紉 (<CJK Ideograph>)";
" 6901	0x7D07	紇 (<CJK Ideograph>)";
" 6902	0x7D04	約 (<CJK Ideograph>)";
" 6903	0x7D06	紆 (<CJK Ideograph>)";
" 6904	0x7F38	缸 (<CJK Ideograph>)";
" 6905	0x7F8E	美 (<CJK Ideograph>)";
" 6906	0x7FBF	羿 (<CJK Ideograph>)";
" 6907	0x8004	耄 (<CJK Ideograph>)";
" 6908	0x8010	耐 (<CJK Ideograph>)";
" 6909	0x800D	耍 (<CJK Ideograph>)";
" 6910	0x8011	耑 (<CJK Ideograph>)";
" 6911	0x8036	耶 (<CJK Ideograph>)";
" 6912	0x80D6	胖 (<CJK Ideograph>)";
" 6913	0x80E5	胥 (<CJK Ideograph>)";
" 6914	0x80DA	胚 (<CJK Ideograph>)";
" 6915	0x80C3	胃 (<CJK Ideograph>)";
" 6916	0x80C4	胄 (<CJK Ideograph>)";
" 6917	0x80CC	背 (<CJK Ideograph>)";
" 6918	0x80E1	胡 (<CJK Ideograph>)";
" 6919	0x80DB	胛 (<CJK Ideograph>)";
" 6920	0x80CE	胎 (<CJK Ideograph>)";
" 6921	0x80DE	胞 (<CJK Ideograph>)";
" 6922	0x80E4	胤 (<CJK Ideograph>)";
" 6923	0x80DD	胝 (<CJK Ideograph>)";
" 6924	0x81F4	致 (<CJK Ideograph>)";
" 6925	0x8222	舢 (<CJK Ideograph>)";
" 6926	0x82E7	苧 (<CJK Ideograph>)";
" 6927	0x8303	范 (<CJK Ideograph>)";
" 6928	0x8305	茅 (<CJK Ideograph>)";
" 6929	0x82E3	苣 (<CJK Ideograph>)";
" 6930	0x82DB	苛 (<CJK Ideograph>)";
" 6931	0x82E6	苦 (<CJK Ideograph>)";
" 6932	0x8304	茄 (<CJK Ideograph>)";
" 6933	0x82E5	若 (<CJK Ideograph>)";
" 6934	0x8302	茂 (<CJK Ideograph>)";
" 6935	0x8309	茉 (<CJK Ideograph>)";
" 6936	0x82D2	苒 (<CJK Ideograph>)";
" 6937	0x82D7	苗 (<CJK Ideograph>)";
" 6938	0x82F1	英 (<CJK Ideograph>)";
" 6939	0x8301	茁 (<CJK Ideograph>)";
" 6940	0x82DC	苜 (<CJK Ideograph>)";
" 6941	0x82D4	苔 (<CJK Ideograph>)";
" 6942	0x82D1	苑 (<CJK Ideograph>)";
" 6943	0x82DE	苞 (<CJK Ideograph>)";
" 6944	0x82D3	苓 (<CJK Ideograph>)";
" 6945	0x82DF	苟 (<CJK Ideograph>)";
" 6946	0x82EF	苯 (<CJK Ideograph>)";
" 6947	0x8306	茆 (<CJK Ideograph>)";
" 6948	0x8650	虐 (<CJK Ideograph>)";
" 6949	0x8679	虹 (<CJK Ideograph>)";
" 6950	0x867B	虻 (<CJK Ideograph>)";
" 6951	0x867A	虺 (<CJK Ideograph>)";
" 6952	0x884D	衍 (<CJK Ideograph>)";
" 6953	0x886B	衫 (<CJK Ideograph>)";
" 6954	0x8981	要 (<CJK Ideograph>)";
" 6955	0x89D4	觔 (<CJK Ideograph>)";
" 6956	0x8A08	計 (<CJK Ideograph>)";
" 6957	0x8A02	訂 (<CJK Ideograph>)";
" 6958	0x8A03	訃 (<CJK Ideograph>)";
" 6959	0x8C9E	貞 (<CJK Ideograph>)";
" 6960	0x8CA0	負 (<CJK Ideograph>)";
" 6961	0x8D74	赴 (<CJK Ideograph>)";
" 6962	0x8D73	赳 (<CJK Ideograph>)";
" 6963	0x8DB4	趴 (<CJK Ideograph>)";
" 6964	0x8ECD	軍 (<CJK Ideograph>)";
" 6965	0x8ECC	軌 (<CJK Ideograph>)";
" 6966	0x8FF0	述 (<CJK Ideograph>)";
" 6967	0x8FE6	迦 (<CJK Ideograph>)";
" 6968	0x8FE2	迢 (<CJK Ideograph>)";
" 6969	0x8FEA	迪 (<CJK Ideograph>)";
" 6970	0x8FE5	迥 (<CJK Ideograph>)";
" 6971	0x8FED	迭 (<CJK Ideograph>)";
" 6972	0x8FEB	迫 (<CJK Ideograph>)";
" 6973	0x8FE4	迤 (<CJK Ideograph>)";
" 6974	0x8FE8	迨 (<CJK Ideograph>)";
" 6975	0x90CA	郊 (<CJK Ideograph>)";
" 6976	0x90CE	郎 (<CJK Ideograph>)";
" 6977	0x90C1	郁 (<CJK Ideograph>)";
" 6978	0x90C3	郃 (<CJK Ideograph>)";
" 6979	0x914B	酋 (<CJK Ideograph>)";
" 6980	0x914A	酊 (<CJK Ideograph>)";
" 6981	0x91CD	重 (<CJK Ideograph>)";
" 6982	0x9582	閂 (<CJK Ideograph>)";
" 6983	0x9650	限 (<CJK Ideograph>)";
" 6984	0x964B	陋 (<CJK Ideograph>)";
" 6985	0x964C	陌 (<CJK Ideograph>)";
" 6986	0x964D	降 (<CJK Ideograph>)";
" 6987	0x9762	面 (<CJK Ideograph>)";
" 6988	0x9769	革 (<CJK Ideograph>)";
" 6989	0x97CB	韋 (<CJK Ideograph>)";
" 6990	0x97ED	韭 (<CJK Ideograph>)";
" 6991	0x97F3	音 (<CJK Ideograph>)";
" 6992	0x9801	頁 (<CJK Ideograph>)";
" 6993	0x98A8	風 (<CJK Ideograph>)";
" 6994	0x98DB	飛 (<CJK Ideograph>)";
" 6995	0x98DF	食 (<CJK Ideograph>)";
" 6996	0x9996	首 (<CJK Ideograph>)";
" 6997	0x9999	香 (<CJK Ideograph>)";
" 6998	0x4E58	乘 (<CJK Ideograph>)";
" 6999	0x4EB3	亳 (<CJK Ideograph>)";
" 7000	0x500C	倌 (<CJK Ideograph>)";
" 7001	0x500D	倍 (<CJK Ideograph>)";
" 7002	0x5023	倣 (<CJK Ideograph>)";
" 7003	0x4FEF	俯 (<CJK Ideograph>)";
" 7004	0x5026	倦 (<CJK Ideograph>)";
" 7005	0x5025	倥 (<CJK Ideograph>)";
" 7006	0x4FF8	俸 (<CJK Ideograph>)";
" 7007	0x5029	倩 (<CJK Ideograph>)";
" 7008	0x5016	倖 (<CJK Ideograph>)";
" 7009	0x5006	倆 (<CJK Ideograph>)";
" 7010	0x503C	值 (<CJK Ideograph>)";
" 7011	0x501F	借 (<CJK Ideograph>)";
" 7012	0x501A	倚 (<CJK Ideograph>)";
" 7013	0x5012	倒 (<CJK Ideograph>)";
" 7014	0x5011	們 (<CJK Ideograph>)";
" 7015	0x4FFA	俺 (<CJK Ideograph>)";
" 7016	0x5000	倀 (<CJK Ideograph>)";
" 7017	0x5014	倔 (<CJK Ideograph>)";
" 7018	0x5028	倨 (<CJK Ideograph>)";
" 7019	0x4FF1	俱 (<CJK Ideograph>)";
" 7020	0x5021	倡 (<CJK Ideograph>)";
" 7021	0x500B	個 (<CJK Ideograph>)";
" 7022	0x5019	候 (<CJK Ideograph>)";
" 7023	0x5018	倘 (<CJK Ideograph>)";
" 7024	0x4FF3	俳 (<CJK Ideograph>)";
" 7025	0x4FEE	修 (<CJK Ideograph>)";
" 7026	0x502D	倭 (<CJK Ideograph>)";
" 7027	0x502A	倪 (<CJK Ideograph>)";
" 7028	0x4FFE	俾 (<CJK Ideograph>)";
" 7029	0x502B	倫 (<CJK Ideograph>)";
" 7030	0x5009	倉 (<CJK Ideograph>)"
].
(* /repo/encoding_tables/whatwg/index-big5.txt:5889-6144 *)
Definition index_big5_txt_23 : list line := [
" 7031	0x517C	兼 (<CJK Ideograph>)";
" 7032	0x51A4	冤 (<CJK Ideograph>)";
" 7033	0x51A5	冥 (<CJK Ideograph>)";
" 7034	0x51A2	冢 (<CJK Ideograph>)";
" 7035	0x51CD	凍 (<CJK Ideograph>)";
" 7036	0x51CC	凌 (<CJK Ideograph>)";
" 7037	0x51C6	准 (<CJK Ideograph>)";
" 7038	0x51CB	凋 (<CJK Ideograph>)";
" 7039	0x5256	剖 (<CJK Ideograph>)";
" 7040	0x525C	剜 (<CJK Ideograph>)";
" 7041	0x5254	剔 (<CJK Ideograph>)";
" 7042	0x525B	剛 (<CJK Ideograph>)";
" 7043	0x525D	剝 (<CJK Ideograph>)";
" 7044	0x532A	匪 (<CJK Ideograph>)";
" 7045	0x537F	卿 (<CJK Ideograph>)";
" 7046	0x539F	原 (<CJK Ideograph>)";
" 7047	0x539D	厝 (<CJK Ideograph>)";
" 7048	0x53DF	叟 (<CJK Ideograph>)";
" 7049	0x54E8	哨 (<CJK Ideograph>)";
" 7050	0x5510	唐 (<CJK Ideograph>)";
" 7051	0x5501	唁 (<CJK Ideograph>)";
" 7052	0x5537	唷 (<CJK Ideograph>)";
" 7053	0x54FC	哼 (<CJK Ideograph>)";
" 7054	0x54E5	哥 (<CJK Ideograph>)";
" 7055	0x54F2	哲 (<CJK Ideograph>)";
" 7056	0x5506	唆 (<CJK Ideograph>)";
" 7057	0x54FA	哺 (<CJK Ideograph>)";
" 7058	0x5514	唔 (<CJK Ideograph>)";
" 7059	0x54E9	哩 (<CJK Ideograph>)";
" 7060	0x54ED	哭 (<CJK Ideograph>)";
" 7061	0x54E1	員 (<CJK Ideograph>)";
" 7062	0x5509	唉 (<CJK Ideograph>)";
" 7063	0x54EE	哮 (<CJK Ideograph>)";
" 7064	0x54EA	哪 (<CJK Ideograph>)";
" 7065	0x54E6	哦 (<CJK Ideograph>)";
" 7066	0x5527	唧 (<CJK Ideograph>)";
" 7067	0x5507	唇 (<CJK Ideograph>)";
" 7068	0x54FD	哽 (<CJK Ideograph>)";
" 7069	0x550F	唏 (<CJK Ideograph>)";
" 7070	0x5703	圃 (<CJK Ideograph>)";
" 7071	0x5704	圄 (<CJK Ideograph>)";
" 7072	0x57C2	埂 (<CJK Ideograph>)";
" 7073	0x57D4	埔 (<CJK Ideograph>)";
" 7074	0x57CB	埋 (<CJK Ideograph>)";
" 7075	0x57C3	埃 (<CJK Ideograph>)";
" 7076	0x5809	堉 (<CJK Ideograph>)";
" 7077	0x590F	夏 (<CJK Ideograph>)";
" 7078	0x5957	套 (<CJK Ideograph>)";
" 7079	0x5958	奘 (<CJK Ideograph>)";
" 7080	0x595A	奚 (<CJK Ideograph>)";
" 7081	0x5A11	娑 (<CJK Ideograph>)";
" 7082	0x5A18	娘 (<CJK Ideograph>)";
" 7083	0x5A1C	娜 (<CJK Ideograph>)";
" 7084	0x5A1F	娟 (<CJK Ideograph>)";
" 7085	0x5A1B	娛 (<CJK Ideograph>)";
" 7086	0x5A13	娓 (<CJK Ideograph>)";
" 7087	0x59EC	姬 (<CJK Ideograph>)";
" 7088	0x5A20	娠 (<CJK Ideograph>)";
" 7089	0x5A23	娣 (<CJK Ideograph>)";
" 7090	0x5A29	娩 (<CJK Ideograph>)";
" 7091	0x5A25	娥 (<CJK Ideograph>)";
" 7092	0x5A0C	娌 (<CJK Ideograph>)";
" 7093	0x5A09	娉 (<CJK Ideograph>)";
" 7094	0x5B6B	孫 (<CJK Ideograph>)";
" 7095	0x5C58	屘 (<CJK Ideograph>)";
" 7096	0x5BB0	宰 (<CJK Ideograph>)";
" 7097	0x5BB3	害 (<CJK Ideograph>)";
" 7098	0x5BB6	家 (<CJK Ideograph>)";
" 7099	0x5BB4	宴 (<CJK Ideograph>)";
" 7100	0x5BAE	宮 (<CJK Ideograph>)";
" 7101	0x5BB5	宵 (<CJK Ideograph>)";
" 7102	0x5BB9	容 (<CJK Ideograph>)";
" 7103	0x5BB8	宸 (<CJK Ideograph>)";
" 7104	0x5C04	射 (<CJK Ideograph>)";
" 7105	0x5C51	屑 (<CJK Ideograph>)";
" 7106	0x5C55	展 (<CJK Ideograph>)";
" 7107	0x5C50	屐 (<CJK Ideograph>)";
" 7108	0x5CED	峭 (<CJK Ideograph>)";
" 7109	0x5CFD	峽 (<CJK Ideograph>)";
" 7110	0x5CFB	峻 (<CJK Ideograph>)";
" 7111	0x5CEA	峪 (<CJK Ideograph>)";
" 7112	0x5CE8	峨 (<CJK Ideograph>)";
" 7113	0x5CF0	峰 (<CJK Ideograph>)";
" 7114	0x5CF6	島 (<CJK Ideograph>)";
" 7115	0x5D01	崁 (<CJK Ideograph>)";
" 7116	0x5CF4	峴 (<CJK Ideograph>)";
" 7117	0x5DEE	差 (<CJK Ideograph>)";
" 7118	0x5E2D	席 (<CJK Ideograph>)";
" 7119	0x5E2B	師 (<CJK Ideograph>)";
" 7120	0x5EAB	庫 (<CJK Ideograph>)";
" 7121	0x5EAD	庭 (<CJK Ideograph>)";
" 7122	0x5EA7	座 (<CJK Ideograph>)";
" 7123	0x5F31	弱 (<CJK Ideograph>)";
" 7124	0x5F92	徒 (<CJK Ideograph>)";
" 7125	0x5F91	徑 (<CJK Ideograph>)";
" 7126	0x5F90	徐 (<CJK Ideograph>)";
" 7127	0x6059	恙 (<CJK Ideograph>)";
" 7128	0x6063	恣 (<CJK Ideograph>)";
" 7129	0x6065	恥 (<CJK Ideograph>)";
" 7130	0x6050	恐 (<CJK Ideograph>)";
" 7131	0x6055	恕 (<CJK Ideograph>)";
" 7132	0x606D	恭 (<CJK Ideograph>)";
" 7133	0x6069	恩 (<CJK Ideograph>)";
" 7134	0x606F	息 (<CJK Ideograph>)";
" 7135	0x6084	悄 (<CJK Ideograph>)";
" 7136	0x609F	悟 (<CJK Ideograph>)";
" 7137	0x609A	悚 (<CJK Ideograph>)";
" 7138	0x608D	悍 (<CJK Ideograph>)";
" 7139	0x6094	悔 (<CJK Ideograph>)";
" 7140	0x608C	悌 (<CJK Ideograph>)";
" 7141	0x6085	悅 (<CJK Ideograph>)";
" 7142	0x6096	悖 (<CJK Ideograph>)";
" 7143	0x6247	扇 (<CJK Ideograph>)";
" 7144	0x62F3	拳 (<CJK Ideograph>)";
" 7145	0x6308	挈 (<CJK Ideograph>)";
" 7146	0x62FF	拿 (<CJK Ideograph>)";
" 7147	0x634E	捎 (<CJK Ideograph>)";
" 7148	0x633E	挾 (<CJK Ideograph>)";
" 7149	0x632F	振 (<CJK Ideograph>)";
" 7150	0x6355	捕 (<CJK Ideograph>)";
" 7151	0x6342	捂 (<CJK Ideograph>)";
" 7152	0x6346	捆 (<CJK Ideograph>)";
" 7153	0x634F	捏 (<CJK Ideograph>)";
" 7154	0x6349	捉 (<CJK Ideograph>)";
" 7155	0x633A	挺 (<CJK Ideograph>)";
" 7156	0x6350	捐 (<CJK Ideograph>)";
" 7157	0x633D	挽 (<CJK Ideograph>)";
" 7158	0x632A	挪 (<CJK Ideograph>)";
" 7159	0x632B	挫 (<CJK Ideograph>)";
" 7160	0x6328	挨 (<CJK Ideograph>)";
" 7161	0x634D	捍 (<CJK Ideograph>)";
" 7162	0x634C	捌 (<CJK Ideograph>)";
" 7163	0x6548	效 (<CJK Ideograph>)";
" 7164	0x6549	敉 (<CJK Ideograph>)";
" 7165	0x6599	料 (<CJK Ideograph>)";
" 7166	0x65C1	旁 (<CJK Ideograph>)";
" 7167	0x65C5	旅 (<CJK Ideograph>)";
" 7168	0x6642	時 (<CJK Ideograph>)";
" 7169	0x6649	晉 (<CJK Ideograph>)";
" 7170	0x664F	晏 (<CJK Ideograph>)";
" 7171	0x6643	晃 (<CJK Ideograph>)";
" 7172	0x6652	晒 (<CJK Ideograph>)";
" 7173	0x664C	晌 (<CJK Ideograph>)";
" 7174	0x6645	晅 (<CJK Ideograph>)";
" 7175	0x6641	晁 (<CJK Ideograph>)";
" 7176	0x66F8	書 (<CJK Ideograph>)";
" 7177	0x6714	朔 (<CJK Ideograph>)";
" 7178	0x6715	朕 (<CJK Ideograph>)";
" 7179	0x6717	朗 (<CJK Ideograph>)";
" 7180	0x6821	校 (<CJK Ideograph>)";
" 7181	0x6838	核 (<CJK Ideograph>)";
" 7182	0x6848	案 (<CJK Ideograph>)";
" 7183	0x6846	框 (<CJK Ideograph>)";
" 7184	0x6853	桓 (<CJK Ideograph>)";
" 7185	0x6839	根 (<CJK Ideograph>)";
" 7186	0x6842	桂 (<CJK Ideograph>)";
" 7187	0x6854	桔 (<CJK Ideograph>)";
" 7188	0x6829	栩 (<CJK Ideograph>)";
" 7189	0x68B3	梳 (<CJK Ideograph>)";
" 7190	0x6817	栗 (<CJK Ideograph>)";
" 7191	0x684C	桌 (<CJK Ideograph>)";
" 7192	0x6851	桑 (<CJK Ideograph>)";
" 7193	0x683D	栽 (<CJK Ideograph>)";
" 7194	0x67F4	柴 (<CJK Ideograph>)";
" 7195	0x6850	桐 (<CJK Ideograph>)";
" 7196	0x6840	桀 (<CJK Ideograph>)";
" 7197	0x683C	格 (<CJK Ideograph>)";
" 7198	0x6843	桃 (<CJK Ideograph>)";
" 7199	0x682A	株 (<CJK Ideograph>)";
" 7200	0x6845	桅 (<CJK Ideograph>)";
" 7201	0x6813	栓 (<CJK Ideograph>)";
" 7202	0x6818	栘 (<CJK Ideograph>)";
" 7203	0x6841	桁 (<CJK Ideograph>)";
" 7204	0x6B8A	殊 (<CJK Ideograph>)";
" 7205	0x6B89	殉 (<CJK Ideograph>)";
" 7206	0x6BB7	殷 (<CJK Ideograph>)";
" 7207	0x6C23	氣 (<CJK Ideograph>)";
" 7208	0x6C27	氧 (<CJK Ideograph>)";
" 7209	0x6C28	氨 (<CJK Ideograph>)";
" 7210	0x6C26	氦 (<CJK Ideograph>)";
" 7211	0x6C24	氤 (<CJK Ideograph>)";
" 7212	0x6CF0	泰 (<CJK Ideograph>)";
" 7213	0x6D6A	浪 (<CJK Ideograph>)";
" 7214	0x6D95	涕 (<CJK Ideograph>)";
" 7215	0x6D88	消 (<CJK Ideograph>)";
" 7216	0x6D87	涇 (<CJK Ideograph>)";
" 7217	0x6D66	浦 (<CJK Ideograph>)";
" 7218	0x6D78	浸 (<CJK Ideograph>)";
" 7219	0x6D77	海 (<CJK Ideograph>)";
" 7220	0x6D59	浙 (<CJK Ideograph>)";
" 7221	0x6D93	涓 (<CJK Ideograph>)";
" 7222	0x6D6C	浬 (<CJK Ideograph>)";
" 7223	0x6D89	涉 (<CJK Ideograph>)";
" 7224	0x6D6E	浮 (<CJK Ideograph>)";
" 7225	0x6D5A	浚 (<CJK Ideograph>)";
" 7226	0x6D74	浴 (<CJK Ideograph>)";
" 7227	0x6D69	浩 (<CJK Ideograph>)";
" 7228	0x6D8C	涌 (<CJK Ideograph>)";
" 7229	0x6D8A	涊 (<CJK Ideograph>)";
" 7230	0x6D79	浹 (<CJK Ideograph>)";
" 7231	0x6D85	涅 (<CJK Ideograph>)";
" 7232	0x6D65	浥 (<CJK Ideograph>)";
" 7233	0x6D94	涔 (<CJK Ideograph>)";
" 7234	0x70CA	烊 (<CJK Ideograph>)";
" 7235	0x70D8	烘 (<CJK Ideograph>)";
" 7236	0x70E4	烤 (<CJK Ideograph>)";
" 7237	0x70D9	烙 (<CJK Ideograph>)";
" 7238	0x70C8	烈 (<CJK Ideograph>)";
" 7239	0x70CF	烏 (<CJK Ideograph>)";
" 7240	0x7239	爹 (<CJK Ideograph>)";
" 7241	0x7279	特 (<CJK Ideograph>)";
" 7242	0x72FC	狼 (<CJK Ideograph>)";
" 7243	0x72F9	狹 (<CJK Ideograph>)";
" 7244	0x72FD	狽 (<CJK Ideograph>)";
" 7245	0x72F8	狸 (<CJK Ideograph>)";
" 7246	0x72F7	狷 (<CJK Ideograph>)";
" 7247	0x7386	玆 (<CJK Ideograph>)";
" 7248	0x73ED	班 (<CJK Ideograph>)";
" 7249	0x7409	琉 (<CJK Ideograph>)";
" 7250	0x73EE	珮 (<CJK Ideograph>)";
" 7251	0x73E0	珠 (<CJK Ideograph>)";
" 7252	0x73EA	珪 (<CJK Ideograph>)";
" 7253	0x73DE	珞 (<CJK Ideograph>)";
" 7254	0x7554	畔 (<CJK Ideograph>)";
" 7255	0x755D	畝 (<CJK Ideograph>)";
" 7256	0x755C	畜 (<CJK Ideograph>)";
" 7257	0x755A	畚 (<CJK Ideograph>)";
" 7258	0x7559	留 (<CJK Ideograph>)";
" 7259	0x75BE	疾 (<CJK Ideograph>)";
" 7260	0x75C5	病 (<CJK Ideograph>)";
" 7261	0x75C7	症 (<CJK Ideograph>)";
" 7262	0x75B2	疲 (<CJK Ideograph>)";
" 7263	0x75B3	疳 (<CJK Ideograph>)";
" 7264	0x75BD	疽 (<CJK Ideograph>)";
" 7265	0x75BC	疼 (<CJK Ideograph>)";
" 7266	0x75B9	疹 (<CJK Ideograph>)";
" 7267	0x75C2	痂 (<CJK Ideograph>)";
" 7268	0x75B8	疸 (<CJK Ideograph>)";
" 7269	0x768B	皋 (<CJK Ideograph>)";
" 7270	0x76B0	皰 (<CJK Ideograph>)";
" 7271	0x76CA	益 (<CJK Ideograph>)";
" 7272	0x76CD	盍 (<CJK Ideograph>)";
" 7273	0x76CE	盎 (<CJK Ideograph>)";
" 7274	0x7729	眩 (<CJK Ideograph>)";
" 7275	0x771F	真 (<CJK Ideograph>)";
" 7276	0x7720	眠 (<CJK Ideograph>)";
" 7277	0x7728	眨 (<CJK Ideograph>)";
" 7278	0x77E9	矩 (<CJK Ideograph>)";
" 7279	0x7830	砰 (<CJK Ideograph>)";
" 7280	0x7827	砧 (<CJK Ideograph>)";
" 7281	0x7838	砸 (<CJK Ideograph>)";
" 7282	0x781D	砝 (<CJK Ideograph>)";
" 7283	0x7834	破 (<CJK Ideograph>)";
" 7284	0x7837	砷 (<CJK Ideograph>)";
" 7285	0x7825	砥 (<CJK Ideograph>)";
" 7286	0x782D	砭 (<CJK Ideograph>)"
].
(* /repo/encoding_tables/whatwg/index-big5.txt:6145-6400 *)
Definition index_big5_txt_24 : list line := [
" 7287	0x7820	砠 (<CJK Ideograph>)";
" 7288	0x781F	砟 (<CJK Ideograph>)";
" 7289	0x7832	砲 (<CJK Ideograph>)";
" 7290	0x7955	祕 (<CJK Ideograph>)";
" 7291	0x7950	祐 (<CJK Ideograph>)";
" 7292	0x7960	祠 (<CJK Ideograph>)";
" 7293	0x795F	祟 (<CJK Ideograph>)";
" 7294	0x7956	祖 (<CJK Ideograph>)";
" 7295	0x795E	神 (<CJK Ideograph>)";
" 7296	0x795D	祝 (<CJK Ideograph>)";
" 7297	0x7957	祗 (<CJK Ideograph>)";
" 7298	0x795A	祚 (<CJK Ideograph>)";
" 7299	0x79E4	秤 (<CJK Ideograph>)";
" 7300	0x79E3	秣 (<CJK Ideograph>)";
" 7301	0x79E7	秧 (<CJK Ideograph>)";
" 7302	0x79DF	租 (<CJK Ideograph>)";
" 7303	0x79E6	秦 (<CJK Ideograph>)";
" 7304	0x79E9	秩 (<CJK Ideograph>)";
" 7305	0x79D8	秘 (<CJK Ideograph>)";
" 7306	0x7A84	窄 (<CJK Ideograph>)";
" 7307	0x7A88	窈 (<CJK Ideograph>)";
" 7308	0x7AD9	站 (<CJK Ideograph>)";
" 7309	0x7B06	笆 (<CJK Ideograph>)";
" 7310	0x7B11	笑 (<CJK Ideograph>)";
" 7311	0x7C89	粉 (<CJK Ideograph>)";
" 7312	0x7D21	紡 (<CJK Ideograph>)";
" 7313	0x7D17	紗 (<CJK Ideograph>)";
" 7314	0x7D0B	紋 (<CJK Ideograph>)";
" 7315	0x7D0A	紊 (<CJK Ideograph>)";
" 7316	0x7D20	素 (<CJK Ideograph>)";
" 7317	0x7D22	索 (<CJK Ideograph>)";
" 7318	0x7D14	純 (<CJK Ideograph>)";
" 7319	0x7D10	紐 (<CJK Ideograph>)";
" 7320	0x7D15	紕 (<CJK Ideograph>)";
" 7321	0x7D1A	級 (<CJK Ideograph>)";
" 7322	0x7D1C	紜 (<CJK Ideograph>)";
" 7323	0x7D0D	納 (<CJK Ideograph>)";
" 7324	0x7D19	紙 (<CJK Ideograph>)";
" 7325	0x7D1B	紛 (<CJK Ideograph>)";
" 7326	0x7F3A	缺 (<CJK Ideograph>)";
" 7327	0x7F5F	罟 (<CJK Ideograph>)";
" 7328	0x7F94	羔 (<CJK Ideograph>)";
" 7329	0x7FC5	翅 (<CJK Ideograph>)";
" 7330	0x7FC1	翁 (<CJK Ideograph>)";
" 7331	0x8006	耆 (<CJK Ideograph>)";
" 7332	0x8018	耘 (<CJK Ideograph>)";
" 7333	0x8015	耕 (<CJK Ideograph>)";
" 7334	0x8019	耙 (<CJK Ideograph>)";
" 7335	0x8017	耗 (<CJK Ideograph>)";
" 7336	0x803D	耽 (<CJK Ideograph>)";
" 7337	0x803F	耿 (<CJK Ideograph>)";
" 7338	0x80F1	胱 (<CJK Ideograph>)";
" 7339	0x8102	脂 (<CJK Ideograph>)";
" 7340	0x80F0	胰 (<CJK Ideograph>)";
" 7341	0x8105	脅 (<CJK Ideograph>)";
" 7342	0x80ED	胭 (<CJK Ideograph>)";
" 7343	0x80F4	胴 (<CJK Ideograph>)";
" 7344	0x8106	脆 (<CJK Ideograph>)";
" 7345	0x80F8	胸 (<CJK Ideograph>)";
" 7346	0x80F3	胳 (<CJK Ideograph>)";
" 7347	0x8108	脈 (<CJK Ideograph>)";
" 7348	0x80FD	能 (<CJK Ideograph>)";
" 7349	0x810A	脊 (<CJK Ideograph>)";
" 7350	0x80FC	胼 (<CJK Ideograph>)";
" 7351	0x80EF	胯 (<CJK Ideograph>)";
" 7352	0x81ED	臭 (<CJK Ideograph>)";
" 7353	0x81EC	臬 (<CJK Ideograph>)";
" 7354	0x8200	舀 (<CJK Ideograph>)";
" 7355	0x8210	舐 (<CJK Ideograph>)";
" 7356	0x822A	航 (<CJK Ideograph>)";
" 7357	0x822B	舫 (<CJK Ideograph>)";
" 7358	0x8228	舨 (<CJK Ideograph>)";
" 7359	0x822C	般 (<CJK Ideograph>)";
" 7360	0x82BB	芻 (<CJK Ideograph>)";
" 7361	0x832B	茫 (<CJK Ideograph>)";
" 7362	0x8352	荒 (<CJK Ideograph>)";
" 7363	0x8354	荔 (<CJK Ideograph>)";
" 7364	0x834A	荊 (<CJK Ideograph>)";
" 7365	0x8338	茸 (<CJK Ideograph>)";
" 7366	0x8350	荐 (<CJK Ideograph>)";
" 7367	0x8349	草 (<CJK Ideograph>)";
" 7368	0x8335	茵 (<CJK Ideograph>)";
" 7369	0x8334	茴 (<CJK Ideograph>)";
" 7370	0x834F	荏 (<CJK Ideograph>)";
" 7371	0x8332	茲 (<CJK Ideograph>)";
" 7372	0x8339	茹 (<CJK Ideograph>)";
" 7373	0x8336	茶 (<CJK Ideograph>)";
" 7374	0x8317	茗 (<CJK Ideograph>)";
" 7375	0x8340	荀 (<CJK Ideograph>)";
" 7376	0x8331	茱 (<CJK Ideograph>)";
" 7377	0x8328	茨 (<CJK Ideograph>)";
" 7378	0x8343	荃 (<CJK Ideograph>)";
" 7379	0x8654	虔 (<CJK Ideograph>)";
" 7380	0x868A	蚊 (<CJK Ideograph>)";
" 7381	0x86AA	蚪 (<CJK Ideograph>)";
" 7382	0x8693	蚓 (<CJK Ideograph>)";
" 7383	0x86A4	蚤 (<CJK Ideograph>)";
" 7384	0x86A9	蚩 (<CJK Ideograph>)";
" 7385	0x868C	蚌 (<CJK Ideograph>)";
" 7386	0x86A3	蚣 (<CJK Ideograph>)";
" 7387	0x869C	蚜 (<CJK Ideograph>)";
" 7388	0x8870	衰 (<CJK Ideograph>)";
" 7389	0x8877	衷 (<CJK Ideograph>)";
" 7390	0x8881	袁 (<CJK Ideograph>)";
" 7391	0x8882	袂 (<CJK Ideograph>)";
" 7392	0x887D	衽 (<CJK Ideograph>)";
" 7393	0x8879	衹 (<CJK Ideograph>)";
" 7394	0x8A18	記 (<CJK Ideograph>)";
" 7395	0x8A10	訐 (<CJK Ideograph>)";
" 7396	0x8A0E	討 (<CJK Ideograph>)";
" 7397	0x8A0C	訌 (<CJK Ideograph>)";
" 7398	0x8A15	訕 (<CJK Ideograph>)";
" 7399	0x8A0A	訊 (<CJK Ideograph>)";
" 7400	0x8A17	託 (<CJK Ideograph>)";
" 7401	0x8A13	訓 (<CJK Ideograph>)";
" 7402	0x8A16	訖 (<CJK Ideograph>)";
" 7403	0x8A0F	訏 (<CJK Ideograph>)";
" 7404	0x8A11	訑 (<CJK Ideograph>)";
" 7405	0x8C48	豈 (<CJK Ideograph>)";
" 7406	0x8C7A	豺 (<CJK Ideograph>)";
" 7407	0x8C79	豹 (<CJK Ideograph>)";
" 7408	0x8CA1	財 (<CJK Ideograph>)";
" 7409	0x8CA2	貢 (<CJK Ideograph>)";
" 7410	0x8D77	起 (<CJK Ideograph>)";
" 7411	0x8EAC	躬 (<CJK Ideograph>)";
" 7412	0x8ED2	軒 (<CJK Ideograph>)";
" 7413	0x8ED4	軔 (<CJK Ideograph>)";
" 7414	0x8ECF	軏 (<CJK Ideograph>)";
" 7415	0x8FB1	辱 (<CJK Ideograph>)";
" 7416	0x9001	送 (<CJK Ideograph>)";
" 7417	0x9006	逆 (<CJK Ideograph>)";
" 7418	0x8FF7	迷 (<CJK Ideograph>)";
" 7419	0x9000	退 (<CJK Ideograph>)";
" 7420	0x8FFA	迺 (<CJK Ideograph>)";
" 7421	0x8FF4	迴 (<CJK Ideograph>)";
" 7422	0x9003	逃 (<CJK Ideograph>)";
" 7423	0x8FFD	追 (<CJK Ideograph>)";
" 7424	0x9005	逅 (<CJK Ideograph>)";
" 7425	0x8FF8	迸 (<CJK Ideograph>)";
" 7426	0x9095	邕 (<CJK Ideograph>)";
" 7427	0x90E1	郡 (<CJK Ideograph>)";
" 7428	0x90DD	郝 (<CJK Ideograph>)";
" 7429	0x90E2	郢 (<CJK Ideograph>)";
" 7430	0x9152	酒 (<CJK Ideograph>)";
" 7431	0x914D	配 (<CJK Ideograph>)";
" 7432	0x914C	酌 (<CJK Ideograph>)";
" 7433	0x91D8	釘 (<CJK Ideograph>)";
" 7434	0x91DD	針 (<CJK Ideograph>)";
" 7435	0x91D7	釗 (<CJK Ideograph>)";
" 7436	0x91DC	釜 (<CJK Ideograph>)";
" 7437	0x91D9	釙 (<CJK Ideograph>)";
" 7438	0x9583	閃 (<CJK Ideograph>)";
" 7439	0x9662	院 (<CJK Ideograph>)";
" 7440	0x9663	陣 (<CJK Ideograph>)";
" 7441	0x9661	陡 (<CJK Ideograph>)";
" 7442	0x965B	陛 (<CJK Ideograph>)";
" 7443	0x965D	陝 (<CJK Ideograph>)";
" 7444	0x9664	除 (<CJK Ideograph>)";
" 7445	0x9658	陘 (<CJK Ideograph>)";
" 7446	0x965E	陞 (<CJK Ideograph>)";
" 7447	0x96BB	隻 (<CJK Ideograph>)";
" 7448	0x98E2	飢 (<CJK Ideograph>)";
" 7449	0x99AC	馬 (<CJK Ideograph>)";
" 7450	0x9AA8	骨 (<CJK Ideograph>)";
" 7451	0x9AD8	高 (<CJK Ideograph>)";
" 7452	0x9B25	鬥 (<CJK Ideograph>)";
" 7453	0x9B32	鬲 (<CJK Ideograph>)";
" 7454	0x9B3C	鬼 (<CJK Ideograph>)";
" 7455	0x4E7E	乾 (<CJK Ideograph>)";
" 7456	0x507A	偺 (<CJK Ideograph>)";
" 7457	0x507D	偽 (<CJK Ideograph>)";
" 7458	0x505C	停 (<CJK Ideograph>)";
" 7459	0x5047	假 (<CJK Ideograph>)";
" 7460	0x5043	偃 (<CJK Ideograph>)";
" 7461	0x504C	偌 (<CJK Ideograph>)";
" 7462	0x505A	做 (<CJK Ideograph>)";
" 7463	0x5049	偉 (<CJK Ideograph>)";
" 7464	0x5065	健 (<CJK Ideograph>)";
" 7465	0x5076	偶 (<CJK Ideograph>)";
" 7466	0x504E	偎 (<CJK Ideograph>)";
" 7467	0x5055	偕 (<CJK Ideograph>)";
" 7468	0x5075	偵 (<CJK Ideograph>)";
" 7469	0x5074	側 (<CJK Ideograph>)";
" 7470	0x5077	偷 (<CJK Ideograph>)";
" 7471	0x504F	偏 (<CJK Ideograph>)";
" 7472	0x500F	倏 (<CJK Ideograph>)";
" 7473	0x506F	偯 (<CJK Ideograph>)";
" 7474	0x506D	偭 (<CJK Ideograph>)";
" 7475	0x515C	兜 (<CJK Ideograph>)";
" 7476	0x5195	冕 (<CJK Ideograph>)";
" 7477	0x51F0	凰 (<CJK Ideograph>)";
" 7478	0x526A	剪 (<CJK Ideograph>)";
" 7479	0x526F	副 (<CJK Ideograph>)";
" 7480	0x52D2	勒 (<CJK Ideograph>)";
" 7481	0x52D9	務 (<CJK Ideograph>)";
" 7482	0x52D8	勘 (<CJK Ideograph>)";
" 7483	0x52D5	動 (<CJK Ideograph>)";
" 7484	0x5310	匐 (<CJK Ideograph>)";
" 7485	0x530F	匏 (<CJK Ideograph>)";
" 7486	0x5319	匙 (<CJK Ideograph>)";
" 7487	0x533F	匿 (<CJK Ideograph>)";
" 7488	0x5340	區 (<CJK Ideograph>)";
" 7489	0x533E	匾 (<CJK Ideograph>)";
" 7490	0x53C3	參 (<CJK Ideograph>)";
" 7491	0x66FC	曼 (<CJK Ideograph>)";
" 7492	0x5546	商 (<CJK Ideograph>)";
" 7493	0x556A	啪 (<CJK Ideograph>)";
" 7494	0x5566	啦 (<CJK Ideograph>)";
" 7495	0x5544	啄 (<CJK Ideograph>)";
" 7496	0x555E	啞 (<CJK Ideograph>)";
" 7497	0x5561	啡 (<CJK Ideograph>)";
" 7498	0x5543	啃 (<CJK Ideograph>)";
" 7499	0x554A	啊 (<CJK Ideograph>)";
" 7500	0x5531	唱 (<CJK Ideograph>)";
" 7501	0x5556	啖 (<CJK Ideograph>)";
" 7502	0x554F	問 (<CJK Ideograph>)";
" 7503	0x5555	啕 (<CJK Ideograph>)";
" 7504	0x552F	唯 (<CJK Ideograph>)";
" 7505	0x5564	啤 (<CJK Ideograph>)";
" 7506	0x5538	唸 (<CJK Ideograph>)";
" 7507	0x552E	售 (<CJK Ideograph>)";
" 7508	0x555C	啜 (<CJK Ideograph>)";
" 7509	0x552C	唬 (<CJK Ideograph>)";
" 7510	0x5563	啣 (<CJK Ideograph>)";
" 7511	0x5533	唳 (<CJK Ideograph>)";
" 7512	0x5541	啁 (<CJK Ideograph>)";
" 7513	0x5557	啗 (<CJK Ideograph>)";
" 7514	0x5708	圈 (<CJK Ideograph>)";
" 7515	0x570B	國 (<CJK Ideograph>)";
" 7516	0x5709	圉 (<CJK Ideograph>)";
" 7517	0x57DF	域 (<CJK Ideograph>)";
" 7518	0x5805	堅 (<CJK Ideograph>)";
" 7519	0x580A	堊 (<CJK Ideograph>)";
" 7520	0x5806	堆 (<CJK Ideograph>)";
" 7521	0x57E0	埠 (<CJK Ideograph>)";
" 7522	0x57E4	埤 (<CJK Ideograph>)";
" 7523	0x57FA	基 (<CJK Ideograph>)";
" 7524	0x5802	堂 (<CJK Ideograph>)";
" 7525	0x5835	堵 (<CJK Ideograph>)";
" 7526	0x57F7	執 (<CJK Ideograph>)";
" 7527	0x57F9	培 (<CJK Ideograph>)";
" 7528	0x5920	夠 (<CJK Ideograph>)";
" 7529	0x5962	奢 (<CJK Ideograph>)";
" 7530	0x5A36	娶 (<CJK Ideograph>)";
" 7531	0x5A41	婁 (<CJK Ideograph>)";
" 7532	0x5A49	婉 (<CJK Ideograph>)";
" 7533	0x5A66	婦 (<CJK Ideograph>)";
" 7534	0x5A6A	婪 (<CJK Ideograph>)";
" 7535	0x5A40	婀 (<CJK Ideograph>)";
" 7536	0x5A3C	娼 (<CJK Ideograph>)";
" 7537	0x5A62	婢 (<CJK Ideograph>)";
" 7538	0x5A5A	婚 (<CJK Ideograph>)";
" 7539	0x5A46	婆 (<CJK Ideograph>)";
" 7540	0x5A4A	婊 (<CJK Ideograph>)";
" 7541	0x5B70	孰 (<CJK Ideograph>)";
" 7542	0x5BC7	寇 (<CJK Ideograph>)"
].
(* /repo/encoding_tables/whatwg/index-big5.txt:6401-6656 *)
Definition index_big5_txt_25 : list line := [
" 7543	0x5BC5	寅 (<CJK Ideograph>)";
" 7544	0x5BC4	寄 (<CJK Ideograph>)";
" 7545	0x5BC2	寂 (<CJK Ideograph>)";
" 7546	0x5BBF	宿 (<CJK Ideograph>)";
" 7547	0x5BC6	密 (<CJK Ideograph>)";
" 7548	0x5C09	尉 (<CJK Ideograph>)";
" 7549	0x5C08	專 (<CJK Ideograph>)";
" 7550	0x5C07	將 (<CJK Ideograph>)";
" 7551	0x5C60	屠 (<CJK Ideograph>)";
" 7552	0x5C5C	屜 (<CJK Ideograph>)";
" 7553	0x5C5D	屝 (<CJK Ideograph>)";
" 7554	0x5D07	崇 (<CJK Ideograph>)";
" 7555	0x5D06	崆 (<CJK Ideograph>)";
" 7556	0x5D0E	崎 (<CJK Ideograph>)";
" 7557	0x5D1B	崛 (<CJK Ideograph>)";
" 7558	0x5D16	崖 (<CJK Ideograph>)";
" 7559	0x5D22	崢 (<CJK Ideograph>)";
" 7560	0x5D11	崑 (<CJK Ideograph>)";
" 7561	0x5D29	崩 (<CJK Ideograph>)";
" 7562	0x5D14	崔 (<CJK Ideograph>)";
" 7563	0x5D19	崙 (<CJK Ideograph>)";
" 7564	0x5D24	崤 (<CJK Ideograph>)";
" 7565	0x5D27	崧 (<CJK Ideograph>)";
" 7566	0x5D17	崗 (<CJK Ideograph>)";
" 7567	0x5DE2	巢 (<CJK Ideograph>)";
" 7568	0x5E38	常 (<CJK Ideograph>)";
" 7569	0x5E36	帶 (<CJK Ideograph>)";
" 7570	0x5E33	帳 (<CJK Ideograph>)";
" 7571	0x5E37	帷 (<CJK Ideograph>)";
" 7572	0x5EB7	康 (<CJK Ideograph>)";
" 7573	0x5EB8	庸 (<CJK Ideograph>)";
" 7574	0x5EB6	庶 (<CJK Ideograph>)";
" 7575	0x5EB5	庵 (<CJK Ideograph>)";
" 7576	0x5EBE	庾 (<CJK Ideograph>)";
" 7577	0x5F35	張 (<CJK Ideograph>)";
" 7578	0x5F37	強 (<CJK Ideograph>)";
" 7579	0x5F57	彗 (<CJK Ideograph>)";
" 7580	0x5F6C	彬 (<CJK Ideograph>)";
" 7581	0x5F69	彩 (<CJK Ideograph>)";
" 7582	0x5F6B	彫 (<CJK Ideograph>)";
" 7583	0x5F97	得 (<CJK Ideograph>)";
" 7584	0x5F99	徙 (<CJK Ideograph>)";
" 7585	0x5F9E	從 (<CJK Ideograph>)";
" 7586	0x5F98	徘 (<CJK Ideograph>)";
" 7587	0x5FA1	御 (<CJK Ideograph>)";
" 7588	0x5FA0	徠 (<CJK Ideograph>)";
" 7589	0x5F9C	徜 (<CJK Ideograph>)";
" 7590	0x607F	恿 (<CJK Ideograph>)";
" 7591	0x60A3	患 (<CJK Ideograph>)";
" 7592	0x6089	悉 (<CJK Ideograph>)";
" 7593	0x60A0	悠 (<CJK Ideograph>)";
" 7594	0x60A8	您 (<CJK Ideograph>)";
" 7595	0x60CB	惋 (<CJK Ideograph>)";
" 7596	0x60B4	悴 (<CJK Ideograph>)";
" 7597	0x60E6	惦 (<CJK Ideograph>)";
" 7598	0x60BD	悽 (<CJK Ideograph>)";
" 7599	0x60C5	情 (<CJK Ideograph>)";
" 7600	0x60BB	悻 (<CJK Ideograph>)";
" 7601	0x60B5	悵 (<CJK Ideograph>)";
" 7602	0x60DC	惜 (<CJK Ideograph>)";
" 7603	0x60BC	悼 (<CJK Ideograph>)";
" 7604	0x60D8	惘 (<CJK Ideograph>)";
" 7605	0x60D5	惕 (<CJK Ideograph>)";
" 7606	0x60C6	惆 (<CJK Ideograph>)";
" 7607	0x60DF	惟 (<CJK Ideograph>)";
" 7608	0x60B8	悸 (<CJK Ideograph>)";
" 7609	0x60DA	惚 (<CJK Ideograph>)";
" 7610	0x60C7	惇 (<CJK Ideograph>)";
" 7611	0x621A	戚 (<CJK Ideograph>)";
" 7612	0x621B	戛 (<CJK Ideograph>)";
" 7613	0x6248	扈 (<CJK Ideograph>)";
" 7614	0x63A0	掠 (<CJK Ideograph>)";
" 7615	0x63A7	控 (<CJK Ideograph>)";
" 7616	0x6372	捲 (<CJK Ideograph>)";
" 7617	0x6396	掖 (<CJK Ideograph>)";
" 7618	0x63A2	探 (<CJK Ideograph>)";
" 7619	0x63A5	接 (<CJK Ideograph>)";
" 7620	0x6377	捷 (<CJK Ideograph>)";
" 7621	0x6367	捧 (<CJK Ideograph>)";
" 7622	0x6398	掘 (<CJK Ideograph>)";
" 7623	0x63AA	措 (<CJK Ideograph>)";
" 7624	0x6371	捱 (<CJK Ideograph>)";
" 7625	0x63A9	掩 (<CJK Ideograph>)";
" 7626	0x6389	掉 (<CJK Ideograph>)";
" 7627	0x6383	掃 (<CJK Ideograph>)";
" 7628	0x639B	掛 (<CJK Ideograph>)";
" 7629	0x636B	捫 (<CJK Ideograph>)";
" 7630	0x63A8	推 (<CJK Ideograph>)";
" 7631	0x6384	掄 (<CJK Ideograph>)";
" 7632	0x6388	授 (<CJK Ideograph>)";
" 7633	0x6399	掙 (<CJK Ideograph>)";
" 7634	0x63A1	採 (<CJK Ideograph>)";
" 7635	0x63AC	掬 (<CJK Ideograph>)";
" 7636	0x6392	排 (<CJK Ideograph>)";
" 7637	0x638F	掏 (<CJK Ideograph>)";
" 7638	0x6380	掀 (<CJK Ideograph>)";
" 7639	0x637B	捻 (<CJK Ideograph>)";
" 7640	0x6369	捩 (<CJK Ideograph>)";
" 7641	0x6368	捨 (<CJK Ideograph>)";
" 7642	0x637A	捺 (<CJK Ideograph>)";
" 7643	0x655D	敝 (<CJK Ideograph>)";
" 7644	0x6556	敖 (<CJK Ideograph>)";
" 7645	0x6551	救 (<CJK Ideograph>)";
" 7646	0x6559	教 (<CJK Ideograph>)";
" 7647	0x6557	敗 (<CJK Ideograph>)";
" 7648	0x555F	啟 (<CJK Ideograph>)";
" 7649	0x654F	敏 (<CJK Ideograph>)";
" 7650	0x6558	敘 (<CJK Ideograph>)";
" 7651	0x6555	敕 (<CJK Ideograph>)";
" 7652	0x6554	敔 (<CJK Ideograph>)";
" 7653	0x659C	斜 (<CJK Ideograph>)";
" 7654	0x659B	斛 (<CJK Ideograph>)";
" 7655	0x65AC	斬 (<CJK Ideograph>)";
" 7656	0x65CF	族 (<CJK Ideograph>)";
" 7657	0x65CB	旋 (<CJK Ideograph>)";
" 7658	0x65CC	旌 (<CJK Ideograph>)";
" 7659	0x65CE	旎 (<CJK Ideograph>)";
" 7660	0x665D	晝 (<CJK Ideograph>)";
" 7661	0x665A	晚 (<CJK Ideograph>)";
" 7662	0x6664	晤 (<CJK Ideograph>)";
" 7663	0x6668	晨 (<CJK Ideograph>)";
" 7664	0x6666	晦 (<CJK Ideograph>)";
" 7665	0x665E	晞 (<CJK Ideograph>)";
" 7666	0x66F9	曹 (<CJK Ideograph>)";
" 7667	0x52D7	勗 (<CJK Ideograph>)";
" 7668	0x671B	望 (<CJK Ideograph>)";
" 7669	0x6881	梁 (<CJK Ideograph>)";
" 7670	0x68AF	梯 (<CJK Ideograph>)";
" 7671	0x68A2	梢 (<CJK Ideograph>)";
" 7672	0x6893	梓 (<CJK Ideograph>)";
" 7673	0x68B5	梵 (<CJK Ideograph>)";
" 7674	0x687F	桿 (<CJK Ideograph>)";
" 7675	0x6876	桶 (<CJK Ideograph>)";
" 7676	0x68B1	梱 (<CJK Ideograph>)";
" 7677	0x68A7	梧 (<CJK Ideograph>)";
" 7678	0x6897	梗 (<CJK Ideograph>)";
" 7679	0x68B0	械 (<CJK Ideograph>)";
" 7680	0x6883	梃 (<CJK Ideograph>)";
" 7681	0x68C4	棄 (<CJK Ideograph>)";
" 7682	0x68AD	梭 (<CJK Ideograph>)";
" 7683	0x6886	梆 (<CJK Ideograph>)";
" 7684	0x6885	梅 (<CJK Ideograph>)";
" 7685	0x6894	梔 (<CJK Ideograph>)";
" 7686	0x689D	條 (<CJK Ideograph>)";
" 7687	0x68A8	梨 (<CJK Ideograph>)";
" 7688	0x689F	梟 (<CJK Ideograph>)";
" 7689	0x68A1	梡 (<CJK Ideograph>)";
" 7690	0x6882	梂 (<CJK Ideograph>)";
" 7691	0x6B32	欲 (<CJK Ideograph>)";
" 7692	0x6BBA	殺 (<CJK Ideograph>)";
" 7693	0x6BEB	毫 (<CJK Ideograph>)";
" 7694	0x6BEC	毬 (<CJK Ideograph>)";
" 7695	0x6C2B	氫 (<CJK Ideograph>)";
" 7696	0x6D8E	涎 (<CJK Ideograph>)";
" 7697	0x6DBC	涼 (<CJK Ideograph>)";
" 7698	0x6DF3	淳 (<CJK Ideograph>)";
" 7699	0x6DD9	淙 (<CJK Ideograph>)";
" 7700	0x6DB2	液 (<CJK Ideograph>)";
" 7701	0x6DE1	淡 (<CJK Ideograph>)";
" 7702	0x6DCC	淌 (<CJK Ideograph>)";
" 7703	0x6DE4	淤 (<CJK Ideograph>)";
" 7704	0x6DFB	添 (<CJK Ideograph>)";
" 7705	0x6DFA	淺 (<CJK Ideograph>)";
" 7706	0x6E05	清 (<CJK Ideograph>)";
" 7707	0x6DC7	淇 (<CJK Ideograph>)";
" 7708	0x6DCB	淋 (<CJK Ideograph>)";
" 7709	0x6DAF	涯 (<CJK Ideograph>)";
" 7710	0x6DD1	淑 (<CJK Ideograph>)";
" 7711	0x6DAE	涮 (<CJK Ideograph>)";
" 7712	0x6DDE	淞 (<CJK Ideograph>)";
" 7713	0x6DF9	淹 (<CJK Ideograph>)";
" 7714	0x6DB8	涸 (<CJK Ideograph>)";
" 7715	0x6DF7	混 (<CJK Ideograph>)";
" 7716	0x6DF5	淵 (<CJK Ideograph>)";
" 7717	0x6DC5	淅 (<CJK Ideograph>)";
" 7718	0x6DD2	淒 (<CJK Ideograph>)";
" 7719	0x6E1A	渚 (<CJK Ideograph>)";
" 7720	0x6DB5	涵 (<CJK Ideograph>)";
" 7721	0x6DDA	淚 (<CJK Ideograph>)";
" 7722	0x6DEB	淫 (<CJK Ideograph>)";
" 7723	0x6DD8	淘 (<CJK Ideograph>)";
" 7724	0x6DEA	淪 (<CJK Ideograph>)";
" 7725	0x6DF1	深 (<CJK Ideograph>)";
" 7726	0x6DEE	淮 (<CJK Ideograph>)";
" 7727	0x6DE8	淨 (<CJK Ideograph>)";
" 7728	0x6DC6	淆 (<CJK Ideograph>)";
" 7729	0x6DC4	淄 (<CJK Ideograph>)";
" 7730	0x6DAA	涪 (<CJK Ideograph>)";
" 7731	0x6DEC	淬 (<CJK Ideograph>)";
" 7732	0x6DBF	涿 (<CJK Ideograph>)";
" 7733	0x6DE6	淦 (<CJK Ideograph>)";
" 7734	0x70F9	烹 (<CJK Ideograph>)";
" 7735	0x7109	焉 (<CJK Ideograph>)";
" 7736	0x710A	焊 (<CJK Ideograph>)";
" 7737	0x70FD	烽 (<CJK Ideograph>)";
" 7738	0x70EF	烯 (<CJK Ideograph>)";
" 7739	0x723D	爽 (<CJK Ideograph>)";
" 7740	0x727D	牽 (<CJK Ideograph>)";
" 7741	0x7281	犁 (<CJK Ideograph>)";
" 7742	0x731C	猜 (<CJK Ideograph>)";
" 7743	0x731B	猛 (<CJK Ideograph>)";
" 7744	0x7316	猖 (<CJK Ideograph>)";
" 7745	0x7313	猓 (<CJK Ideograph>)";
" 7746	0x7319	猙 (<CJK Ideograph>)";
" 7747	0x7387	率 (<CJK Ideograph>)";
" 7748	0x7405	琅 (<CJK Ideograph>)";
" 7749	0x740A	琊 (<CJK Ideograph>)";
" 7750	0x7403	球 (<CJK Ideograph>)";
" 7751	0x7406	理 (<CJK Ideograph>)";
" 7752	0x73FE	現 (<CJK Ideograph>)";
" 7753	0x740D	琍 (<CJK Ideograph>)";
" 7754	0x74E0	瓠 (<CJK Ideograph>)";
" 7755	0x74F6	瓶 (<CJK Ideograph>)";
" 7756	0x74F7	瓷 (<CJK Ideograph>)";
" 7757	0x751C	甜 (<CJK Ideograph>)";
" 7758	0x7522	產 (<CJK Ideograph>)";
" 7759	0x7565	略 (<CJK Ideograph>)";
" 7760	0x7566	畦 (<CJK Ideograph>)";
" 7761	0x7562	畢 (<CJK Ideograph>)";
" 7762	0x7570	異 (<CJK Ideograph>)";
" 7763	0x758F	疏 (<CJK Ideograph>)";
" 7764	0x75D4	痔 (<CJK Ideograph>)";
" 7765	0x75D5	痕 (<CJK Ideograph>)";
" 7766	0x75B5	疵 (<CJK Ideograph>)";
" 7767	0x75CA	痊 (<CJK Ideograph>)";
" 7768	0x75CD	痍 (<CJK Ideograph>)";
" 7769	0x768E	皎 (<CJK Ideograph>)";
" 7770	0x76D4	盔 (<CJK Ideograph>)";
" 7771	0x76D2	盒 (<CJK Ideograph>)";
" 7772	0x76DB	盛 (<CJK Ideograph>)";
" 7773	0x7737	眷 (<CJK Ideograph>)";
" 7774	0x773E	眾 (<CJK Ideograph>)";
" 7775	0x773C	眼 (<CJK Ideograph>)";
" 7776	0x7736	眶 (<CJK Ideograph>)";
" 7777	0x7738	眸 (<CJK Ideograph>)";
" 7778	0x773A	眺 (<CJK Ideograph>)";
" 7779	0x786B	硫 (<CJK Ideograph>)";
" 7780	0x7843	硃 (<CJK Ideograph>)";
" 7781	0x784E	硎 (<CJK Ideograph>)";
" 7782	0x7965	祥 (<CJK Ideograph>)";
" 7783	0x7968	票 (<CJK Ideograph>)";
" 7784	0x796D	祭 (<CJK Ideograph>)";
" 7785	0x79FB	移 (<CJK Ideograph>)";
" 7786	0x7A92	窒 (<CJK Ideograph>)";
" 7787	0x7A95	窕 (<CJK Ideograph>)";
" 7788	0x7B20	笠 (<CJK Ideograph>)";
" 7789	0x7B28	笨 (<CJK Ideograph>)";
" 7790	0x7B1B	笛 (<CJK Ideograph>)";
" 7791	0x7B2C	第 (<CJK Ideograph>)";
" 7792	0x7B26	符 (<CJK Ideograph>)";
" 7793	0x7B19	笙 (<CJK Ideograph>)";
" 7794	0x7B1E	笞 (<CJK Ideograph>)";
" 7795	0x7B2E	笮 (<CJK Ideograph>)";
" 7796	0x7C92	粒 (<CJK Ideograph>)";
" 7797	0x7C97	粗 (<CJK Ideograph>)";
" 7798	0x7C95	粕 (<CJK Ideograph>)"
].
(* /repo/encoding_tables/whatwg/index-big5.txt:6657-6912 *)
Definition index_big5_txt_26 : list line := [
" 7799	0x7D46	絆 (<CJK Ideograph>)";
" 7800	0x7D43	絃 (<CJK Ideograph>)";
" 7801	0x7D71	統 (<CJK Ideograph>)";
" 7802	0x7D2E	紮 (<CJK Ideograph>)";
" 7803	0x7D39	紹 (<CJK Ideograph>)";
" 7804	0x7D3C	紼 (<CJK Ideograph>)";
" 7805	0x7D40	絀 (<CJK Ideograph>)";
" 7806	0x7D30	細 (<CJK Ideograph>)";
" 7807	0x7D33	紳 (<CJK Ideograph>)";
" 7808	0x7D44	組 (<CJK Ideograph>)";
" 7809	0x7D2F	累 (<CJK Ideograph>)";
" 7810	0x7D42	終 (<CJK Ideograph>)";
" 7811	0x7D32	紲 (<CJK Ideograph>)";
" 7812	0x7D31	紱 (<CJK Ideograph>)";
" 7813	0x7F3D	缽 (<CJK Ideograph>)";
" 7814	0x7F9E	羞 (<CJK Ideograph>)";
" 7815	0x7F9A	羚 (<CJK Ideograph>)";
" 7816	0x7FCC	翌 (<CJK Ideograph>)";
" 7817	0x7FCE	翎 (<CJK Ideograph>)";
" 7818	0x7FD2	習 (<CJK Ideograph>)";
" 7819	0x801C	耜 (<CJK Ideograph>)";
" 7820	0x804A	聊 (<CJK Ideograph>)";
" 7821	0x8046	聆 (<CJK Ideograph>)";
" 7822	0x812F	脯 (<CJK Ideograph>)";
" 7823	0x8116	脖 (<CJK Ideograph>)";
" 7824	0x8123	脣 (<CJK Ideograph>)";
" 7825	0x812B	脫 (<CJK Ideograph>)";
" 7826	0x8129	脩 (<CJK Ideograph>)";
" 7827	0x8130	脰 (<CJK Ideograph>)";
" 7828	0x8124	脤 (<CJK Ideograph>)";
" 7829	0x8202	舂 (<CJK Ideograph>)";
" 7830	0x8235	舵 (<CJK Ideograph>)";
" 7831	0x8237	舷 (<CJK Ideograph>)";
" 7832	0x8236	舶 (<CJK Ideograph>)";
" 7833	0x8239	船 (<CJK Ideograph>)";
" 7834	0x838E	莎 (<CJK Ideograph>)";
" 7835	0x839E	莞 (<CJK Ideograph>)";
" 7836	0x8398	莘 (<CJK Ideograph>)";
" 7837	0x8378	荸 (<CJK Ideograph>)";
" 7838	0x83A2	莢 (<CJK Ideograph>)";
" 7839	0x8396	莖 (<CJK Ideograph>)";
" 7840	0x83BD	莽 (<CJK Ideograph>)";
" 7841	0x83AB	莫 (<CJK Ideograph>)";
" 7842	0x8392	莒 (<CJK Ideograph>)";
" 7843	0x838A	莊 (<CJK Ideograph>)";
" 7844	0x8393	莓 (<CJK Ideograph>)";
" 7845	0x8389	莉 (<CJK Ideograph>)";
" 7846	0x83A0	莠 (<CJK Ideograph>)";
" 7847	0x8377	荷 (<CJK Ideograph>)";
" 7848	0x837B	荻 (<CJK Ideograph>)";
" 7849	0x837C	荼 (<CJK Ideograph>)";
" 7850	0x8386	莆 (<CJK Ideograph>)";
" 7851	0x83A7	莧 (<CJK Ideograph>)";
" 7852	0x8655	處 (<CJK Ideograph>)";
" 7853	0x5F6A	彪 (<CJK Ideograph>)";
" 7854	0x86C7	蛇 (<CJK Ideograph>)";
" 7855	0x86C0	蛀 (<CJK Ideograph>)";
" 7856	0x86B6	蚶 (<CJK Ideograph>)";
" 7857	0x86C4	蛄 (<CJK Ideograph>)";
" 7858	0x86B5	蚵 (<CJK Ideograph>)";
" 7859	0x86C6	蛆 (<CJK Ideograph>)";
" 7860	0x86CB	蛋 (<CJK Ideograph>)";
" 7861	0x86B1	蚱 (<CJK Ideograph>)";
" 7862	0x86AF	蚯 (<CJK Ideograph>)";
" 7863	0x86C9	蛉 (<CJK Ideograph>)";
" 7864	0x8853	術 (<CJK Ideograph>)";
" 7865	0x889E	袞 (<CJK Ideograph>)";
" 7866	0x8888	袈 (<CJK Ideograph>)";
" 7867	0x88AB	被 (<CJK Ideograph>)";
" 7868	0x8892	袒 (<CJK Ideograph>)";
" 7869	0x8896	袖 (<CJK Ideograph>)";
" 7870	0x888D	袍 (<CJK Ideograph>)";
" 7871	0x888B	袋 (<CJK Ideograph>)";
" 7872	0x8993	覓 (<CJK Ideograph>)";
" 7873	0x898F	規 (<CJK Ideograph>)";
" 7874	0x8A2A	訪 (<CJK Ideograph>)";
" 7875	0x8A1D	訝 (<CJK Ideograph>)";
" 7876	0x8A23	訣 (<CJK Ideograph>)";
" 7877	0x8A25	訥 (<CJK Ideograph>)";
" 7878	0x8A31	許 (<CJK Ideograph>)";
" 7879	0x8A2D	設 (<CJK Ideograph>)";
" 7880	0x8A1F	訟 (<CJK Ideograph>)";
" 7881	0x8A1B	訛 (<CJK Ideograph>)";
" 7882	0x8A22	訢 (<CJK Ideograph>)";
" 7883	0x8C49	豉 (<CJK Ideograph>)";
" 7884	0x8C5A	豚 (<CJK Ideograph>)";
" 7885	0x8CA9	販 (<CJK Ideograph>)";
" 7886	0x8CAC	責 (<CJK Ideograph>)";
" 7887	0x8CAB	貫 (<CJK Ideograph>)";
" 7888	0x8CA8	貨 (<CJK Ideograph>)";
" 7889	0x8CAA	貪 (<CJK Ideograph>)";
" 7890	0x8CA7	貧 (<CJK Ideograph>)";
" 7891	0x8D67	赧 (<CJK Ideograph>)";
" 7892	0x8D66	赦 (<CJK Ideograph>)";
" 7893	0x8DBE	趾 (<CJK Ideograph>)";
" 7894	0x8DBA	趺 (<CJK Ideograph>)";
" 7895	0x8EDB	軛 (<CJK Ideograph>)";
" 7896	0x8EDF	軟 (<CJK Ideograph>)";
" 7897	0x9019	這 (<CJK Ideograph>)";
" 7898	0x900D	逍 (<CJK Ideograph>)";
" 7899	0x901A	通 (<CJK Ideograph>)";
" 7900	0x9017	逗 (<CJK Ideograph>)";
" 7901	0x9023	連 (<CJK Ideograph>)";
" 7902	0x901F	速 (<CJK Ideograph>)";
" 7903	0x901D	逝 (<CJK Ideograph>)";
" 7904	0x9010	逐 (<CJK Ideograph>)";
" 7905	0x9015	逕 (<CJK Ideograph>)";
" 7906	0x901E	逞 (<CJK Ideograph>)";
" 7907	0x9020	造 (<CJK Ideograph>)";
" 7908	0x900F	透 (<CJK Ideograph>)";
" 7909	0x9022	逢 (<CJK Ideograph>)";
" 7910	0x9016	逖 (<CJK Ideograph>)";
" 7911	0x901B	逛 (<CJK Ideograph>)";
" 7912	0x9014	途 (<CJK Ideograph>)";
" 7913	0x90E8	部 (<CJK Ideograph>)";
" 7914	0x90ED	郭 (<CJK Ideograph>)";
" 7915	0x90FD	都 (<CJK Ideograph>)";
" 7916	0x9157	酗 (<CJK Ideograph>)";
" 7917	0x91CE	野 (<CJK Ideograph>)";
" 7918	0x91F5	釵 (<CJK Ideograph>)";
" 7919	0x91E6	釦 (<CJK Ideograph>)";
" 7920	0x91E3	釣 (<CJK Ideograph>)";
" 7921	0x91E7	釧 (<CJK Ideograph>)";
" 7922	0x91ED	釭 (<CJK Ideograph>)";
" 7923	0x91E9	釩 (<CJK Ideograph>)";
" 7924	0x9589	閉 (<CJK Ideograph>)";
" 7925	0x966A	陪 (<CJK Ideograph>)";
" 7926	0x9675	陵 (<CJK Ideograph>)";
" 7927	0x9673	陳 (<CJK Ideograph>)";
" 7928	0x9678	陸 (<CJK Ideograph>)";
" 7929	0x9670	陰 (<CJK Ideograph>)";
" 7930	0x9674	陴 (<CJK Ideograph>)";
" 7931	0x9676	陶 (<CJK Ideograph>)";
" 7932	0x9677	陷 (<CJK Ideograph>)";
" 7933	0x966C	陬 (<CJK Ideograph>)";
" 7934	0x96C0	雀 (<CJK Ideograph>)";
" 7935	0x96EA	雪 (<CJK Ideograph>)";
" 7936	0x96E9	雩 (<CJK Ideograph>)";
" 7937	0x7AE0	章 (<CJK Ideograph>)";
" 7938	0x7ADF	竟 (<CJK Ideograph>)";
" 7939	0x9802	頂 (<CJK Ideograph>)";
" 7940	0x9803	頃 (<CJK Ideograph>)";
" 7941	0x9B5A	魚 (<CJK Ideograph>)";
" 7942	0x9CE5	鳥 (<CJK Ideograph>)";
" 7943	0x9E75	鹵 (<CJK Ideograph>)";
" 7944	0x9E7F	鹿 (<CJK Ideograph>)";
" 7945	0x9EA5	麥 (<CJK Ideograph>)";
" 7946	0x9EBB	麻 (<CJK Ideograph>)";
" 7947	0x50A2	傢 (<CJK Ideograph>)";
" 7948	0x508D	傍 (<CJK Ideograph>)";
" 7949	0x5085	傅 (<CJK Ideograph>)";
" 7950	0x5099	備 (<CJK Ideograph>)";
" 7951	0x5091	傑 (<CJK Ideograph>)";
" 7952	0x5080	傀 (<CJK Ideograph>)";
" 7953	0x5096	傖 (<CJK Ideograph>)";
" 7954	0x5098	傘 (<CJK Ideograph>)";
" 7955	0x509A	傚 (<CJK Ideograph>)";
" 7956	0x6700	最 (<CJK Ideograph>)";
" 7957	0x51F1	凱 (<CJK Ideograph>)";
" 7958	0x5272	割 (<CJK Ideograph>)";
" 7959	0x5274	剴 (<CJK Ideograph>)";
" 7960	0x5275	創 (<CJK Ideograph>)";
" 7961	0x5269	剩 (<CJK Ideograph>)";
" 7962	0x52DE	勞 (<CJK Ideograph>)";
" 7963	0x52DD	勝 (<CJK Ideograph>)";
" 7964	0x52DB	勛 (<CJK Ideograph>)";
" 7965	0x535A	博 (<CJK Ideograph>)";
" 7966	0x53A5	厥 (<CJK Ideograph>)";
" 7967	0x557B	啻 (<CJK Ideograph>)";
" 7968	0x5580	喀 (<CJK Ideograph>)";
" 7969	0x55A7	喧 (<CJK Ideograph>)";
" 7970	0x557C	啼 (<CJK Ideograph>)";
" 7971	0x558A	喊 (<CJK Ideograph>)";
" 7972	0x559D	喝 (<CJK Ideograph>)";
" 7973	0x5598	喘 (<CJK Ideograph>)";
" 7974	0x5582	喂 (<CJK Ideograph>)";
" 7975	0x559C	喜 (<CJK Ideograph>)";
" 7976	0x55AA	喪 (<CJK Ideograph>)";
" 7977	0x5594	喔 (<CJK Ideograph>)";
" 7978	0x5587	喇 (<CJK Ideograph>)";
" 7979	0x558B	喋 (<CJK Ideograph>)";
" 7980	0x5583	喃 (<CJK Ideograph>)";
" 7981	0x55B3	喳 (<CJK Ideograph>)";
" 7982	0x55AE	單 (<CJK Ideograph>)";
" 7983	0x559F	喟 (<CJK Ideograph>)";
" 7984	0x553E	唾 (<CJK Ideograph>)";
" 7985	0x55B2	喲 (<CJK Ideograph>)";
" 7986	0x559A	喚 (<CJK Ideograph>)";
" 7987	0x55BB	喻 (<CJK Ideograph>)";
" 7988	0x55AC	喬 (<CJK Ideograph>)";
" 7989	0x55B1	喱 (<CJK Ideograph>)";
" 7990	0x557E	啾 (<CJK Ideograph>)";
" 7991	0x5589	喉 (<CJK Ideograph>)";
" 7992	0x55AB	喫 (<CJK Ideograph>)";
" 7993	0x5599	喙 (<CJK Ideograph>)";
" 7994	0x570D	圍 (<CJK Ideograph>)";
" 7995	0x582F	堯 (<CJK Ideograph>)";
" 7996	0x582A	堪 (<CJK Ideograph>)";
" 7997	0x5834	場 (<CJK Ideograph>)";
" 7998	0x5824	堤 (<CJK Ideograph>)";
" 7999	0x5830	堰 (<CJK Ideograph>)";
" 8000	0x5831	報 (<CJK Ideograph>)";
" 8001	0x5821	堡 (<CJK Ideograph>)";
" 8002	0x581D	堝 (<CJK Ideograph>)";
" 8003	0x5820	堠 (<CJK Ideograph>)";
" 8004	0x58F9	壹 (<CJK Ideograph>)";
" 8005	0x58FA	壺 (<CJK Ideograph>)";
" 8006	0x5960	奠 (<CJK Ideograph>)";
" 8007	0x5A77	婷 (<CJK Ideograph>)";
" 8008	0x5A9A	媚 (<CJK Ideograph>)";
" 8009	0x5A7F	婿 (<CJK Ideograph>)";
" 8010	0x5A92	媒 (<CJK Ideograph>)";
" 8011	0x5A9B	媛 (<CJK Ideograph>)";
" 8012	0x5AA7	媧 (<CJK Ideograph>)";
" 8013	0x5B73	孳 (<CJK Ideograph>)";
" 8014	0x5B71	孱 (<CJK Ideograph>)";
" 8015	0x5BD2	寒 (<CJK Ideograph>)";
" 8016	0x5BCC	富 (<CJK Ideograph>)";
" 8017	0x5BD3	寓 (<CJK Ideograph>)";
" 8018	0x5BD0	寐 (<CJK Ideograph>)";
" 8019	0x5C0A	尊 (<CJK Ideograph>)";
" 8020	0x5C0B	尋 (<CJK Ideograph>)";
" 8021	0x5C31	就 (<CJK Ideograph>)";
" 8022	0x5D4C	嵌 (<CJK Ideograph>)";
" 8023	0x5D50	嵐 (<CJK Ideograph>)";
" 8024	0x5D34	崴 (<CJK Ideograph>)";
" 8025	0x5D47	嵇 (<CJK Ideograph>)";
" 8026	0x5DFD	巽 (<CJK Ideograph>)";
" 8027	0x5E45	幅 (<CJK Ideograph>)";
" 8028	0x5E3D	帽 (<CJK Ideograph>)";
" 8029	0x5E40	幀 (<CJK Ideograph>)";
" 8030	0x5E43	幃 (<CJK Ideograph>)";
" 8031	0x5E7E	幾 (<CJK Ideograph>)";
" 8032	0x5ECA	廊 (<CJK Ideograph>)";
" 8033	0x5EC1	廁 (<CJK Ideograph>)";
" 8034	0x5EC2	廂 (<CJK Ideograph>)";
" 8035	0x5EC4	廄 (<CJK Ideograph>)";
" 8036	0x5F3C	弼 (<CJK Ideograph>)";
" 8037	0x5F6D	彭 (<CJK Ideograph>)";
" 8038	0x5FA9	復 (<CJK Ideograph>)";
" 8039	0x5FAA	循 (<CJK Ideograph>)";
" 8040	0x5FA8	徨 (<CJK Ideograph>)";
" 8041	0x60D1	惑 (<CJK Ideograph>)";
" 8042	0x60E1	惡 (<CJK Ideograph>)";
" 8043	0x60B2	悲 (<CJK Ideograph>)";
" 8044	0x60B6	悶 (<CJK Ideograph>)";
" 8045	0x60E0	惠 (<CJK Ideograph>)";
" 8046	0x611C	愜 (<CJK Ideograph>)";
" 8047	0x6123	愣 (<CJK Ideograph>)";
" 8048	0x60FA	惺 (<CJK Ideograph>)";
" 8049	0x6115	愕 (<CJK Ideograph>)";
" 8050	0x60F0	惰 (<CJK Ideograph>)";
" 8051	0x60FB	惻 (<CJK Ideograph>)";
" 8052	0x60F4	惴 (<CJK Ideograph>)";
" 8053	0x6168	慨 (<CJK Ideograph>)";
" 8054	0x60F1	惱 (<CJK Ideograph>)"
].
(* /repo/encoding_tables/whatwg/index-big5.txt:6913-7168 *)
Definition index_big5_txt_27 : list line := [
" 8055	0x610E	愎 (<CJK Ideograph>)";
" 8056	0x60F6	惶 (<CJK Ideograph>)";
" 8057	0x6109	愉 (<CJK Ideograph>)";
" 8058	0x6100	愀 (<CJK Ideograph>)";
" 8059	0x6112	愒 (<CJK Ideograph>)";
" 8060	0x621F	戟 (<CJK Ideograph>)";
" 8061	0x6249	扉 (<CJK Ideograph>)";
" 8062	0x63A3	掣 (<CJK Ideograph>)";
" 8063	0x638C	掌 (<CJK Ideograph>)";
" 8064	0x63CF	描 (<CJK Ideograph>)";
" 8065	0x63C0	揀 (<CJK Ideograph>)";
" 8066	0x63E9	揩 (<CJK Ideograph>)";
" 8067	0x63C9	揉 (<CJK Ideograph>)";
" 8068	0x63C6	揆 (<CJK Ideograph>)";
" 8069	0x63CD	揍 (<CJK Ideograph>)";
" 8070	0x63D2	插 (<CJK Ideograph>)";
" 8071	0x63E3	揣 (<CJK Ideograph>)";
" 8072	0x63D0	提 (<CJK Ideograph>)";
" 8073	0x63E1	握 (<CJK Ideograph>)";
" 8074	0x63D6	揖 (<CJK Ideograph>)";
" 8075	0x63ED	揭 (<CJK Ideograph>)";
" 8076	0x63EE	揮 (<CJK Ideograph>)";
" 8077	0x6376	捶 (<CJK Ideograph>)";
" 8078	0x63F4	援 (<CJK Ideograph>)";
" 8079	0x63EA	揪 (<CJK Ideograph>)";
" 8080	0x63DB	換 (<CJK Ideograph>)";
" 8081	0x6452	摒 (<CJK Ideograph>)";
" 8082	0x63DA	揚 (<CJK Ideograph>)";
" 8083	0x63F9	揹 (<CJK Ideograph>)";
" 8084	0x655E	敞 (<CJK Ideograph>)";
" 8085	0x6566	敦 (<CJK Ideograph>)";
" 8086	0x6562	敢 (<CJK Ideograph>)";
" 8087	0x6563	散 (<CJK Ideograph>)";
" 8088	0x6591	斑 (<CJK Ideograph>)";
" 8089	0x6590	斐 (<CJK Ideograph>)";
" 8090	0x65AF	斯 (<CJK Ideograph>)";
" 8091	0x666E	普 (<CJK Ideograph>)";
" 8092	0x6670	晰 (<CJK Ideograph>)";
" 8093	0x6674	晴 (<CJK Ideograph>)";
" 8094	0x6676	晶 (<CJK Ideograph>)";
" 8095	0x666F	景 (<CJK Ideograph>)";
" 8096	0x6691	暑 (<CJK Ideograph>)";
" 8097	0x667A	智 (<CJK Ideograph>)";
" 8098	0x667E	晾 (<CJK Ideograph>)";
" 8099	0x6677	晷 (<CJK Ideograph>)";
" 8100	0x66FE	曾 (<CJK Ideograph>)";
" 8101	0x66FF	替 (<CJK Ideograph>)";
" 8102	0x671F	期 (<CJK Ideograph>)";
" 8103	0x671D	朝 (<CJK Ideograph>)";
" 8104	0x68FA	棺 (<CJK Ideograph>)";
" 8105	0x68D5	棕 (<CJK Ideograph>)";
" 8106	0x68E0	棠 (<CJK Ideograph>)";
" 8107	0x68D8	棘 (<CJK Ideograph>)";
" 8108	0x68D7	棗 (<CJK Ideograph>)";
" 8109	0x6905	椅 (<CJK Ideograph>)";
" 8110	0x68DF	棟 (<CJK Ideograph>)";
" 8111	0x68F5	棵 (<CJK Ideograph>)";
" 8112	0x68EE	森 (<CJK Ideograph>)";
" 8113	0x68E7	棧 (<CJK Ideograph>)";
" 8114	0x68F9	棹 (<CJK Ideograph>)";
" 8115	0x68D2	棒 (<CJK Ideograph>)";
" 8116	0x68F2	棲 (<CJK Ideograph>)";
" 8117	0x68E3	棣 (<CJK Ideograph>)";
" 8118	0x68CB	棋 (<CJK Ideograph>)";
" 8119	0x68CD	棍 (<CJK Ideograph>)";
" 8120	0x690D	植 (<CJK Ideograph>)";
" 8121	0x6912	椒 (<CJK Ideograph>)";
" 8122	0x690E	椎 (<CJK Ideograph>)";
" 8123	0x68C9	棉 (<CJK Ideograph>)";
" 8124	0x68DA	棚 (<CJK Ideograph>)";
" 8125	0x696E	楮 (<CJK Ideograph>)";
" 8126	0x68FB	棻 (<CJK Ideograph>)";
" 8127	0x6B3E	款 (<CJK Ideograph>)";
" 8128	0x6B3A	欺 (<CJK Ideograph>)";
" 8129	0x6B3D	欽 (<CJK Ideograph>)";
" 8130	0x6B98	殘 (<CJK Ideograph>)";
" 8131	0x6B96	殖 (<CJK Ideograph>)";
" 8132	0x6BBC	殼 (<CJK Ideograph>)";
" 8133	0x6BEF	毯 (<CJK Ideograph>)";
" 8134	0x6C2E	氮 (<CJK Ideograph>)";
" 8135	0x6C2F	氯 (<CJK Ideograph>)";
" 8136	0x6C2C	氬 (<CJK Ideograph>)";
" 8137	0x6E2F	港 (<CJK Ideograph>)";
" 8138	0x6E38	游 (<CJK Ideograph>)";
" 8139	0x6E54	湔 (<CJK Ideograph>)";
" 8140	0x6E21	渡 (<CJK Ideograph>)";
" 8141	0x6E32	渲 (<CJK Ideograph>)";
" 8142	0x6E67	湧 (<CJK Ideograph>)";
" 8143	0x6E4A	湊 (<CJK Ideograph>)";
" 8144	0x6E20	渠 (<CJK Ideograph>)";
" 8145	0x6E25	渥 (<CJK Ideograph>)";
" 8146	0x6E23	渣 (<CJK Ideograph>)";
" 8147	0x6E1B	減 (<CJK Ideograph>)";
" 8148	0x6E5B	湛 (<CJK Ideograph>)";
" 8149	0x6E58	湘 (<CJK Ideograph>)";
" 8150	0x6E24	渤 (<CJK Ideograph>)";
" 8151	0x6E56	湖 (<CJK Ideograph>)";
" 8152	0x6E6E	湮 (<CJK Ideograph>)";
" 8153	0x6E2D	渭 (<CJK Ideograph>)";
" 8154	0x6E26	渦 (<CJK Ideograph>)";
" 8155	0x6E6F	湯 (<CJK Ideograph>)";
" 8156	0x6E34	渴 (<CJK Ideograph>)";
" 8157	0x6E4D	湍 (<CJK Ideograph>)";
" 8158	0x6E3A	渺 (<CJK Ideograph>)";
" 8159	0x6E2C	測 (<CJK Ideograph>)";
" 8160	0x6E43	湃 (<CJK Ideograph>)";
" 8161	0x6E1D	渝 (<CJK Ideograph>)";
" 8162	0x6E3E	渾 (<CJK Ideograph>)";
" 8163	0x6ECB	滋 (<CJK Ideograph>)";
" 8164	0x6E89	溉 (<CJK Ideograph>)";
" 8165	0x6E19	渙 (<CJK Ideograph>)";
" 8166	0x6E4E	湎 (<CJK Ideograph>)";
" 8167	0x6E63	湣 (<CJK Ideograph>)";
" 8168	0x6E44	湄 (<CJK Ideograph>)";
" 8169	0x6E72	湲 (<CJK Ideograph>)";
" 8170	0x6E69	湩 (<CJK Ideograph>)";
" 8171	0x6E5F	湟 (<CJK Ideograph>)";
" 8172	0x7119	焙 (<CJK Ideograph>)";
" 8173	0x711A	焚 (<CJK Ideograph>)";
" 8174	0x7126	焦 (<CJK Ideograph>)";
" 8175	0x7130	焰 (<CJK Ideograph>)";
" 8176	0x7121	無 (<CJK Ideograph>)";
" 8177	0x7136	然 (<CJK Ideograph>)";
" 8178	0x716E	煮 (<CJK Ideograph>)";
" 8179	0x711C	焜 (<CJK Ideograph>)";
" 8180	0x724C	牌 (<CJK Ideograph>)";
" 8181	0x7284	犄 (<CJK Ideograph>)";
" 8182	0x7280	犀 (<CJK Ideograph>)";
" 8183	0x7336	猶 (<CJK Ideograph>)";
" 8184	0x7325	猥 (<CJK Ideograph>)";
" 8185	0x7334	猴 (<CJK Ideograph>)";
" 8186	0x7329	猩 (<CJK Ideograph>)";
" 8187	0x743A	琺 (<CJK Ideograph>)";
" 8188	0x742A	琪 (<CJK Ideograph>)";
" 8189	0x7433	琳 (<CJK Ideograph>)";
" 8190	0x7422	琢 (<CJK Ideograph>)";
" 8191	0x7425	琥 (<CJK Ideograph>)";
" 8192	0x7435	琵 (<CJK Ideograph>)";
" 8193	0x7436	琶 (<CJK Ideograph>)";
" 8194	0x7434	琴 (<CJK Ideograph>)";
" 8195	0x742F	琯 (<CJK Ideograph>)";
" 8196	0x741B	琛 (<CJK Ideograph>)";
" 8197	0x7426	琦 (<CJK Ideograph>)";
" 8198	0x7428	琨 (<CJK Ideograph>)";
" 8199	0x7525	甥 (<CJK Ideograph>)";
" 8200	0x7526	甦 (<CJK Ideograph>)";
" 8201	0x756B	畫 (<CJK Ideograph>)";
" 8202	0x756A	番 (<CJK Ideograph>)";
" 8203	0x75E2	痢 (<CJK Ideograph>)";
" 8204	0x75DB	痛 (<CJK Ideograph>)";
" 8205	0x75E3	痣 (<CJK Ideograph>)";
" 8206	0x75D9	痙 (<CJK Ideograph>)";
" 8207	0x75D8	痘 (<CJK Ideograph>)";
" 8208	0x75DE	痞 (<CJK Ideograph>)";
" 8209	0x75E0	痠 (<CJK Ideograph>)";
" 8210	0x767B	登 (<CJK Ideograph>)";
" 8211	0x767C	發 (<CJK Ideograph>)";
" 8212	0x7696	皖 (<CJK Ideograph>)";
" 8213	0x7693	皓 (<CJK Ideograph>)";
" 8214	0x76B4	皴 (<CJK Ideograph>)";
" 8215	0x76DC	盜 (<CJK Ideograph>)";
" 8216	0x774F	睏 (<CJK Ideograph>)";
" 8217	0x77ED	短 (<CJK Ideograph>)";
" 8218	0x785D	硝 (<CJK Ideograph>)";
" 8219	0x786C	硬 (<CJK Ideograph>)";
" 8220	0x786F	硯 (<CJK Ideograph>)";
" 8221	0x7A0D	稍 (<CJK Ideograph>)";
" 8222	0x7A08	稈 (<CJK Ideograph>)";
" 8223	0x7A0B	程 (<CJK Ideograph>)";
" 8224	0x7A05	稅 (<CJK Ideograph>)";
" 8225	0x7A00	稀 (<CJK Ideograph>)";
" 8226	0x7A98	窘 (<CJK Ideograph>)";
" 8227	0x7A97	窗 (<CJK Ideograph>)";
" 8228	0x7A96	窖 (<CJK Ideograph>)";
" 8229	0x7AE5	童 (<CJK Ideograph>)";
" 8230	0x7AE3	竣 (<CJK Ideograph>)";
" 8231	0x7B49	等 (<CJK Ideograph>)";
" 8232	0x7B56	策 (<CJK Ideograph>)";
" 8233	0x7B46	筆 (<CJK Ideograph>)";
" 8234	0x7B50	筐 (<CJK Ideograph>)";
" 8235	0x7B52	筒 (<CJK Ideograph>)";
" 8236	0x7B54	答 (<CJK Ideograph>)";
" 8237	0x7B4D	筍 (<CJK Ideograph>)";
" 8238	0x7B4B	筋 (<CJK Ideograph>)";
" 8239	0x7B4F	筏 (<CJK Ideograph>)";
" 8240	0x7B51	筑 (<CJK Ideograph>)";
" 8241	0x7C9F	粟 (<CJK Ideograph>)";
" 8242	0x7CA5	粥 (<CJK Ideograph>)";
" 8243	0x7D5E	絞 (<CJK Ideograph>)";
" 8244	0x7D50	結 (<CJK Ideograph>)";
" 8245	0x7D68	絨 (<CJK Ideograph>)";
" 8246	0x7D55	絕 (<CJK Ideograph>)";
" 8247	0x7D2B	紫 (<CJK Ideograph>)";
" 8248	0x7D6E	絮 (<CJK Ideograph>)";
" 8249	0x7D72	絲 (<CJK Ideograph>)";
" 8250	0x7D61	絡 (<CJK Ideograph>)";
" 8251	0x7D66	給 (<CJK Ideograph>)";
" 8252	0x7D62	絢 (<CJK Ideograph>)";
" 8253	0x7D70	絰 (<CJK Ideograph>)";
" 8254	0x7D73	絳 (<CJK Ideograph>)";
" 8255	0x5584	善 (<CJK Ideograph>)";
" 8256	0x7FD4	翔 (<CJK Ideograph>)";
" 8257	0x7FD5	翕 (<CJK Ideograph>)";
" 8258	0x800B	耋 (<CJK Ideograph>)";
" 8259	0x8052	聒 (<CJK Ideograph>)";
" 8260	0x8085	肅 (<CJK Ideograph>)";
" 8261	0x8155	腕 (<CJK Ideograph>)";
" 8262	0x8154	腔 (<CJK Ideograph>)";
" 8263	0x814B	腋 (<CJK Ideograph>)";
" 8264	0x8151	腑 (<CJK Ideograph>)";
" 8265	0x814E	腎 (<CJK Ideograph>)";
" 8266	0x8139	脹 (<CJK Ideograph>)";
" 8267	0x8146	腆 (<CJK Ideograph>)";
" 8268	0x813E	脾 (<CJK Ideograph>)";
" 8269	0x814C	腌 (<CJK Ideograph>)";
" 8270	0x8153	腓 (<CJK Ideograph>)";
" 8271	0x8174	腴 (<CJK Ideograph>)";
" 8272	0x8212	舒 (<CJK Ideograph>)";
" 8273	0x821C	舜 (<CJK Ideograph>)";
" 8274	0x83E9	菩 (<CJK Ideograph>)";
" 8275	0x8403	萃 (<CJK Ideograph>)";
" 8276	0x83F8	菸 (<CJK Ideograph>)";
" 8277	0x840D	萍 (<CJK Ideograph>)";
" 8278	0x83E0	菠 (<CJK Ideograph>)";
" 8279	0x83C5	菅 (<CJK Ideograph>)";
" 8280	0x840B	萋 (<CJK Ideograph>)";
" 8281	0x83C1	菁 (<CJK Ideograph>)";
" 8282	0x83EF	華 (<CJK Ideograph>)";
" 8283	0x83F1	菱 (<CJK Ideograph>)";
" 8284	0x83F4	菴 (<CJK Ideograph>)";
" 8285	0x8457	著 (<CJK Ideograph>)";
" 8286	0x840A	萊 (<CJK Ideograph>)";
" 8287	0x83F0	菰 (<CJK Ideograph>)";
" 8288	0x840C	萌 (<CJK Ideograph>)";
" 8289	0x83CC	菌 (<CJK Ideograph>)";
" 8290	0x83FD	菽 (<CJK Ideograph>)";
" 8291	0x83F2	菲 (<CJK Ideograph>)";
" 8292	0x83CA	菊 (<CJK Ideograph>)";
" 8293	0x8438	萸 (<CJK Ideograph>)";
" 8294	0x840E	萎 (<CJK Ideograph>)";
" 8295	0x8404	萄 (<CJK Ideograph>)";
" 8296	0x83DC	菜 (<CJK Ideograph>)";
" 8297	0x8407	萇 (<CJK Ideograph>)";
" 8298	0x83D4	菔 (<CJK Ideograph>)";
" 8299	0x83DF	菟 (<CJK Ideograph>)";
" 8300	0x865B	虛 (<CJK Ideograph>)";
" 8301	0x86DF	蛟 (<CJK Ideograph>)";
" 8302	0x86D9	蛙 (<CJK Ideograph>)";
" 8303	0x86ED	蛭 (<CJK Ideograph>)";
" 8304	0x86D4	蛔 (<CJK Ideograph>)";
" 8305	0x86DB	蛛 (<CJK Ideograph>)";
" 8306	0x86E4	蛤 (<CJK Ideograph>)";
" 8307	0x86D0	蛐 (<CJK Ideograph>)";
" 8308	0x86DE	蛞 (<CJK Ideograph>)";
" 8309	0x8857	街 (<CJK Ideograph>)";
" 8310	0x88C1	裁 (<CJK Ideograph>)"
].
(* /repo/encoding_tables/whatwg/index-big5.txt:7169-7424 *)
Definition index_big5_txt_28 : list line := [
" 8311	0x88C2	裂 (<CJK Ideograph>)";
" 8312	0x88B1	袱 (<CJK Ideograph>)";
" 8313	0x8983	覃 (<CJK Ideograph>)";
" 8314	0x8996	視 (<CJK Ideograph>)";
" 8315	0x8A3B	註 (<CJK Ideograph>)";
" 8316	0x8A60	詠 (<CJK Ideograph>)";
" 8317	0x8A55	評 (<CJK Ideograph>)";
" 8318	0x8A5E	詞 (<CJK Ideograph>)";
" 8319	0x8A3C	証 (<CJK Ideograph>)";
" 8320	0x8A41	詁 (<CJK Ideograph>)";
" 8321	0x8A54	詔 (<CJK Ideograph>)";
" 8322	0x8A5B	詛 (<CJK Ideograph>)";
" 8323	0x8A50	詐 (<CJK Ideograph>)";
" 8324	0x8A46	詆 (<CJK Ideograph>)";
" 8325	0x8A34	訴 (<CJK Ideograph>)";
" 8326	0x8A3A	診 (<CJK Ideograph>)";
" 8327	0x8A36	訶 (<CJK Ideograph>)";
" 8328	0x8A56	詖 (<CJK Ideograph>)";
" 8329	0x8C61	象 (<CJK Ideograph>)";
" 8330	0x8C82	貂 (<CJK Ideograph>)";
" 8331	0x8CAF	貯 (<CJK Ideograph>)";
" 8332	0x8CBC	貼 (<CJK Ideograph>)";
" 8333	0x8CB3	貳 (<CJK Ideograph>)";
" 8334	0x8CBD	貽 (<CJK Ideograph>)";
" 8335	0x8CC1	賁 (<CJK Ideograph>)";
" 8336	0x8CBB	費 (<CJK Ideograph>)";
" 8337	0x8CC0	賀 (<CJK Ideograph>)";
" 8338	0x8CB4	貴 (<CJK Ideograph>)";
" 8339	0x8CB7	買 (<CJK Ideograph>)";
" 8340	0x8CB6	貶 (<CJK Ideograph>)";
" 8341	0x8CBF	貿 (<CJK Ideograph>)";
" 8342	0x8CB8	貸 (<CJK Ideograph>)";
" 8343	0x8D8A	越 (<CJK Ideograph>)";
" 8344	0x8D85	超 (<CJK Ideograph>)";
" 8345	0x8D81	趁 (<CJK Ideograph>)";
" 8346	0x8DCE	跎 (<CJK Ideograph>)";
" 8347	0x8DDD	距 (<CJK Ideograph>)";
" 8348	0x8DCB	跋 (<CJK Ideograph>)";
" 8349	0x8DDA	跚 (<CJK Ideograph>)";
" 8350	0x8DD1	跑 (<CJK Ideograph>)";
" 8351	0x8DCC	跌 (<CJK Ideograph>)";
" 8352	0x8DDB	跛 (<CJK Ideograph>)";
" 8353	0x8DC6	跆 (<CJK Ideograph>)";
" 8354	0x8EFB	軻 (<CJK Ideograph>)";
" 8355	0x8EF8	軸 (<CJK Ideograph>)";
" 8356	0x8EFC	軼 (<CJK Ideograph>)";
" 8357	0x8F9C	辜 (<CJK Ideograph>)";
" 8358	0x902E	逮 (<CJK Ideograph>)";
" 8359	0x9035	逵 (<CJK Ideograph>)";
" 8360	0x9031	週 (<CJK Ideograph>)";
" 8361	0x9038	逸 (<CJK Ideograph>)";
" 8362	0x9032	進 (<CJK Ideograph>)";
" 8363	0x9036	逶 (<CJK Ideograph>)";
" 8364	0x9102	鄂 (<CJK Ideograph>)";
" 8365	0x90F5	郵 (<CJK Ideograph>)";
" 8366	0x9109	鄉 (<CJK Ideograph>)";
" 8367	0x90FE	郾 (<CJK Ideograph>)";
" 8368	0x9163	酣 (<CJK Ideograph>)";
" 8369	0x9165	酥 (<CJK Ideograph>)";
" 8370	0x91CF	量 (<CJK Ideograph>)";
" 8371	0x9214	鈔 (<CJK Ideograph>)";
" 8372	0x9215	鈕 (<CJK Ideograph>)";
" 8373	0x9223	鈣 (<CJK Ideograph>)";
" 8374	0x9209	鈉 (<CJK Ideograph>)";
" 8375	0x921E	鈞 (<CJK Ideograph>)";
" 8376	0x920D	鈍 (<CJK Ideograph>)";
" 8377	0x9210	鈐 (<CJK Ideograph>)";
" 8378	0x9207	鈇 (<CJK Ideograph>)";
" 8379	0x9211	鈑 (<CJK Ideograph>)";
" 8380	0x9594	閔 (<CJK Ideograph>)";
" 8381	0x958F	閏 (<CJK Ideograph>)";
" 8382	0x958B	開 (<CJK Ideograph>)";
" 8383	0x9591	閑 (<CJK Ideograph>)";
" 8384	0x9593	間 (<CJK Ideograph>)";
" 8385	0x9592	閒 (<CJK Ideograph>)";
" 8386	0x958E	閎 (<CJK Ideograph>)";
" 8387	0x968A	隊 (<CJK Ideograph>)";
" 8388	0x968E	階 (<CJK Ideograph>)";
" 8389	0x968B	隋 (<CJK Ideograph>)";
" 8390	0x967D	陽 (<CJK Ideograph>)";
" 8391	0x9685	隅 (<CJK Ideograph>)";
" 8392	0x9686	隆 (<CJK Ideograph>)";
" 8393	0x968D	隍 (<CJK Ideograph>)";
" 8394	0x9672	陲 (<CJK Ideograph>)";
" 8395	0x9684	隄 (<CJK Ideograph>)";
" 8396	0x96C1	雁 (<CJK Ideograph>)";
" 8397	0x96C5	雅 (<CJK Ideograph>)";
" 8398	0x96C4	雄 (<CJK Ideograph>)";
" 8399	0x96C6	集 (<CJK Ideograph>)";
" 8400	0x96C7	雇 (<CJK Ideograph>)";
" 8401	0x96EF	雯 (<CJK Ideograph>)";
" 8402	0x96F2	雲 (<CJK Ideograph>)";
" 8403	0x97CC	韌 (<CJK Ideograph>)";
" 8404	0x9805	項 (<CJK Ideograph>)";
" 8405	0x9806	順 (<CJK Ideograph>)";
" 8406	0x9808	須 (<CJK Ideograph>)";
" 8407	0x98E7	飧 (<CJK Ideograph>)";
" 8408	0x98EA	飪 (<CJK Ideograph>)";
" 8409	0x98EF	飯 (<CJK Ideograph>)";
" 8410	0x98E9	飩 (<CJK Ideograph>)";
" 8411	0x98F2	飲 (<CJK Ideograph>)";
" 8412	0x98ED	飭 (<CJK Ideograph>)";
" 8413	0x99AE	馮 (<CJK Ideograph>)";
" 8414	0x99AD	馭 (<CJK Ideograph>)";
" 8415	0x9EC3	黃 (<CJK Ideograph>)";
" 8416	0x9ECD	黍 (<CJK Ideograph>)";
" 8417	0x9ED1	黑 (<CJK Ideograph>)";
" 8418	0x4E82	亂 (<CJK Ideograph>)";
" 8419	0x50AD	傭 (<CJK Ideograph>)";
" 8420	0x50B5	債 (<CJK Ideograph>)";
" 8421	0x50B2	傲 (<CJK Ideograph>)";
" 8422	0x50B3	傳 (<CJK Ideograph>)";
" 8423	0x50C5	僅 (<CJK Ideograph>)";
" 8424	0x50BE	傾 (<CJK Ideograph>)";
" 8425	0x50AC	催 (<CJK Ideograph>)";
" 8426	0x50B7	傷 (<CJK Ideograph>)";
" 8427	0x50BB	傻 (<CJK Ideograph>)";
" 8428	0x50AF	傯 (<CJK Ideograph>)";
" 8429	0x50C7	僇 (<CJK Ideograph>)";
" 8430	0x527F	剿 (<CJK Ideograph>)";
" 8431	0x5277	剷 (<CJK Ideograph>)";
" 8432	0x527D	剽 (<CJK Ideograph>)";
" 8433	0x52DF	募 (<CJK Ideograph>)";
" 8434	0x52E6	勦 (<CJK Ideograph>)";
" 8435	0x52E4	勤 (<CJK Ideograph>)";
" 8436	0x52E2	勢 (<CJK Ideograph>)";
" 8437	0x52E3	勣 (<CJK Ideograph>)";
" 8438	0x532F	匯 (<CJK Ideograph>)";
" 8439	0x55DF	嗟 (<CJK Ideograph>)";
" 8440	0x55E8	嗨 (<CJK Ideograph>)";
" 8441	0x55D3	嗓 (<CJK Ideograph>)";
" 8442	0x55E6	嗦 (<CJK Ideograph>)";
" 8443	0x55CE	嗎 (<CJK Ideograph>)";
" 8444	0x55DC	嗜 (<CJK Ideograph>)";
" 8445	0x55C7	嗇 (<CJK Ideograph>)";
" 8446	0x55D1	嗑 (<CJK Ideograph>)";
" 8447	0x55E3	嗣 (<CJK Ideograph>)";
" 8448	0x55E4	嗤 (<CJK Ideograph>)";
" 8449	0x55EF	嗯 (<CJK Ideograph>)";
" 8450	0x55DA	嗚 (<CJK Ideograph>)";
" 8451	0x55E1	嗡 (<CJK Ideograph>)";
" 8452	0x55C5	嗅 (<CJK Ideograph>)";
" 8453	0x55C6	嗆 (<CJK Ideograph>)";
" 8454	0x55E5	嗥 (<CJK Ideograph>)";
" 8455	0x55C9	嗉 (<CJK Ideograph>)";
" 8456	0x5712	園 (<CJK Ideograph>)";
" 8457	0x5713	圓 (<CJK Ideograph>)";
" 8458	0x585E	塞 (<CJK Ideograph>)";
" 8459	0x5851	塑 (<CJK Ideograph>)";
" 8460	0x5858	塘 (<CJK Ideograph>)";
" 8461	0x5857	塗 (<CJK Ideograph>)";
" 8462	0x585A	塚 (<CJK Ideograph>)";
" 8463	0x5854	塔 (<CJK Ideograph>)";
" 8464	0x586B	填 (<CJK Ideograph>)";
" 8465	0x584C	塌 (<CJK Ideograph>)";
" 8466	0x586D	塭 (<CJK Ideograph>)";
" 8467	0x584A	塊 (<CJK Ideograph>)";
" 8468	0x5862	塢 (<CJK Ideograph>)";
" 8469	0x5852	塒 (<CJK Ideograph>)";
" 8470	0x584B	塋 (<CJK Ideograph>)";
" 8471	0x5967	奧 (<CJK Ideograph>)";
" 8472	0x5AC1	嫁 (<CJK Ideograph>)";
" 8473	0x5AC9	嫉 (<CJK Ideograph>)";
" 8474	0x5ACC	嫌 (<CJK Ideograph>)";
" 8475	0x5ABE	媾 (<CJK Ideograph>)";
" 8476	0x5ABD	媽 (<CJK Ideograph>)";
" 8477	0x5ABC	媼 (<CJK Ideograph>)";
" 8478	0x5AB3	媳 (<CJK Ideograph>)";
" 8479	0x5AC2	嫂 (<CJK Ideograph>)";
" 8480	0x5AB2	媲 (<CJK Ideograph>)";
" 8481	0x5D69	嵩 (<CJK Ideograph>)";
" 8482	0x5D6F	嵯 (<CJK Ideograph>)";
" 8483	0x5E4C	幌 (<CJK Ideograph>)";
" 8484	0x5E79	幹 (<CJK Ideograph>)";
" 8485	0x5EC9	廉 (<CJK Ideograph>)";
" 8486	0x5EC8	廈 (<CJK Ideograph>)";
" 8487	0x5F12	弒 (<CJK Ideograph>)";
" 8488	0x5F59	彙 (<CJK Ideograph>)";
" 8489	0x5FAC	徬 (<CJK Ideograph>)";
" 8490	0x5FAE	微 (<CJK Ideograph>)";
" 8491	0x611A	愚 (<CJK Ideograph>)";
" 8492	0x610F	意 (<CJK Ideograph>)";
" 8493	0x6148	慈 (<CJK Ideograph>)";
" 8494	0x611F	感 (<CJK Ideograph>)";
" 8495	0x60F3	想 (<CJK Ideograph>)";
" 8496	0x611B	愛 (<CJK Ideograph>)";
" 8497	0x60F9	惹 (<CJK Ideograph>)";
" 8498	0x6101	愁 (<CJK Ideograph>)";
" 8499	0x6108	愈 (<CJK Ideograph>)";
" 8500	0x614E	慎 (<CJK Ideograph>)";
" 8501	0x614C	慌 (<CJK Ideograph>)";
" 8502	0x6144	慄 (<CJK Ideograph>)";
" 8503	0x614D	慍 (<CJK Ideograph>)";
" 8504	0x613E	愾 (<CJK Ideograph>)";
" 8505	0x6134	愴 (<CJK Ideograph>)";
" 8506	0x6127	愧 (<CJK Ideograph>)";
" 8507	0x610D	愍 (<CJK Ideograph>)";
" 8508	0x6106	愆 (<CJK Ideograph>)";
" 8509	0x6137	愷 (<CJK Ideograph>)";
" 8510	0x6221	戡 (<CJK Ideograph>)";
" 8511	0x6222	戢 (<CJK Ideograph>)";
" 8512	0x6413	搓 (<CJK Ideograph>)";
" 8513	0x643E	搾 (<CJK Ideograph>)";
" 8514	0x641E	搞 (<CJK Ideograph>)";
" 8515	0x642A	搪 (<CJK Ideograph>)";
" 8516	0x642D	搭 (<CJK Ideograph>)";
" 8517	0x643D	搽 (<CJK Ideograph>)";
" 8518	0x642C	搬 (<CJK Ideograph>)";
" 8519	0x640F	搏 (<CJK Ideograph>)";
" 8520	0x641C	搜 (<CJK Ideograph>)";
" 8521	0x6414	搔 (<CJK Ideograph>)";
" 8522	0x640D	損 (<CJK Ideograph>)";
" 8523	0x6436	搶 (<CJK Ideograph>)";
" 8524	0x6416	搖 (<CJK Ideograph>)";
" 8525	0x6417	搗 (<CJK Ideograph>)";
" 8526	0x6406	搆 (<CJK Ideograph>)";
" 8527	0x656C	敬 (<CJK Ideograph>)";
" 8528	0x659F	斟 (<CJK Ideograph>)";
" 8529	0x65B0	新 (<CJK Ideograph>)";
" 8530	0x6697	暗 (<CJK Ideograph>)";
" 8531	0x6689	暉 (<CJK Ideograph>)";
" 8532	0x6687	暇 (<CJK Ideograph>)";
" 8533	0x6688	暈 (<CJK Ideograph>)";
" 8534	0x6696	暖 (<CJK Ideograph>)";
" 8535	0x6684	暄 (<CJK Ideograph>)";
" 8536	0x6698	暘 (<CJK Ideograph>)";
" 8537	0x668D	暍 (<CJK Ideograph>)";
" 8538	0x6703	會 (<CJK Ideograph>)";
" 8539	0x6994	榔 (<CJK Ideograph>)";
" 8540	0x696D	業 (<CJK Ideograph>)";
" 8541	0x695A	楚 (<CJK Ideograph>)";
" 8542	0x6977	楷 (<CJK Ideograph>)";
" 8543	0x6960	楠 (<CJK Ideograph>)";
" 8544	0x6954	楔 (<CJK Ideograph>)";
" 8545	0x6975	極 (<CJK Ideograph>)";
" 8546	0x6930	椰 (<CJK Ideograph>)";
" 8547	0x6982	概 (<CJK Ideograph>)";
" 8548	0x694A	楊 (<CJK Ideograph>)";
" 8549	0x6968	楨 (<CJK Ideograph>)";
" 8550	0x696B	楫 (<CJK Ideograph>)";
" 8551	0x695E	楞 (<CJK Ideograph>)";
" 8552	0x6953	楓 (<CJK Ideograph>)";
" 8553	0x6979	楹 (<CJK Ideograph>)";
" 8554	0x6986	榆 (<CJK Ideograph>)";
" 8555	0x695D	楝 (<CJK Ideograph>)";
" 8556	0x6963	楣 (<CJK Ideograph>)";
" 8557	0x695B	楛 (<CJK Ideograph>)";
" 8558	0x6B47	歇 (<CJK Ideograph>)";
" 8559	0x6B72	歲 (<CJK Ideograph>)";
" 8560	0x6BC0	毀 (<CJK Ideograph>)";
" 8561	0x6BBF	殿 (<CJK Ideograph>)";
" 8562	0x6BD3	毓 (<CJK Ideograph>)";
" 8563	0x6BFD	毽 (<CJK Ideograph>)";
" 8564	0x6EA2	溢 (<CJK Ideograph>)";
" 8565	0x6EAF	溯 (<CJK Ideograph>)";
" 8566	0x6ED3	滓 (<CJK Ideograph>)"
].
(* /repo/encoding_tables/whatwg/index-big5.txt:7425-7680 *)
Definition index_big5_txt_29 : list line := [
" 8567	0x6EB6	溶 (<CJK Ideograph>)";
" 8568	0x6EC2	滂 (<CJK Ideograph>)";
" 8569	0x6E90	源 (<CJK Ideograph>)";
" 8570	0x6E9D	溝 (<CJK Ideograph>)";
" 8571	0x6EC7	滇 (<CJK Ideograph>)";
" 8572	0x6EC5	滅 (<CJK Ideograph>)";
" 8573	0x6EA5	溥 (<CJK Ideograph>)";
" 8574	0x6E98	溘 (<CJK Ideograph>)";
" 8575	0x6EBC	溼 (<CJK Ideograph>)";
" 8576	0x6EBA	溺 (<CJK Ideograph>)";
" 8577	0x6EAB	溫 (<CJK Ideograph>)";
" 8578	0x6ED1	滑 (<CJK Ideograph>)";
" 8579	0x6E96	準 (<CJK Ideograph>)";
" 8580	0x6E9C	溜 (<CJK Ideograph>)";
" 8581	0x6EC4	滄 (<CJK Ideograph>)";
" 8582	0x6ED4	滔 (<CJK Ideograph>)";
" 8583	0x6EAA	溪 (<CJK Ideograph>)";
" 8584	0x6EA7	溧 (<CJK Ideograph>)";
" 8585	0x6EB4	溴 (<CJK Ideograph>)";
" 8586	0x714E	煎 (<CJK Ideograph>)";
" 8587	0x7159	煙 (<CJK Ideograph>)";
" 8588	0x7169	煩 (<CJK Ideograph>)";
" 8589	0x7164	煤 (<CJK Ideograph>)";
" 8590	0x7149	煉 (<CJK Ideograph>)";
" 8591	0x7167	照 (<CJK Ideograph>)";
" 8592	0x715C	煜 (<CJK Ideograph>)";
" 8593	0x716C	煬 (<CJK Ideograph>)";
" 8594	0x7166	煦 (<CJK Ideograph>)";
" 8595	0x714C	煌 (<CJK Ideograph>)";
" 8596	0x7165	煥 (<CJK Ideograph>)";
" 8597	0x715E	煞 (<CJK Ideograph>)";
" 8598	0x7146	煆 (<CJK Ideograph>)";
" 8599	0x7168	煨 (<CJK Ideograph>)";
" 8600	0x7156	煖 (<CJK Ideograph>)";
" 8601	0x723A	爺 (<CJK Ideograph>)";
" 8602	0x7252	牒 (<CJK Ideograph>)";
" 8603	0x7337	猷 (<CJK Ideograph>)";
" 8604	0x7345	獅 (<CJK Ideograph>)";
" 8605	0x733F	猿 (<CJK Ideograph>)";
" 8606	0x733E	猾 (<CJK Ideograph>)";
" 8607	0x746F	瑯 (<CJK Ideograph>)";
" 8608	0x745A	瑚 (<CJK Ideograph>)";
" 8609	0x7455	瑕 (<CJK Ideograph>)";
" 8610	0x745F	瑟 (<CJK Ideograph>)";
" 8611	0x745E	瑞 (<CJK Ideograph>)";
" 8612	0x7441	瑁 (<CJK Ideograph>)";
" 8613	0x743F	琿 (<CJK Ideograph>)";
" 8614	0x7459	瑙 (<CJK Ideograph>)";
" 8615	0x745B	瑛 (<CJK Ideograph>)";
" 8616	0x745C	瑜 (<CJK Ideograph>)";
" 8617	0x7576	當 (<CJK Ideograph>)";
" 8618	0x7578	畸 (<CJK Ideograph>)";
" 8619	0x7600	瘀 (<CJK Ideograph>)";
" 8620	0x75F0	痰 (<CJK Ideograph>)";
" 8621	0x7601	瘁 (<CJK Ideograph>)";
" 8622	0x75F2	痲 (<CJK Ideograph>)";
" 8623	0x75F1	痱 (<CJK Ideograph>)";
" 8624	0x75FA	痺 (<CJK Ideograph>)";
" 8625	0x75FF	痿 (<CJK Ideograph>)";
" 8626	0x75F4	痴 (<CJK Ideograph>)";
" 8627	0x75F3	痳 (<CJK Ideograph>)";
" 8628	0x76DE	盞 (<CJK Ideograph>)";
" 8629	0x76DF	盟 (<CJK Ideograph>)";
" 8630	0x775B	睛 (<CJK Ideograph>)";
" 8631	0x776B	睫 (<CJK Ideograph>)";
" 8632	0x7766	睦 (<CJK Ideograph>)";
" 8633	0x775E	睞 (<CJK Ideograph>)";
" 8634	0x7763	督 (<CJK Ideograph>)";
" 8635	0x7779	睹 (<CJK Ideograph>)";
" 8636	0x776A	睪 (<CJK Ideograph>)";
" 8637	0x776C	睬 (<CJK Ideograph>)";
" 8638	0x775C	睜 (<CJK Ideograph>)";
" 8639	0x7765	睥 (<CJK Ideograph>)";
" 8640	0x7768	睨 (<CJK Ideograph>)";
" 8641	0x7762	睢 (<CJK Ideograph>)";
" 8642	0x77EE	矮 (<CJK Ideograph>)";
" 8643	0x788E	碎 (<CJK Ideograph>)";
" 8644	0x78B0	碰 (<CJK Ideograph>)";
" 8645	0x7897	碗 (<CJK Ideograph>)";
" 8646	0x7898	碘 (<CJK Ideograph>)";
" 8647	0x788C	碌 (<CJK Ideograph>)";
" 8648	0x7889	碉 (<CJK Ideograph>)";
" 8649	0x787C	硼 (<CJK Ideograph>)";
" 8650	0x7891	碑 (<CJK Ideograph>)";
" 8651	0x7893	碓 (<CJK Ideograph>)";
" 8652	0x787F	硿 (<CJK Ideograph>)";
" 8653	0x797A	祺 (<CJK Ideograph>)";
" 8654	0x797F	祿 (<CJK Ideograph>)";
" 8655	0x7981	禁 (<CJK Ideograph>)";
" 8656	0x842C	萬 (<CJK Ideograph>)";
" 8657	0x79BD	禽 (<CJK Ideograph>)";
" 8658	0x7A1C	稜 (<CJK Ideograph>)";
" 8659	0x7A1A	稚 (<CJK Ideograph>)";
" 8660	0x7A20	稠 (<CJK Ideograph>)";
" 8661	0x7A14	稔 (<CJK Ideograph>)";
" 8662	0x7A1F	稟 (<CJK Ideograph>)";
" 8663	0x7A1E	稞 (<CJK Ideograph>)";
" 8664	0x7A9F	窟 (<CJK Ideograph>)";
" 8665	0x7AA0	窠 (<CJK Ideograph>)";
" 8666	0x7B77	筷 (<CJK Ideograph>)";
" 8667	0x7BC0	節 (<CJK Ideograph>)";
" 8668	0x7B60	筠 (<CJK Ideograph>)";
" 8669	0x7B6E	筮 (<CJK Ideograph>)";
" 8670	0x7B67	筧 (<CJK Ideograph>)";
" 8671	0x7CB1	粱 (<CJK Ideograph>)";
" 8672	0x7CB3	粳 (<CJK Ideograph>)";
" 8673	0x7CB5	粵 (<CJK Ideograph>)";
" 8674	0x7D93	經 (<CJK Ideograph>)";
" 8675	0x7D79	絹 (<CJK Ideograph>)";
" 8676	0x7D91	綑 (<CJK Ideograph>)";
" 8677	0x7D81	綁 (<CJK Ideograph>)";
" 8678	0x7D8F	綏 (<CJK Ideograph>)";
" 8679	0x7D5B	絛 (<CJK Ideograph>)";
" 8680	0x7F6E	置 (<CJK Ideograph>)";
" 8681	0x7F69	罩 (<CJK Ideograph>)";
" 8682	0x7F6A	罪 (<CJK Ideograph>)";
" 8683	0x7F72	署 (<CJK Ideograph>)";
" 8684	0x7FA9	義 (<CJK Ideograph>)";
" 8685	0x7FA8	羨 (<CJK Ideograph>)";
" 8686	0x7FA4	群 (<CJK Ideograph>)";
" 8687	0x8056	聖 (<CJK Ideograph>)";
" 8688	0x8058	聘 (<CJK Ideograph>)";
" 8689	0x8086	肆 (<CJK Ideograph>)";
" 8690	0x8084	肄 (<CJK Ideograph>)";
" 8691	0x8171	腱 (<CJK Ideograph>)";
" 8692	0x8170	腰 (<CJK Ideograph>)";
" 8693	0x8178	腸 (<CJK Ideograph>)";
" 8694	0x8165	腥 (<CJK Ideograph>)";
" 8695	0x816E	腮 (<CJK Ideograph>)";
" 8696	0x8173	腳 (<CJK Ideograph>)";
" 8697	0x816B	腫 (<CJK Ideograph>)";
" 8698	0x8179	腹 (<CJK Ideograph>)";
" 8699	0x817A	腺 (<CJK Ideograph>)";
" 8700	0x8166	腦 (<CJK Ideograph>)";
" 8701	0x8205	舅 (<CJK Ideograph>)";
" 8702	0x8247	艇 (<CJK Ideograph>)";
" 8703	0x8482	蒂 (<CJK Ideograph>)";
" 8704	0x8477	葷 (<CJK Ideograph>)";
" 8705	0x843D	落 (<CJK Ideograph>)";
" 8706	0x8431	萱 (<CJK Ideograph>)";
" 8707	0x8475	葵 (<CJK Ideograph>)";
" 8708	0x8466	葦 (<CJK Ideograph>)";
" 8709	0x846B	葫 (<CJK Ideograph>)";
" 8710	0x8449	葉 (<CJK Ideograph>)";
" 8711	0x846C	葬 (<CJK Ideograph>)";
" 8712	0x845B	葛 (<CJK Ideograph>)";
" 8713	0x843C	萼 (<CJK Ideograph>)";
" 8714	0x8435	萵 (<CJK Ideograph>)";
" 8715	0x8461	葡 (<CJK Ideograph>)";
" 8716	0x8463	董 (<CJK Ideograph>)";
" 8717	0x8469	葩 (<CJK Ideograph>)";
" 8718	0x846D	葭 (<CJK Ideograph>)";
" 8719	0x8446	葆 (<CJK Ideograph>)";
" 8720	0x865E	虞 (<CJK Ideograph>)";
" 8721	0x865C	虜 (<CJK Ideograph>)";
" 8722	0x865F	號 (<CJK Ideograph>)";
" 8723	0x86F9	蛹 (<CJK Ideograph>)";
" 8724	0x8713	蜓 (<CJK Ideograph>)";
" 8725	0x8708	蜈 (<CJK Ideograph>)";
" 8726	0x8707	蜇 (<CJK Ideograph>)";
" 8727	0x8700	蜀 (<CJK Ideograph>)";
" 8728	0x86FE	蛾 (<CJK Ideograph>)";
" 8729	0x86FB	蛻 (<CJK Ideograph>)";
" 8730	0x8702	蜂 (<CJK Ideograph>)";
" 8731	0x8703	蜃 (<CJK Ideograph>)";
" 8732	0x8706	蜆 (<CJK Ideograph>)";
" 8733	0x870A	蜊 (<CJK Ideograph>)";
" 8734	0x8859	衙 (<CJK Ideograph>)";
" 8735	0x88DF	裟 (<CJK Ideograph>)";
" 8736	0x88D4	裔 (<CJK Ideograph>)";
" 8737	0x88D9	裙 (<CJK Ideograph>)";
" 8738	0x88DC	補 (<CJK Ideograph>)";
" 8739	0x88D8	裘 (<CJK Ideograph>)";
" 8740	0x88DD	裝 (<CJK Ideograph>)";
" 8741	0x88E1	裡 (<CJK Ideograph>)";
" 8742	0x88CA	裊 (<CJK Ideograph>)";
" 8743	0x88D5	裕 (<CJK Ideograph>)";
" 8744	0x88D2	裒 (<CJK Ideograph>)";
" 8745	0x899C	覜 (<CJK Ideograph>)";
" 8746	0x89E3	解 (<CJK Ideograph>)";
" 8747	0x8A6B	詫 (<CJK Ideograph>)";
" 8748	0x8A72	該 (<CJK Ideograph>)";
" 8749	0x8A73	詳 (<CJK Ideograph>)";
" 8750	0x8A66	試 (<CJK Ideograph>)";
" 8751	0x8A69	詩 (<CJK Ideograph>)";
" 8752	0x8A70	詰 (<CJK Ideograph>)";
" 8753	0x8A87	誇 (<CJK Ideograph>)";
" 8754	0x8A7C	詼 (<CJK Ideograph>)";
" 8755	0x8A63	詣 (<CJK Ideograph>)";
" 8756	0x8AA0	誠 (<CJK Ideograph>)";
" 8757	0x8A71	話 (<CJK Ideograph>)";
" 8758	0x8A85	誅 (<CJK Ideograph>)";
" 8759	0x8A6D	詭 (<CJK Ideograph>)";
" 8760	0x8A62	詢 (<CJK Ideograph>)";
" 8761	0x8A6E	詮 (<CJK Ideograph>)";
" 8762	0x8A6C	詬 (<CJK Ideograph>)";
" 8763	0x8A79	詹 (<CJK Ideograph>)";
" 8764	0x8A7B	詻 (<CJK Ideograph>)";
" 8765	0x8A3E	訾 (<CJK Ideograph>)";
" 8766	0x8A68	詨 (<CJK Ideograph>)";
" 8767	0x8C62	豢 (<CJK Ideograph>)";
" 8768	0x8C8A	貊 (<CJK Ideograph>)";
" 8769	0x8C89	貉 (<CJK Ideograph>)";
" 8770	0x8CCA	賊 (<CJK Ideograph>)";
" 8771	0x8CC7	資 (<CJK Ideograph>)";
" 8772	0x8CC8	賈 (<CJK Ideograph>)";
" 8773	0x8CC4	賄 (<CJK Ideograph>)";
" 8774	0x8CB2	貲 (<CJK Ideograph>)";
" 8775	0x8CC3	賃 (<CJK Ideograph>)";
" 8776	0x8CC2	賂 (<CJK Ideograph>)";
" 8777	0x8CC5	賅 (<CJK Ideograph>)";
" 8778	0x8DE1	跡 (<CJK Ideograph>)";
" 8779	0x8DDF	跟 (<CJK Ideograph>)";
" 8780	0x8DE8	跨 (<CJK Ideograph>)";
" 8781	0x8DEF	路 (<CJK Ideograph>)";
" 8782	0x8DF3	跳 (<CJK Ideograph>)";
" 8783	0x8DFA	跺 (<CJK Ideograph>)";
" 8784	0x8DEA	跪 (<CJK Ideograph>)";
" 8785	0x8DE4	跤 (<CJK Ideograph>)";
" 8786	0x8DE6	跦 (<CJK Ideograph>)";
" 8787	0x8EB2	躲 (<CJK Ideograph>)";
" 8788	0x8F03	較 (<CJK Ideograph>)";
" 8789	0x8F09	載 (<CJK Ideograph>)";
" 8790	0x8EFE	軾 (<CJK Ideograph>)";
" 8791	0x8F0A	輊 (<CJK Ideograph>)";
" 8792	0x8F9F	辟 (<CJK Ideograph>)";
" 8793	0x8FB2	農 (<CJK Ideograph>)";
" 8794	0x904B	運 (<CJK Ideograph>)";
" 8795	0x904A	遊 (<CJK Ideograph>)";
" 8796	0x9053	道 (<CJK Ideograph>)";
" 8797	0x9042	遂 (<CJK Ideograph>)";
" 8798	0x9054	達 (<CJK Ideograph>)";
" 8799	0x903C	逼 (<CJK Ideograph>)";
" 8800	0x9055	違 (<CJK Ideograph>)";
" 8801	0x9050	遐 (<CJK Ideograph>)";
" 8802	0x9047	遇 (<CJK Ideograph>)";
" 8803	0x904F	遏 (<CJK Ideograph>)";
" 8804	0x904E	過 (<CJK Ideograph>)";
" 8805	0x904D	遍 (<CJK Ideograph>)";
" 8806	0x9051	遑 (<CJK Ideograph>)";
" 8807	0x903E	逾 (<CJK Ideograph>)";
" 8808	0x9041	遁 (<CJK Ideograph>)";
" 8809	0x9112	鄒 (<CJK Ideograph>)";
" 8810	0x9117	鄗 (<CJK Ideograph>)";
" 8811	0x916C	酬 (<CJK Ideograph>)";
" 8812	0x916A	酪 (<CJK Ideograph>)";
" 8813	0x9169	酩 (<CJK Ideograph>)";
" 8814	0x91C9	釉 (<CJK Ideograph>)";
" 8815	0x9237	鈷 (<CJK Ideograph>)";
" 8816	0x9257	鉗 (<CJK Ideograph>)";
" 8817	0x9238	鈸 (<CJK Ideograph>)";
" 8818	0x923D	鈽 (<CJK Ideograph>)";
" 8819	0x9240	鉀 (<CJK Ideograph>)";
" 8820	0x923E	鈾 (<CJK Ideograph>)";
" 8821	0x925B	鉛 (<CJK Ideograph>)";
" 8822	0x924B	鉋 (<CJK Ideograph>)"
].
(* /repo/encoding_tables/whatwg/index-big5.txt:7681-7936 *)
Definition index_big5_txt_30 : list line := [
" 8823	0x9264	鉤 (<CJK Ideograph>)";
" 8824	0x9251	鉑 (<CJK Ideograph>)";
" 8825	0x9234	鈴 (<CJK Ideograph>)";
" 8826	0x9249	鉉 (<CJK Ideograph>)";
" 8827	0x924D	鉍 (<CJK Ideograph>)";
" 8828	0x9245	鉅 (<CJK Ideograph>)";
" 8829	0x9239	鈹 (<CJK Ideograph>)";
" 8830	0x923F	鈿 (<CJK Ideograph>)";
" 8831	0x925A	鉚 (<CJK Ideograph>)";
" 8832	0x9598	閘 (<CJK Ideograph>)";
" 8833	0x9698	隘 (<CJK Ideograph>)";
" 8834	0x9694	隔 (<CJK Ideograph>)";
" 8835	0x9695	隕 (<CJK Ideograph>)";
" 8836	0x96CD	雍 (<CJK Ideograph>)";
" 8837	0x96CB	雋 (<CJK Ideograph>)";
" 8838	0x96C9	雉 (<CJK Ideograph>)";
" 8839	0x96CA	雊 (<CJK Ideograph>)";
" 8840	0x96F7	雷 (<CJK Ideograph>)";
" 8841	0x96FB	電 (<CJK Ideograph>)";
" 8842	0x96F9	雹 (<CJK Ideograph>)";
" 8843	0x96F6	零 (<CJK Ideograph>)";
" 8844	0x9756	靖 (<CJK Ideograph>)";
" 8845	0x9774	靴 (<CJK Ideograph>)";
" 8846	0x9776	靶 (<CJK Ideograph>)";
" 8847	0x9810	預 (<CJK Ideograph>)";
" 8848	0x9811	頑 (<CJK Ideograph>)";
" 8849	0x9813	頓 (<CJK Ideograph>)";
" 8850	0x980A	頊 (<CJK Ideograph>)";
" 8851	0x9812	頒 (<CJK Ideograph>)";
" 8852	0x980C	頌 (<CJK Ideograph>)";
" 8853	0x98FC	飼 (<CJK Ideograph>)";
" 8854	0x98F4	飴 (<CJK Ideograph>)";
" 8855	0x98FD	飽 (<CJK Ideograph>)";
" 8856	0x98FE	飾 (<CJK Ideograph>)";
" 8857	0x99B3	馳 (<CJK Ideograph>)";
" 8858	0x99B1	馱 (<CJK Ideograph>)";
" 8859	0x99B4	馴 (<CJK Ideograph>)";
" 8860	0x9AE1	髡 (<CJK Ideograph>)";
" 8861	0x9CE9	鳩 (<CJK Ideograph>)";
" 8862	0x9E82	麂 (<CJK Ideograph>)";
" 8863	0x9F0E	鼎 (<CJK Ideograph>)";
" 8864	0x9F13	鼓 (<CJK Ideograph>)";
" 8865	0x9F20	鼠 (<CJK Ideograph>)";
" 8866	0x50E7	僧 (<CJK Ideograph>)";
" 8867	0x50EE	僮 (<CJK Ideograph>)";
" 8868	0x50E5	僥 (<CJK Ideograph>)";
" 8869	0x50D6	僖 (<CJK Ideograph>)";
" 8870	0x50ED	僭 (<CJK Ideograph>)";
" 8871	0x50DA	僚 (<CJK Ideograph>)";
" 8872	0x50D5	僕 (<CJK Ideograph>)";
" 8873	0x50CF	像 (<CJK Ideograph>)";
" 8874	0x50D1	僑 (<CJK Ideograph>)";
" 8875	0x50F1	僱 (<CJK Ideograph>)";
" 8876	0x50CE	僎 (<CJK Ideograph>)";
" 8877	0x50E9	僩 (<CJK Ideograph>)";
" 8878	0x5162	兢 (<CJK Ideograph>)";
" 8879	0x51F3	凳 (<CJK Ideograph>)";
" 8880	0x5283	劃 (<CJK Ideograph>)";
" 8881	0x5282	劂 (<CJK Ideograph>)";
" 8882	0x5331	匱 (<CJK Ideograph>)";
" 8883	0x53AD	厭 (<CJK Ideograph>)";
" 8884	0x55FE	嗾 (<CJK Ideograph>)";
" 8885	0x5600	嘀 (<CJK Ideograph>)";
" 8886	0x561B	嘛 (<CJK Ideograph>)";
" 8887	0x5617	嘗 (<CJK Ideograph>)";
" 8888	0x55FD	嗽 (<CJK Ideograph>)";
" 8889	0x5614	嘔 (<CJK Ideograph>)";
" 8890	0x5606	嘆 (<CJK Ideograph>)";
" 8891	0x5609	嘉 (<CJK Ideograph>)";
" 8892	0x560D	嘍 (<CJK Ideograph>)";
" 8893	0x560E	嘎 (<CJK Ideograph>)";
" 8894	0x55F7	嗷 (<CJK Ideograph>)";
" 8895	0x5616	嘖 (<CJK Ideograph>)";
" 8896	0x561F	嘟 (<CJK Ideograph>)";
" 8897	0x5608	嘈 (<CJK Ideograph>)";
" 8898	0x5610	嘐 (<CJK Ideograph>)";
" 8899	0x55F6	嗶 (<CJK Ideograph>)";
" 8900	0x5718	團 (<CJK Ideograph>)";
" 8901	0x5716	圖 (<CJK Ideograph>)";
" 8902	0x5875	塵 (<CJK Ideograph>)";
" 8903	0x587E	塾 (<CJK Ideograph>)";
" 8904	0x5883	境 (<CJK Ideograph>)";
" 8905	0x5893	墓 (<CJK Ideograph>)";
" 8906	0x588A	墊 (<CJK Ideograph>)";
" 8907	0x5879	塹 (<CJK Ideograph>)";
" 8908	0x5885	墅 (<CJK Ideograph>)";
" 8909	0x587D	塽 (<CJK Ideograph>)";
" 8910	0x58FD	壽 (<CJK Ideograph>)";
" 8911	0x5925	夥 (<CJK Ideograph>)";
" 8912	0x5922	夢 (<CJK Ideograph>)";
" 8913	0x5924	夤 (<CJK Ideograph>)";
" 8914	0x596A	奪 (<CJK Ideograph>)";
" 8915	0x5969	奩 (<CJK Ideograph>)";
" 8916	0x5AE1	嫡 (<CJK Ideograph>)";
" 8917	0x5AE6	嫦 (<CJK Ideograph>)";
" 8918	0x5AE9	嫩 (<CJK Ideograph>)";
" 8919	0x5AD7	嫗 (<CJK Ideograph>)";
" 8920	0x5AD6	嫖 (<CJK Ideograph>)";
" 8921	0x5AD8	嫘 (<CJK Ideograph>)";
" 8922	0x5AE3	嫣 (<CJK Ideograph>)";
" 8923	0x5B75	孵 (<CJK Ideograph>)";
" 8924	0x5BDE	寞 (<CJK Ideograph>)";
" 8925	0x5BE7	寧 (<CJK Ideograph>)";
" 8926	0x5BE1	寡 (<CJK Ideograph>)";
" 8927	0x5BE5	寥 (<CJK Ideograph>)";
" 8928	0x5BE6	實 (<CJK Ideograph>)";
" 8929	0x5BE8	寨 (<CJK Ideograph>)";
" 8930	0x5BE2	寢 (<CJK Ideograph>)";
" 8931	0x5BE4	寤 (<CJK Ideograph>)";
" 8932	0x5BDF	察 (<CJK Ideograph>)";
" 8933	0x5C0D	對 (<CJK Ideograph>)";
" 8934	0x5C62	屢 (<CJK Ideograph>)";
" 8935	0x5D84	嶄 (<CJK Ideograph>)";
" 8936	0x5D87	嶇 (<CJK Ideograph>)";
" 8937	0x5E5B	幛 (<CJK Ideograph>)";
" 8938	0x5E63	幣 (<CJK Ideograph>)";
" 8939	0x5E55	幕 (<CJK Ideograph>)";
" 8940	0x5E57	幗 (<CJK Ideograph>)";
" 8941	0x5E54	幔 (<CJK Ideograph>)";
" 8942	0x5ED3	廓 (<CJK Ideograph>)";
" 8943	0x5ED6	廖 (<CJK Ideograph>)";
" 8944	0x5F0A	弊 (<CJK Ideograph>)";
" 8945	0x5F46	彆 (<CJK Ideograph>)";
" 8946	0x5F70	彰 (<CJK Ideograph>)";
" 8947	0x5FB9	徹 (<CJK Ideograph>)";
" 8948	0x6147	慇 (<CJK Ideograph>)";
" 8949	0x613F	愿 (<CJK Ideograph>)";
" 8950	0x614B	態 (<CJK Ideograph>)";
" 8951	0x6177	慷 (<CJK Ideograph>)";
" 8952	0x6162	慢 (<CJK Ideograph>)";
" 8953	0x6163	慣 (<CJK Ideograph>)";
" 8954	0x615F	慟 (<CJK Ideograph>)";
" 8955	0x615A	慚 (<CJK Ideograph>)";
" 8956	0x6158	慘 (<CJK Ideograph>)";
" 8957	0x6175	慵 (<CJK Ideograph>)";
" 8958	0x622A	截 (<CJK Ideograph>)";
" 8959	0x6487	撇 (<CJK Ideograph>)";
" 8960	0x6458	摘 (<CJK Ideograph>)";
" 8961	0x6454	摔 (<CJK Ideograph>)";
" 8962	0x64A4	撤 (<CJK Ideograph>)";
" 8963	0x6478	摸 (<CJK Ideograph>)";
" 8964	0x645F	摟 (<CJK Ideograph>)";
" 8965	0x647A	摺 (<CJK Ideograph>)";
" 8966	0x6451	摑 (<CJK Ideograph>)";
" 8967	0x6467	摧 (<CJK Ideograph>)";
" 8968	0x6434	搴 (<CJK Ideograph>)";
" 8969	0x646D	摭 (<CJK Ideograph>)";
" 8970	0x647B	摻 (<CJK Ideograph>)";
" 8971	0x6572	敲 (<CJK Ideograph>)";
" 8972	0x65A1	斡 (<CJK Ideograph>)";
" 8973	0x65D7	旗 (<CJK Ideograph>)";
" 8974	0x65D6	旖 (<CJK Ideograph>)";
" 8975	0x66A2	暢 (<CJK Ideograph>)";
" 8976	0x66A8	暨 (<CJK Ideograph>)";
" 8977	0x669D	暝 (<CJK Ideograph>)";
" 8978	0x699C	榜 (<CJK Ideograph>)";
" 8979	0x69A8	榨 (<CJK Ideograph>)";
" 8980	0x6995	榕 (<CJK Ideograph>)";
" 8981	0x69C1	槁 (<CJK Ideograph>)";
" 8982	0x69AE	榮 (<CJK Ideograph>)";
" 8983	0x69D3	槓 (<CJK Ideograph>)";
" 8984	0x69CB	構 (<CJK Ideograph>)";
" 8985	0x699B	榛 (<CJK Ideograph>)";
" 8986	0x69B7	榷 (<CJK Ideograph>)";
" 8987	0x69BB	榻 (<CJK Ideograph>)";
" 8988	0x69AB	榫 (<CJK Ideograph>)";
" 8989	0x69B4	榴 (<CJK Ideograph>)";
" 8990	0x69D0	槐 (<CJK Ideograph>)";
" 8991	0x69CD	槍 (<CJK Ideograph>)";
" 8992	0x69AD	榭 (<CJK Ideograph>)";
" 8993	0x69CC	槌 (<CJK Ideograph>)";
" 8994	0x69A6	榦 (<CJK Ideograph>)";
" 8995	0x69C3	槃 (<CJK Ideograph>)";
" 8996	0x69A3	榣 (<CJK Ideograph>)";
" 8997	0x6B49	歉 (<CJK Ideograph>)";
" 8998	0x6B4C	歌 (<CJK Ideograph>)";
" 8999	0x6C33	氳 (<CJK Ideograph>)";
" 9000	0x6F33	漳 (<CJK Ideograph>)";
" 9001	0x6F14	演 (<CJK Ideograph>)";
" 9002	0x6EFE	滾 (<CJK Ideograph>)";
" 9003	0x6F13	漓 (<CJK Ideograph>)";
" 9004	0x6EF4	滴 (<CJK Ideograph>)";
" 9005	0x6F29	漩 (<CJK Ideograph>)";
" 9006	0x6F3E	漾 (<CJK Ideograph>)";
" 9007	0x6F20	漠 (<CJK Ideograph>)";
" 9008	0x6F2C	漬 (<CJK Ideograph>)";
" 9009	0x6F0F	漏 (<CJK Ideograph>)";
" 9010	0x6F02	漂 (<CJK Ideograph>)";
" 9011	0x6F22	漢 (<CJK Ideograph>)";
" 9012	0x6EFF	滿 (<CJK Ideograph>)";
" 9013	0x6EEF	滯 (<CJK Ideograph>)";
" 9014	0x6F06	漆 (<CJK Ideograph>)";
" 9015	0x6F31	漱 (<CJK Ideograph>)";
" 9016	0x6F38	漸 (<CJK Ideograph>)";
" 9017	0x6F32	漲 (<CJK Ideograph>)";
" 9018	0x6F23	漣 (<CJK Ideograph>)";
" 9019	0x6F15	漕 (<CJK Ideograph>)";
" 9020	0x6F2B	漫 (<CJK Ideograph>)";
" 9021	0x6F2F	漯 (<CJK Ideograph>)";
" 9022	0x6F88	澈 (<CJK Ideograph>)";
" 9023	0x6F2A	漪 (<CJK Ideograph>)";
" 9024	0x6EEC	滬 (<CJK Ideograph>)";
" 9025	0x6F01	漁 (<CJK Ideograph>)";
" 9026	0x6EF2	滲 (<CJK Ideograph>)";
" 9027	0x6ECC	滌 (<CJK Ideograph>)";
" 9028	0x6EF7	滷 (<CJK Ideograph>)";
" 9029	0x7194	熔 (<CJK Ideograph>)";
" 9030	0x7199	熙 (<CJK Ideograph>)";
" 9031	0x717D	煽 (<CJK Ideograph>)";
" 9032	0x718A	熊 (<CJK Ideograph>)";
" 9033	0x7184	熄 (<CJK Ideograph>)";
" 9034	0x7192	熒 (<CJK Ideograph>)";
" 9035	0x723E	爾 (<CJK Ideograph>)";
" 9036	0x7292	犒 (<CJK Ideograph>)";
" 9037	0x7296	犖 (<CJK Ideograph>)";
" 9038	0x7344	獄 (<CJK Ideograph>)";
" 9039	0x7350	獐 (<CJK Ideograph>)";
" 9040	0x7464	瑤 (<CJK Ideograph>)";
" 9041	0x7463	瑣 (<CJK Ideograph>)";
" 9042	0x746A	瑪 (<CJK Ideograph>)";
" 9043	0x7470	瑰 (<CJK Ideograph>)";
" 9044	0x746D	瑭 (<CJK Ideograph>)";
" 9045	0x7504	甄 (<CJK Ideograph>)";
" 9046	0x7591	疑 (<CJK Ideograph>)";
" 9047	0x7627	瘧 (<CJK Ideograph>)";
" 9048	0x760D	瘍 (<CJK Ideograph>)";
" 9049	0x760B	瘋 (<CJK Ideograph>)";
" 9050	0x7609	瘉 (<CJK Ideograph>)";
" 9051	0x7613	瘓 (<CJK Ideograph>)";
" 9052	0x76E1	盡 (<CJK Ideograph>)";
" 9053	0x76E3	監 (<CJK Ideograph>)";
" 9054	0x7784	瞄 (<CJK Ideograph>)";
" 9055	0x777D	睽 (<CJK Ideograph>)";
" 9056	0x777F	睿 (<CJK Ideograph>)";
" 9057	0x7761	睡 (<CJK Ideograph>)";
" 9058	0x78C1	磁 (<CJK Ideograph>)";
" 9059	0x789F	碟 (<CJK Ideograph>)";
" 9060	0x78A7	碧 (<CJK Ideograph>)";
" 9061	0x78B3	碳 (<CJK Ideograph>)";
" 9062	0x78A9	碩 (<CJK Ideograph>)";
" 9063	0x78A3	碣 (<CJK Ideograph>)";
" 9064	0x798E	禎 (<CJK Ideograph>)";
" 9065	0x798F	福 (<CJK Ideograph>)";
" 9066	0x798D	禍 (<CJK Ideograph>)";
" 9067	0x7A2E	種 (<CJK Ideograph>)";
" 9068	0x7A31	稱 (<CJK Ideograph>)";
" 9069	0x7AAA	窪 (<CJK Ideograph>)";
" 9070	0x7AA9	窩 (<CJK Ideograph>)";
" 9071	0x7AED	竭 (<CJK Ideograph>)";
" 9072	0x7AEF	端 (<CJK Ideograph>)";
" 9073	0x7BA1	管 (<CJK Ideograph>)";
" 9074	0x7B95	箕 (<CJK Ideograph>)";
" 9075	0x7B8B	箋 (<CJK Ideograph>)";
" 9076	0x7B75	筵 (<CJK Ideograph>)";
" 9077	0x7B97	算 (<CJK Ideograph>)";
" 9078	0x7B9D	箝 (<CJK Ideograph>)"
].
(* /repo/encoding_tables/whatwg/index-big5.txt:7937-8192 *)
Definition index_big5_txt_31 : list line := [
" 9079	0x7B94	箔 (<CJK Ideograph>)";
" 9080	0x7B8F	箏 (<CJK Ideograph>)";
" 9081	0x7BB8	箸 (<CJK Ideograph>)";
" 9082	0x7B87	箇 (<CJK Ideograph>)";
" 9083	0x7B84	箄 (<CJK Ideograph>)";
" 9084	0x7CB9	粹 (<CJK Ideograph>)";
" 9085	0x7CBD	粽 (<CJK Ideograph>)";
" 9086	0x7CBE	精 (<CJK Ideograph>)";
" 9087	0x7DBB	綻 (<CJK Ideograph>)";
" 9088	0x7DB0	綰 (<CJK Ideograph>)";
" 9089	0x7D9C	綜 (<CJK Ideograph>)";
" 9090	0x7DBD	綽 (<CJK Ideograph>)";
" 9091	0x7DBE	綾 (<CJK Ideograph>)";
" 9092	0x7DA0	綠 (<CJK Ideograph>)";
" 9093	0x7DCA	緊 (<CJK Ideograph>)";
" 9094	0x7DB4	綴 (<CJK Ideograph>)";
" 9095	0x7DB2	網 (<CJK Ideograph>)";
" 9096	0x7DB1	綱 (<CJK Ideograph>)";
" 9097	0x7DBA	綺 (<CJK Ideograph>)";
" 9098	0x7DA2	綢 (<CJK Ideograph>)";
" 9099	0x7DBF	綿 (<CJK Ideograph>)";
" 9100	0x7DB5	綵 (<CJK Ideograph>)";
" 9101	0x7DB8	綸 (<CJK Ideograph>)";
" 9102	0x7DAD	維 (<CJK Ideograph>)";
" 9103	0x7DD2	緒 (<CJK Ideograph>)";
" 9104	0x7DC7	緇 (<CJK Ideograph>)";
" 9105	0x7DAC	綬 (<CJK Ideograph>)";
" 9106	0x7F70	罰 (<CJK Ideograph>)";
" 9107	0x7FE0	翠 (<CJK Ideograph>)";
" 9108	0x7FE1	翡 (<CJK Ideograph>)";
" 9109	0x7FDF	翟 (<CJK Ideograph>)";
" 9110	0x805E	聞 (<CJK Ideograph>)";
" 9111	0x805A	聚 (<CJK Ideograph>)";
" 9112	0x8087	肇 (<CJK Ideograph>)";
" 9113	0x8150	腐 (<CJK Ideograph>)";
" 9114	0x8180	膀 (<CJK Ideograph>)";
" 9115	0x818F	膏 (<CJK Ideograph>)";
" 9116	0x8188	膈 (<CJK Ideograph>)";
" 9117	0x818A	膊 (<CJK Ideograph>)";
" 9118	0x817F	腿 (<CJK Ideograph>)";
" 9119	0x8182	膂 (<CJK Ideograph>)";
" 9120	0x81E7	臧 (<CJK Ideograph>)";
" 9121	0x81FA	臺 (<CJK Ideograph>)";
" 9122	0x8207	與 (<CJK Ideograph>)";
" 9123	0x8214	舔 (<CJK Ideograph>)";
" 9124	0x821E	舞 (<CJK Ideograph>)";
" 9125	0x824B	艋 (<CJK Ideograph>)";
" 9126	0x84C9	蓉 (<CJK Ideograph>)";
" 9127	0x84BF	蒿 (<CJK Ideograph>)";
" 9128	0x84C6	蓆 (<CJK Ideograph>)";
" 9129	0x84C4	蓄 (<CJK Ideograph>)";
" 9130	0x8499	蒙 (<CJK Ideograph>)";
" 9131	0x849E	蒞 (<CJK Ideograph>)";
" 9132	0x84B2	蒲 (<CJK Ideograph>)";
" 9133	0x849C	蒜 (<CJK Ideograph>)";
" 9134	0x84CB	蓋 (<CJK Ideograph>)";
" 9135	0x84B8	蒸 (<CJK Ideograph>)";
" 9136	0x84C0	蓀 (<CJK Ideograph>)";
" 9137	0x84D3	蓓 (<CJK Ideograph>)";
" 9138	0x8490	蒐 (<CJK Ideograph>)";
" 9139	0x84BC	蒼 (<CJK Ideograph>)";
" 9140	0x84D1	蓑 (<CJK Ideograph>)";
" 9141	0x84CA	蓊 (<CJK Ideograph>)";
" 9142	0x873F	蜿 (<CJK Ideograph>)";
" 9143	0x871C	蜜 (<CJK Ideograph>)";
" 9144	0x873B	蜻 (<CJK Ideograph>)";
" 9145	0x8722	蜢 (<CJK Ideograph>)";
" 9146	0x8725	蜥 (<CJK Ideograph>)";
" 9147	0x8734	蜴 (<CJK Ideograph>)";
" 9148	0x8718	蜘 (<CJK Ideograph>)";
" 9149	0x8755	蝕 (<CJK Ideograph>)";
" 9150	0x8737	蜷 (<CJK Ideograph>)";
" 9151	0x8729	蜩 (<CJK Ideograph>)";
" 9152	0x88F3	裳 (<CJK Ideograph>)";
" 9153	0x8902	褂 (<CJK Ideograph>)";
" 9154	0x88F4	裴 (<CJK Ideograph>)";
" 9155	0x88F9	裹 (<CJK Ideograph>)";
" 9156	0x88F8	裸 (<CJK Ideograph>)";
" 9157	0x88FD	製 (<CJK Ideograph>)";
" 9158	0x88E8	裨 (<CJK Ideograph>)";
" 9159	0x891A	褚 (<CJK Ideograph>)";
" 9160	0x88EF	裯 (<CJK Ideograph>)";
" 9161	0x8AA6	誦 (<CJK Ideograph>)";
" 9162	0x8A8C	誌 (<CJK Ideograph>)";
" 9163	0x8A9E	語 (<CJK Ideograph>)";
" 9164	0x8AA3	誣 (<CJK Ideograph>)";
" 9165	0x8A8D	認 (<CJK Ideograph>)";
" 9166	0x8AA1	誡 (<CJK Ideograph>)";
" 9167	0x8A93	誓 (<CJK Ideograph>)";
" 9168	0x8AA4	誤 (<CJK Ideograph>)";
" 9169	0x8AAA	說 (<CJK Ideograph>)";
" 9170	0x8AA5	誥 (<CJK Ideograph>)";
" 9171	0x8AA8	誨 (<CJK Ideograph>)";
" 9172	0x8A98	誘 (<CJK Ideograph>)";
" 9173	0x8A91	誑 (<CJK Ideograph>)";
" 9174	0x8A9A	誚 (<CJK Ideograph>)";
" 9175	0x8AA7	誧 (<CJK Ideograph>)";
" 9176	0x8C6A	豪 (<CJK Ideograph>)";
" 9177	0x8C8D	貍 (<CJK Ideograph>)";
" 9178	0x8C8C	貌 (<CJK Ideograph>)";
" 9179	0x8CD3	賓 (<CJK Ideograph>)";
" 9180	0x8CD1	賑 (<CJK Ideograph>)";
" 9181	0x8CD2	賒 (<CJK Ideograph>)";
" 9182	0x8D6B	赫 (<CJK Ideograph>)";
" 9183	0x8D99	趙 (<CJK Ideograph>)";
" 9184	0x8D95	趕 (<CJK Ideograph>)";
" 9185	0x8DFC	跼 (<CJK Ideograph>)";
" 9186	0x8F14	輔 (<CJK Ideograph>)";
" 9187	0x8F12	輒 (<CJK Ideograph>)";
" 9188	0x8F15	輕 (<CJK Ideograph>)";
" 9189	0x8F13	輓 (<CJK Ideograph>)";
" 9190	0x8FA3	辣 (<CJK Ideograph>)";
" 9191	0x9060	遠 (<CJK Ideograph>)";
" 9192	0x9058	遘 (<CJK Ideograph>)";
" 9193	0x905C	遜 (<CJK Ideograph>)";
" 9194	0x9063	遣 (<CJK Ideograph>)";
" 9195	0x9059	遙 (<CJK Ideograph>)";
" 9196	0x905E	遞 (<CJK Ideograph>)";
" 9197	0x9062	遢 (<CJK Ideograph>)";
" 9198	0x905D	遝 (<CJK Ideograph>)";
" 9199	0x905B	遛 (<CJK Ideograph>)";
" 9200	0x9119	鄙 (<CJK Ideograph>)";
" 9201	0x9118	鄘 (<CJK Ideograph>)";
" 9202	0x911E	鄞 (<CJK Ideograph>)";
" 9203	0x9175	酵 (<CJK Ideograph>)";
" 9204	0x9178	酸 (<CJK Ideograph>)";
" 9205	0x9177	酷 (<CJK Ideograph>)";
" 9206	0x9174	酴 (<CJK Ideograph>)";
" 9207	0x9278	鉸 (<CJK Ideograph>)";
" 9208	0x9280	銀 (<CJK Ideograph>)";
" 9209	0x9285	銅 (<CJK Ideograph>)";
" 9210	0x9298	銘 (<CJK Ideograph>)";
" 9211	0x9296	銖 (<CJK Ideograph>)";
" 9212	0x927B	鉻 (<CJK Ideograph>)";
" 9213	0x9293	銓 (<CJK Ideograph>)";
" 9214	0x929C	銜 (<CJK Ideograph>)";
" 9215	0x92A8	銨 (<CJK Ideograph>)";
" 9216	0x927C	鉼 (<CJK Ideograph>)";
" 9217	0x9291	銑 (<CJK Ideograph>)";
" 9218	0x95A1	閡 (<CJK Ideograph>)";
" 9219	0x95A8	閨 (<CJK Ideograph>)";
" 9220	0x95A9	閩 (<CJK Ideograph>)";
" 9221	0x95A3	閣 (<CJK Ideograph>)";
" 9222	0x95A5	閥 (<CJK Ideograph>)";
" 9223	0x95A4	閤 (<CJK Ideograph>)";
" 9224	0x9699	隙 (<CJK Ideograph>)";
" 9225	0x969C	障 (<CJK Ideograph>)";
" 9226	0x969B	際 (<CJK Ideograph>)";
" 9227	0x96CC	雌 (<CJK Ideograph>)";
" 9228	0x96D2	雒 (<CJK Ideograph>)";
" 9229	0x9700	需 (<CJK Ideograph>)";
" 9230	0x977C	靼 (<CJK Ideograph>)";
" 9231	0x9785	鞅 (<CJK Ideograph>)";
" 9232	0x97F6	韶 (<CJK Ideograph>)";
" 9233	0x9817	頗 (<CJK Ideograph>)";
" 9234	0x9818	領 (<CJK Ideograph>)";
" 9235	0x98AF	颯 (<CJK Ideograph>)";
" 9236	0x98B1	颱 (<CJK Ideograph>)";
" 9237	0x9903	餃 (<CJK Ideograph>)";
" 9238	0x9905	餅 (<CJK Ideograph>)";
" 9239	0x990C	餌 (<CJK Ideograph>)";
" 9240	0x9909	餉 (<CJK Ideograph>)";
" 9241	0x99C1	駁 (<CJK Ideograph>)";
" 9242	0x9AAF	骯 (<CJK Ideograph>)";
" 9243	0x9AB0	骰 (<CJK Ideograph>)";
" 9244	0x9AE6	髦 (<CJK Ideograph>)";
" 9245	0x9B41	魁 (<CJK Ideograph>)";
" 9246	0x9B42	魂 (<CJK Ideograph>)";
" 9247	0x9CF4	鳴 (<CJK Ideograph>)";
" 9248	0x9CF6	鳶 (<CJK Ideograph>)";
" 9249	0x9CF3	鳳 (<CJK Ideograph>)";
" 9250	0x9EBC	麼 (<CJK Ideograph>)";
" 9251	0x9F3B	鼻 (<CJK Ideograph>)";
" 9252	0x9F4A	齊 (<CJK Ideograph>)";
" 9253	0x5104	億 (<CJK Ideograph>)";
" 9254	0x5100	儀 (<CJK Ideograph>)";
" 9255	0x50FB	僻 (<CJK Ideograph>)";
" 9256	0x50F5	僵 (<CJK Ideograph>)";
" 9257	0x50F9	價 (<CJK Ideograph>)";
" 9258	0x5102	儂 (<CJK Ideograph>)";
" 9259	0x5108	儈 (<CJK Ideograph>)";
" 9260	0x5109	儉 (<CJK Ideograph>)";
" 9261	0x5105	儅 (<CJK Ideograph>)";
" 9262	0x51DC	凜 (<CJK Ideograph>)";
" 9263	0x5287	劇 (<CJK Ideograph>)";
" 9264	0x5288	劈 (<CJK Ideograph>)";
" 9265	0x5289	劉 (<CJK Ideograph>)";
" 9266	0x528D	劍 (<CJK Ideograph>)";
" 9267	0x528A	劊 (<CJK Ideograph>)";
" 9268	0x52F0	勰 (<CJK Ideograph>)";
" 9269	0x53B2	厲 (<CJK Ideograph>)";
" 9270	0x562E	嘮 (<CJK Ideograph>)";
" 9271	0x563B	嘻 (<CJK Ideograph>)";
" 9272	0x5639	嘹 (<CJK Ideograph>)";
" 9273	0x5632	嘲 (<CJK Ideograph>)";
" 9274	0x563F	嘿 (<CJK Ideograph>)";
" 9275	0x5634	嘴 (<CJK Ideograph>)";
" 9276	0x5629	嘩 (<CJK Ideograph>)";
" 9277	0x5653	噓 (<CJK Ideograph>)";
" 9278	0x564E	噎 (<CJK Ideograph>)";
" 9279	0x5657	噗 (<CJK Ideograph>)";
" 9280	0x5674	噴 (<CJK Ideograph>)";
" 9281	0x5636	嘶 (<CJK Ideograph>)";
" 9282	0x562F	嘯 (<CJK Ideograph>)";
" 9283	0x5630	嘰 (<CJK Ideograph>)";
" 9284	0x5880	墀 (<CJK Ideograph>)";
" 9285	0x589F	墟 (<CJK Ideograph>)";
" 9286	0x589E	增 (<CJK Ideograph>)";
" 9287	0x58B3	墳 (<CJK Ideograph>)";
" 9288	0x589C	墜 (<CJK Ideograph>)";
" 9289	0x58AE	墮 (<CJK Ideograph>)";
" 9290	0x58A9	墩 (<CJK Ideograph>)";
" 9291	0x58A6	墦 (<CJK Ideograph>)";
" 9292	0x596D	奭 (<CJK Ideograph>)";
" 9293	0x5B09	嬉 (<CJK Ideograph>)";
" 9294	0x5AFB	嫻 (<CJK Ideograph>)";
" 9295	0x5B0B	嬋 (<CJK Ideograph>)";
" 9296	0x5AF5	嫵 (<CJK Ideograph>)";
" 9297	0x5B0C	嬌 (<CJK Ideograph>)";
" 9298	0x5B08	嬈 (<CJK Ideograph>)";
" 9299	0x5BEE	寮 (<CJK Ideograph>)";
" 9300	0x5BEC	寬 (<CJK Ideograph>)";
" 9301	0x5BE9	審 (<CJK Ideograph>)";
" 9302	0x5BEB	寫 (<CJK Ideograph>)";
" 9303	0x5C64	層 (<CJK Ideograph>)";
" 9304	0x5C65	履 (<CJK Ideograph>)";
" 9305	0x5D9D	嶝 (<CJK Ideograph>)";
" 9306	0x5D94	嶔 (<CJK Ideograph>)";
" 9307	0x5E62	幢 (<CJK Ideograph>)";
" 9308	0x5E5F	幟 (<CJK Ideograph>)";
" 9309	0x5E61	幡 (<CJK Ideograph>)";
" 9310	0x5EE2	廢 (<CJK Ideograph>)";
" 9311	0x5EDA	廚 (<CJK Ideograph>)";
" 9312	0x5EDF	廟 (<CJK Ideograph>)";
" 9313	0x5EDD	廝 (<CJK Ideograph>)";
" 9314	0x5EE3	廣 (<CJK Ideograph>)";
" 9315	0x5EE0	廠 (<CJK Ideograph>)";
" 9316	0x5F48	彈 (<CJK Ideograph>)";
" 9317	0x5F71	影 (<CJK Ideograph>)";
" 9318	0x5FB7	德 (<CJK Ideograph>)";
" 9319	0x5FB5	徵 (<CJK Ideograph>)";
" 9320	0x6176	慶 (<CJK Ideograph>)";
" 9321	0x6167	慧 (<CJK Ideograph>)";
" 9322	0x616E	慮 (<CJK Ideograph>)";
" 9323	0x615D	慝 (<CJK Ideograph>)";
" 9324	0x6155	慕 (<CJK Ideograph>)";
" 9325	0x6182	憂 (<CJK Ideograph>)";
" 9326	0x617C	慼 (<CJK Ideograph>)";
" 9327	0x6170	慰 (<CJK Ideograph>)";
" 9328	0x616B	慫 (<CJK Ideograph>)";
" 9329	0x617E	慾 (<CJK Ideograph>)";
" 9330	0x61A7	憧 (<CJK Ideograph>)";
" 9331	0x6190	憐 (<CJK Ideograph>)";
" 9332	0x61AB	憫 (<CJK Ideograph>)";
" 9333	0x618E	憎 (<CJK Ideograph>)";
" 9334	0x61AC	憬 (<CJK Ideograph>)"
].
(* /repo/encoding_tables/whatwg/index-big5.txt:8193-8448 *)
Definition index_big5_txt_32 : list line := [
" 9335	0x619A	憚 (<CJK Ideograph>)";
" 9336	0x61A4	憤 (<CJK Ideograph>)";
" 9337	0x6194	憔 (<CJK Ideograph>)";
" 9338	0x61AE	憮 (<CJK Ideograph>)";
" 9339	0x622E	戮 (<CJK Ideograph>)";
" 9340	0x6469	摩 (<CJK Ideograph>)";
" 9341	0x646F	摯 (<CJK Ideograph>)";
" 9342	0x6479	摹 (<CJK Ideograph>)";
" 9343	0x649E	撞 (<CJK Ideograph>)";
" 9344	0x64B2	撲 (<CJK Ideograph>)";
" 9345	0x6488	撈 (<CJK Ideograph>)";
" 9346	0x6490	撐 (<CJK Ideograph>)";
" 9347	0x64B0	撰 (<CJK Ideograph>)";
" 9348	0x64A5	撥 (<CJK Ideograph>)";
" 9349	0x6493	撓 (<CJK Ideograph>)";
" 9350	0x6495	撕 (<CJK Ideograph>)";
" 9351	0x64A9	撩 (<CJK Ideograph>)";
" 9352	0x6492	撒 (<CJK Ideograph>)";
" 9353	0x64AE	撮 (<CJK Ideograph>)";
" 9354	0x64AD	播 (<CJK Ideograph>)";
" 9355	0x64AB	撫 (<CJK Ideograph>)";
" 9356	0x649A	撚 (<CJK Ideograph>)";
" 9357	0x64AC	撬 (<CJK Ideograph>)";
" 9358	0x6499	撙 (<CJK Ideograph>)";
" 9359	0x64A2	撢 (<CJK Ideograph>)";
" 9360	0x64B3	撳 (<CJK Ideograph>)";
" 9361	0x6575	敵 (<CJK Ideograph>)";
" 9362	0x6577	敷 (<CJK Ideograph>)";
" 9363	0x6578	數 (<CJK Ideograph>)";
" 9364	0x66AE	暮 (<CJK Ideograph>)";
" 9365	0x66AB	暫 (<CJK Ideograph>)";
" 9366	0x66B4	暴 (<CJK Ideograph>)";
" 9367	0x66B1	暱 (<CJK Ideograph>)";
" 9368	0x6A23	樣 (<CJK Ideograph>)";
" 9369	0x6A1F	樟 (<CJK Ideograph>)";
" 9370	0x69E8	槨 (<CJK Ideograph>)";
" 9371	0x6A01	樁 (<CJK Ideograph>)";
" 9372	0x6A1E	樞 (<CJK Ideograph>)";
" 9373	0x6A19	標 (<CJK Ideograph>)";
" 9374	0x69FD	槽 (<CJK Ideograph>)";
" 9375	0x6A21	模 (<CJK Ideograph>)";
" 9376	0x6A13	樓 (<CJK Ideograph>)";
" 9377	0x6A0A	樊 (<CJK Ideograph>)";
" 9378	0x69F3	槳 (<CJK Ideograph>)";
" 9379	0x6A02	樂 (<CJK Ideograph>)";
" 9380	0x6A05	樅 (<CJK Ideograph>)";
" 9381	0x69ED	槭 (<CJK Ideograph>)";
" 9382	0x6A11	樑 (<CJK Ideograph>)";
" 9383	0x6B50	歐 (<CJK Ideograph>)";
" 9384	0x6B4E	歎 (<CJK Ideograph>)";
" 9385	0x6BA4	殤 (<CJK Ideograph>)";
" 9386	0x6BC5	毅 (<CJK Ideograph>)";
" 9387	0x6BC6	毆 (<CJK Ideograph>)";
" 9388	0x6F3F	漿 (<CJK Ideograph>)";
" 9389	0x6F7C	潼 (<CJK Ideograph>)";
" 9390	0x6F84	澄 (<CJK Ideograph>)";
" 9391	0x6F51	潑 (<CJK Ideograph>)";
" 9392	0x6F66	潦 (<CJK Ideograph>)";
" 9393	0x6F54	潔 (<CJK Ideograph>)";
" 9394	0x6F86	澆 (<CJK Ideograph>)";
" 9395	0x6F6D	潭 (<CJK Ideograph>)";
" 9396	0x6F5B	潛 (<CJK Ideograph>)";
" 9397	0x6F78	潸 (<CJK Ideograph>)";
" 9398	0x6F6E	潮 (<CJK Ideograph>)";
" 9399	0x6F8E	澎 (<CJK Ideograph>)";
" 9400	0x6F7A	潺 (<CJK Ideograph>)";
" 9401	0x6F70	潰 (<CJK Ideograph>)";
" 9402	0x6F64	潤 (<CJK Ideograph>)";
" 9403	0x6F97	澗 (<CJK Ideograph>)";
" 9404	0x6F58	潘 (<CJK Ideograph>)";
" 9405	0x6ED5	滕 (<CJK Ideograph>)";
" 9406	0x6F6F	潯 (<CJK Ideograph>)";
" 9407	0x6F60	潠 (<CJK Ideograph>)";
" 9408	0x6F5F	潟 (<CJK Ideograph>)";
" 9409	0x719F	熟 (<CJK Ideograph>)";
" 9410	0x71AC	熬 (<CJK Ideograph>)";
" 9411	0x71B1	熱 (<CJK Ideograph>)";
" 9412	0x71A8	熨 (<CJK Ideograph>)";
" 9413	0x7256	牖 (<CJK Ideograph>)";
" 9414	0x729B	犛 (<CJK Ideograph>)";
" 9415	0x734E	獎 (<CJK Ideograph>)";
" 9416	0x7357	獗 (<CJK Ideograph>)";
" 9417	0x7469	瑩 (<CJK Ideograph>)";
" 9418	0x748B	璋 (<CJK Ideograph>)";
" 9419	0x7483	璃 (<CJK Ideograph>)";
" 9420	0x747E	瑾 (<CJK Ideograph>)";
" 9421	0x7480	璀 (<CJK Ideograph>)";
" 9422	0x757F	畿 (<CJK Ideograph>)";
" 9423	0x7620	瘠 (<CJK Ideograph>)";
" 9424	0x7629	瘩 (<CJK Ideograph>)";
" 9425	0x761F	瘟 (<CJK Ideograph>)";
" 9426	0x7624	瘤 (<CJK Ideograph>)";
" 9427	0x7626	瘦 (<CJK Ideograph>)";
" 9428	0x7621	瘡 (<CJK Ideograph>)";
" 9429	0x7622	瘢 (<CJK Ideograph>)";
" 9430	0x769A	皚 (<CJK Ideograph>)";
" 9431	0x76BA	皺 (<CJK Ideograph>)";
" 9432	0x76E4	盤 (<CJK Ideograph>)";
" 9433	0x778E	瞎 (<CJK Ideograph>)";
" 9434	0x7787	瞇 (<CJK Ideograph>)";
" 9435	0x778C	瞌 (<CJK Ideograph>)";
" 9436	0x7791	瞑 (<CJK Ideograph>)";
" 9437	0x778B	瞋 (<CJK Ideograph>)";
" 9438	0x78CB	磋 (<CJK Ideograph>)";
" 9439	0x78C5	磅 (<CJK Ideograph>)";
" 9440	0x78BA	確 (<CJK Ideograph>)";
" 9441	0x78CA	磊 (<CJK Ideograph>)";
" 9442	0x78BE	碾 (<CJK Ideograph>)";
" 9443	0x78D5	磕 (<CJK Ideograph>)";
" 9444	0x78BC	碼 (<CJK Ideograph>)";
" 9445	0x78D0	磐 (<CJK Ideograph>)";
" 9446	0x7A3F	稿 (<CJK Ideograph>)";
" 9447	0x7A3C	稼 (<CJK Ideograph>)";
" 9448	0x7A40	穀 (<CJK Ideograph>)";
" 9449	0x7A3D	稽 (<CJK Ideograph>)";
" 9450	0x7A37	稷 (<CJK Ideograph>)";
" 9451	0x7A3B	稻 (<CJK Ideograph>)";
" 9452	0x7AAF	窯 (<CJK Ideograph>)";
" 9453	0x7AAE	窮 (<CJK Ideograph>)";
" 9454	0x7BAD	箭 (<CJK Ideograph>)";
" 9455	0x7BB1	箱 (<CJK Ideograph>)";
" 9456	0x7BC4	範 (<CJK Ideograph>)";
" 9457	0x7BB4	箴 (<CJK Ideograph>)";
" 9458	0x7BC6	篆 (<CJK Ideograph>)";
" 9459	0x7BC7	篇 (<CJK Ideograph>)";
" 9460	0x7BC1	篁 (<CJK Ideograph>)";
" 9461	0x7BA0	箠 (<CJK Ideograph>)";
" 9462	0x7BCC	篌 (<CJK Ideograph>)";
" 9463	0x7CCA	糊 (<CJK Ideograph>)";
" 9464	0x7DE0	締 (<CJK Ideograph>)";
" 9465	0x7DF4	練 (<CJK Ideograph>)";
" 9466	0x7DEF	緯 (<CJK Ideograph>)";
" 9467	0x7DFB	緻 (<CJK Ideograph>)";
" 9468	0x7DD8	緘 (<CJK Ideograph>)";
" 9469	0x7DEC	緬 (<CJK Ideograph>)";
" 9470	0x7DDD	緝 (<CJK Ideograph>)";
" 9471	0x7DE8	編 (<CJK Ideograph>)";
" 9472	0x7DE3	緣 (<CJK Ideograph>)";
" 9473	0x7DDA	線 (<CJK Ideograph>)";
" 9474	0x7DDE	緞 (<CJK Ideograph>)";
" 9475	0x7DE9	緩 (<CJK Ideograph>)";
" 9476	0x7D9E	綞 (<CJK Ideograph>)";
" 9477	0x7DD9	緙 (<CJK Ideograph>)";
" 9478	0x7DF2	緲 (<CJK Ideograph>)";
" 9479	0x7DF9	緹 (<CJK Ideograph>)";
" 9480	0x7F75	罵 (<CJK Ideograph>)";
" 9481	0x7F77	罷 (<CJK Ideograph>)";
" 9482	0x7FAF	羯 (<CJK Ideograph>)";
" 9483	0x7FE9	翩 (<CJK Ideograph>)";
" 9484	0x8026	耦 (<CJK Ideograph>)";
" 9485	0x819B	膛 (<CJK Ideograph>)";
" 9486	0x819C	膜 (<CJK Ideograph>)";
" 9487	0x819D	膝 (<CJK Ideograph>)";
" 9488	0x81A0	膠 (<CJK Ideograph>)";
" 9489	0x819A	膚 (<CJK Ideograph>)";
" 9490	0x8198	膘 (<CJK Ideograph>)";
" 9491	0x8517	蔗 (<CJK Ideograph>)";
" 9492	0x853D	蔽 (<CJK Ideograph>)";
" 9493	0x851A	蔚 (<CJK Ideograph>)";
" 9494	0x84EE	蓮 (<CJK Ideograph>)";
" 9495	0x852C	蔬 (<CJK Ideograph>)";
" 9496	0x852D	蔭 (<CJK Ideograph>)";
" 9497	0x8513	蔓 (<CJK Ideograph>)";
" 9498	0x8511	蔑 (<CJK Ideograph>)";
" 9499	0x8523	蔣 (<CJK Ideograph>)";
" 9500	0x8521	蔡 (<CJK Ideograph>)";
" 9501	0x8514	蔔 (<CJK Ideograph>)";
" 9502	0x84EC	蓬 (<CJK Ideograph>)";
" 9503	0x8525	蔥 (<CJK Ideograph>)";
" 9504	0x84FF	蓿 (<CJK Ideograph>)";
" 9505	0x8506	蔆 (<CJK Ideograph>)";
" 9506	0x8782	螂 (<CJK Ideograph>)";
" 9507	0x8774	蝴 (<CJK Ideograph>)";
" 9508	0x8776	蝶 (<CJK Ideograph>)";
" 9509	0x8760	蝠 (<CJK Ideograph>)";
" 9510	0x8766	蝦 (<CJK Ideograph>)";
" 9511	0x8778	蝸 (<CJK Ideograph>)";
" 9512	0x8768	蝨 (<CJK Ideograph>)";
" 9513	0x8759	蝙 (<CJK Ideograph>)";
" 9514	0x8757	蝗 (<CJK Ideograph>)";
" 9515	0x874C	蝌 (<CJK Ideograph>)";
" 9516	0x8753	蝓 (<CJK Ideograph>)";
" 9517	0x885B	衛 (<CJK Ideograph>)";
" 9518	0x885D	衝 (<CJK Ideograph>)";
" 9519	0x8910	褐 (<CJK Ideograph>)";
" 9520	0x8907	複 (<CJK Ideograph>)";
" 9521	0x8912	褒 (<CJK Ideograph>)";
" 9522	0x8913	褓 (<CJK Ideograph>)";
" 9523	0x8915	褕 (<CJK Ideograph>)";
" 9524	0x890A	褊 (<CJK Ideograph>)";
" 9525	0x8ABC	誼 (<CJK Ideograph>)";
" 9526	0x8AD2	諒 (<CJK Ideograph>)";
" 9527	0x8AC7	談 (<CJK Ideograph>)";
" 9528	0x8AC4	諄 (<CJK Ideograph>)";
" 9529	0x8A95	誕 (<CJK Ideograph>)";
" 9530	0x8ACB	請 (<CJK Ideograph>)";
" 9531	0x8AF8	諸 (<CJK Ideograph>)";
" 9532	0x8AB2	課 (<CJK Ideograph>)";
" 9533	0x8AC9	諉 (<CJK Ideograph>)";
" 9534	0x8AC2	諂 (<CJK Ideograph>)";
" 9535	0x8ABF	調 (<CJK Ideograph>)";
" 9536	0x8AB0	誰 (<CJK Ideograph>)";
" 9537	0x8AD6	論 (<CJK Ideograph>)";
" 9538	0x8ACD	諍 (<CJK Ideograph>)";
" 9539	0x8AB6	誶 (<CJK Ideograph>)";
" 9540	0x8AB9	誹 (<CJK Ideograph>)";
" 9541	0x8ADB	諛 (<CJK Ideograph>)";
" 9542	0x8C4C	豌 (<CJK Ideograph>)";
" 9543	0x8C4E	豎 (<CJK Ideograph>)";
" 9544	0x8C6C	豬 (<CJK Ideograph>)";
" 9545	0x8CE0	賠 (<CJK Ideograph>)";
" 9546	0x8CDE	賞 (<CJK Ideograph>)";
" 9547	0x8CE6	賦 (<CJK Ideograph>)";
" 9548	0x8CE4	賤 (<CJK Ideograph>)";
" 9549	0x8CEC	賬 (<CJK Ideograph>)";
" 9550	0x8CED	賭 (<CJK Ideograph>)";
" 9551	0x8CE2	賢 (<CJK Ideograph>)";
" 9552	0x8CE3	賣 (<CJK Ideograph>)";
" 9553	0x8CDC	賜 (<CJK Ideograph>)";
" 9554	0x8CEA	質 (<CJK Ideograph>)";
" 9555	0x8CE1	賡 (<CJK Ideograph>)";
" 9556	0x8D6D	赭 (<CJK Ideograph>)";
" 9557	0x8D9F	趟 (<CJK Ideograph>)";
" 9558	0x8DA3	趣 (<CJK Ideograph>)";
" 9559	0x8E2B	踫 (<CJK Ideograph>)";
" 9560	0x8E10	踐 (<CJK Ideograph>)";
" 9561	0x8E1D	踝 (<CJK Ideograph>)";
" 9562	0x8E22	踢 (<CJK Ideograph>)";
" 9563	0x8E0F	踏 (<CJK Ideograph>)";
" 9564	0x8E29	踩 (<CJK Ideograph>)";
" 9565	0x8E1F	踟 (<CJK Ideograph>)";
" 9566	0x8E21	踡 (<CJK Ideograph>)";
" 9567	0x8E1E	踞 (<CJK Ideograph>)";
" 9568	0x8EBA	躺 (<CJK Ideograph>)";
" 9569	0x8F1D	輝 (<CJK Ideograph>)";
" 9570	0x8F1B	輛 (<CJK Ideograph>)";
" 9571	0x8F1F	輟 (<CJK Ideograph>)";
" 9572	0x8F29	輩 (<CJK Ideograph>)";
" 9573	0x8F26	輦 (<CJK Ideograph>)";
" 9574	0x8F2A	輪 (<CJK Ideograph>)";
" 9575	0x8F1C	輜 (<CJK Ideograph>)";
" 9576	0x8F1E	輞 (<CJK Ideograph>)";
" 9577	0x8F25	輥 (<CJK Ideograph>)";
" 9578	0x9069	適 (<CJK Ideograph>)";
" 9579	0x906E	遮 (<CJK Ideograph>)";
" 9580	0x9068	遨 (<CJK Ideograph>)";
" 9581	0x906D	遭 (<CJK Ideograph>)";
" 9582	0x9077	遷 (<CJK Ideograph>)";
" 9583	0x9130	鄰 (<CJK Ideograph>)";
" 9584	0x912D	鄭 (<CJK Ideograph>)";
" 9585	0x9127	鄧 (<CJK Ideograph>)";
" 9586	0x9131	鄱 (<CJK Ideograph>)";
" 9587	0x9187	醇 (<CJK Ideograph>)";
" 9588	0x9189	醉 (<CJK Ideograph>)";
" 9589	0x918B	醋 (<CJK Ideograph>)";
" 9590	0x9183	醃 (<CJK Ideograph>)"
].
(* /repo/encoding_tables/whatwg/index-big5.txt:8449-8704 *)
Definition index_big5_txt_33 : list line := [
" 9591	0x92C5	鋅 (<CJK Ideograph>)";
" 9592	0x92BB	銻 (<CJK Ideograph>)";
" 9593	0x92B7	銷 (<CJK Ideograph>)";
" 9594	0x92EA	鋪 (<CJK Ideograph>)";
" 9595	0x92AC	銬 (<CJK Ideograph>)";
" 9596	0x92E4	鋤 (<CJK Ideograph>)";
" 9597	0x92C1	鋁 (<CJK Ideograph>)";
" 9598	0x92B3	銳 (<CJK Ideograph>)";
" 9599	0x92BC	銼 (<CJK Ideograph>)";
" 9600	0x92D2	鋒 (<CJK Ideograph>)";
" 9601	0x92C7	鋇 (<CJK Ideograph>)";
" 9602	0x92F0	鋰 (<CJK Ideograph>)";
" 9603	0x92B2	銲 (<CJK Ideograph>)";
" 9604	0x95AD	閭 (<CJK Ideograph>)";
" 9605	0x95B1	閱 (<CJK Ideograph>)";
" 9606	0x9704	霄 (<CJK Ideograph>)";
" 9607	0x9706	霆 (<CJK Ideograph>)";
" 9608	0x9707	震 (<CJK Ideograph>)";
" 9609	0x9709	霉 (<CJK Ideograph>)";
" 9610	0x9760	靠 (<CJK Ideograph>)";
" 9611	0x978D	鞍 (<CJK Ideograph>)";
" 9612	0x978B	鞋 (<CJK Ideograph>)";
" 9613	0x978F	鞏 (<CJK Ideograph>)";
" 9614	0x9821	頡 (<CJK Ideograph>)";
" 9615	0x982B	頫 (<CJK Ideograph>)";
" 9616	0x981C	頜 (<CJK Ideograph>)";
" 9617	0x98B3	颳 (<CJK Ideograph>)";
" 9618	0x990A	養 (<CJK Ideograph>)";
" 9619	0x9913	餓 (<CJK Ideograph>)";
" 9620	0x9912	餒 (<CJK Ideograph>)";
" 9621	0x9918	餘 (<CJK Ideograph>)";
" 9622	0x99DD	駝 (<CJK Ideograph>)";
" 9623	0x99D0	駐 (<CJK Ideograph>)";
" 9624	0x99DF	駟 (<CJK Ideograph>)";
" 9625	0x99DB	駛 (<CJK Ideograph>)";
" 9626	0x99D1	駑 (<CJK Ideograph>)";
" 9627	0x99D5	駕 (<CJK Ideograph>)";
" 9628	0x99D2	駒 (<CJK Ideograph>)";
" 9629	0x99D9	駙 (<CJK Ideograph>)";
" 9630	0x9AB7	骷 (<CJK Ideograph>)";
" 9631	0x9AEE	髮 (<CJK Ideograph>)";
" 9632	0x9AEF	髯 (<CJK Ideograph>)";
" 9633	0x9B27	鬧 (<CJK Ideograph>)";
" 9634	0x9B45	魅 (<CJK Ideograph>)";
" 9635	0x9B44	魄 (<CJK Ideograph>)";
" 9636	0x9B77	魷 (<CJK Ideograph>)";
" 9637	0x9B6F	魯 (<CJK Ideograph>)";
" 9638	0x9D06	鴆 (<CJK Ideograph>)";
" 9639	0x9D09	鴉 (<CJK Ideograph>)";
" 9640	0x9D03	鴃 (<CJK Ideograph>)";
" 9641	0x9EA9	麩 (<CJK Ideograph>)";
" 9642	0x9EBE	麾 (<CJK Ideograph>)";
" 9643	0x9ECE	黎 (<CJK Ideograph>)";
" 9644	0x58A8	墨 (<CJK Ideograph>)";
" 9645	0x9F52	齒 (<CJK Ideograph>)";
" 9646	0x5112	儒 (<CJK Ideograph>)";
" 9647	0x5118	儘 (<CJK Ideograph>)";
" 9648	0x5114	儔 (<CJK Ideograph>)";
" 9649	0x5110	儐 (<CJK Ideograph>)";
" 9650	0x5115	儕 (<CJK Ideograph>)";
" 9651	0x5180	冀 (<CJK Ideograph>)";
" 9652	0x51AA	冪 (<CJK Ideograph>)";
" 9653	0x51DD	凝 (<CJK Ideograph>)";
" 9654	0x5291	劑 (<CJK Ideograph>)";
" 9655	0x5293	劓 (<CJK Ideograph>)";
" 9656	0x52F3	勳 (<CJK Ideograph>)";
" 9657	0x5659	噙 (<CJK Ideograph>)";
" 9658	0x566B	噫 (<CJK Ideograph>)";
" 9659	0x5679	噹 (<CJK Ideograph>)";
" 9660	0x5669	噩 (<CJK Ideograph>)";
" 9661	0x5664	噤 (<CJK Ideograph>)";
" 9662	0x5678	噸 (<CJK Ideograph>)";
" 9663	0x566A	噪 (<CJK Ideograph>)";
" 9664	0x5668	器 (<CJK Ideograph>)";
" 9665	0x5665	噥 (<CJK Ideograph>)";
" 9666	0x5671	噱 (<CJK Ideograph>)";
" 9667	0x566F	噯 (<CJK Ideograph>)";
" 9668	0x566C	噬 (<CJK Ideograph>)";
" 9669	0x5662	噢 (<CJK Ideograph>)";
" 9670	0x5676	噶 (<CJK Ideograph>)";
" 9671	0x58C1	壁 (<CJK Ideograph>)";
" 9672	0x58BE	墾 (<CJK Ideograph>)";
" 9673	0x58C7	壇 (<CJK Ideograph>)";
" 9674	0x58C5	壅 (<CJK Ideograph>)";
" 9675	0x596E	奮 (<CJK Ideograph>)";
" 9676	0x5B1D	嬝 (<CJK Ideograph>)";
" 9677	0x5B34	嬴 (<CJK Ideograph>)";
" 9678	0x5B78	學 (<CJK Ideograph>)";
" 9679	0x5BF0	寰 (<CJK Ideograph>)";
" 9680	0x5C0E	導 (<CJK Ideograph>)";
" 9681	0x5F4A	彊 (<CJK Ideograph>)";
" 9682	0x61B2	憲 (<CJK Ideograph>)";
" 9683	0x6191	憑 (<CJK Ideograph>)";
" 9684	0x61A9	憩 (<CJK Ideograph>)";
" 9685	0x618A	憊 (<CJK Ideograph>)";
" 9686	0x61CD	懍 (<CJK Ideograph>)";
" 9687	0x61B6	憶 (<CJK Ideograph>)";
" 9688	0x61BE	憾 (<CJK Ideograph>)";
" 9689	0x61CA	懊 (<CJK Ideograph>)";
" 9690	0x61C8	懈 (<CJK Ideograph>)";
" 9691	0x6230	戰 (<CJK Ideograph>)";
" 9692	0x64C5	擅 (<CJK Ideograph>)";
" 9693	0x64C1	擁 (<CJK Ideograph>)";
" 9694	0x64CB	擋 (<CJK Ideograph>)";
" 9695	0x64BB	撻 (<CJK Ideograph>)";
" 9696	0x64BC	撼 (<CJK Ideograph>)";
" 9697	0x64DA	據 (<CJK Ideograph>)";
" 9698	0x64C4	擄 (<CJK Ideograph>)";
" 9699	0x64C7	擇 (<CJK Ideograph>)";
" 9700	0x64C2	擂 (<CJK Ideograph>)";
" 9701	0x64CD	操 (<CJK Ideograph>)";
" 9702	0x64BF	撿 (<CJK Ideograph>)";
" 9703	0x64D2	擒 (<CJK Ideograph>)";
" 9704	0x64D4	擔 (<CJK Ideograph>)";
" 9705	0x64BE	撾 (<CJK Ideograph>)";
" 9706	0x6574	整 (<CJK Ideograph>)";
" 9707	0x66C6	曆 (<CJK Ideograph>)";
" 9708	0x66C9	曉 (<CJK Ideograph>)";
" 9709	0x66B9	暹 (<CJK Ideograph>)";
" 9710	0x66C4	曄 (<CJK Ideograph>)";
" 9711	0x66C7	曇 (<CJK Ideograph>)";
" 9712	0x66B8	暸 (<CJK Ideograph>)";
" 9713	0x6A3D	樽 (<CJK Ideograph>)";
" 9714	0x6A38	樸 (<CJK Ideograph>)";
" 9715	0x6A3A	樺 (<CJK Ideograph>)";
" 9716	0x6A59	橙 (<CJK Ideograph>)";
" 9717	0x6A6B	橫 (<CJK Ideograph>)";
" 9718	0x6A58	橘 (<CJK Ideograph>)";
" 9719	0x6A39	樹 (<CJK Ideograph>)";
" 9720	0x6A44	橄 (<CJK Ideograph>)";
" 9721	0x6A62	橢 (<CJK Ideograph>)";
" 9722	0x6A61	橡 (<CJK Ideograph>)";
" 9723	0x6A4B	橋 (<CJK Ideograph>)";
" 9724	0x6A47	橇 (<CJK Ideograph>)";
" 9725	0x6A35	樵 (<CJK Ideograph>)";
" 9726	0x6A5F	機 (<CJK Ideograph>)";
" 9727	0x6A48	橈 (<CJK Ideograph>)";
" 9728	0x6B59	歙 (<CJK Ideograph>)";
" 9729	0x6B77	歷 (<CJK Ideograph>)";
" 9730	0x6C05	氅 (<CJK Ideograph>)";
" 9731	0x6FC2	濂 (<CJK Ideograph>)";
" 9732	0x6FB1	澱 (<CJK Ideograph>)";
" 9733	0x6FA1	澡 (<CJK Ideograph>)";
" 9734	0x6FC3	濃 (<CJK Ideograph>)";
" 9735	0x6FA4	澤 (<CJK Ideograph>)";
" 9736	0x6FC1	濁 (<CJK Ideograph>)";
" 9737	0x6FA7	澧 (<CJK Ideograph>)";
" 9738	0x6FB3	澳 (<CJK Ideograph>)";
" 9739	0x6FC0	激 (<CJK Ideograph>)";
" 9740	0x6FB9	澹 (<CJK Ideograph>)";
" 9741	0x6FB6	澶 (<CJK Ideograph>)";
" 9742	0x6FA6	澦 (<CJK Ideograph>)";
" 9743	0x6FA0	澠 (<CJK Ideograph>)";
" 9744	0x6FB4	澴 (<CJK Ideograph>)";
" 9745	0x71BE	熾 (<CJK Ideograph>)";
" 9746	0x71C9	燉 (<CJK Ideograph>)";
" 9747	0x71D0	燐 (<CJK Ideograph>)";
" 9748	0x71D2	燒 (<CJK Ideograph>)";
" 9749	0x71C8	燈 (<CJK Ideograph>)";
" 9750	0x71D5	燕 (<CJK Ideograph>)";
" 9751	0x71B9	熹 (<CJK Ideograph>)";
" 9752	0x71CE	燎 (<CJK Ideograph>)";
" 9753	0x71D9	燙 (<CJK Ideograph>)";
" 9754	0x71DC	燜 (<CJK Ideograph>)";
" 9755	0x71C3	燃 (<CJK Ideograph>)";
" 9756	0x71C4	燄 (<CJK Ideograph>)";
" 9757	0x7368	獨 (<CJK Ideograph>)";
" 9758	0x749C	璜 (<CJK Ideograph>)";
" 9759	0x74A3	璣 (<CJK Ideograph>)";
" 9760	0x7498	璘 (<CJK Ideograph>)";
" 9761	0x749F	璟 (<CJK Ideograph>)";
" 9762	0x749E	璞 (<CJK Ideograph>)";
" 9763	0x74E2	瓢 (<CJK Ideograph>)";
" 9764	0x750C	甌 (<CJK Ideograph>)";
" 9765	0x750D	甍 (<CJK Ideograph>)";
" 9766	0x7634	瘴 (<CJK Ideograph>)";
" 9767	0x7638	瘸 (<CJK Ideograph>)";
" 9768	0x763A	瘺 (<CJK Ideograph>)";
" 9769	0x76E7	盧 (<CJK Ideograph>)";
" 9770	0x76E5	盥 (<CJK Ideograph>)";
" 9771	0x77A0	瞠 (<CJK Ideograph>)";
" 9772	0x779E	瞞 (<CJK Ideograph>)";
" 9773	0x779F	瞟 (<CJK Ideograph>)";
" 9774	0x77A5	瞥 (<CJK Ideograph>)";
" 9775	0x78E8	磨 (<CJK Ideograph>)";
" 9776	0x78DA	磚 (<CJK Ideograph>)";
" 9777	0x78EC	磬 (<CJK Ideograph>)";
" 9778	0x78E7	磧 (<CJK Ideograph>)";
" 9779	0x79A6	禦 (<CJK Ideograph>)";
" 9780	0x7A4D	積 (<CJK Ideograph>)";
" 9781	0x7A4E	穎 (<CJK Ideograph>)";
" 9782	0x7A46	穆 (<CJK Ideograph>)";
" 9783	0x7A4C	穌 (<CJK Ideograph>)";
" 9784	0x7A4B	穋 (<CJK Ideograph>)";
" 9785	0x7ABA	窺 (<CJK Ideograph>)";
" 9786	0x7BD9	篙 (<CJK Ideograph>)";
" 9787	0x7C11	簑 (<CJK Ideograph>)";
" 9788	0x7BC9	築 (<CJK Ideograph>)";
" 9789	0x7BE4	篤 (<CJK Ideograph>)";
" 9790	0x7BDB	篛 (<CJK Ideograph>)";
" 9791	0x7BE1	篡 (<CJK Ideograph>)";
" 9792	0x7BE9	篩 (<CJK Ideograph>)";
" 9793	0x7BE6	篦 (<CJK Ideograph>)";
" 9794	0x7CD5	糕 (<CJK Ideograph>)";
" 9795	0x7CD6	糖 (<CJK Ideograph>)";
" 9796	0x7E0A	縊 (<CJK Ideograph>)";
" 9797	0x7E11	縑 (<CJK Ideograph>)";
" 9798	0x7E08	縈 (<CJK Ideograph>)";
" 9799	0x7E1B	縛 (<CJK Ideograph>)";
" 9800	0x7E23	縣 (<CJK Ideograph>)";
" 9801	0x7E1E	縞 (<CJK Ideograph>)";
" 9802	0x7E1D	縝 (<CJK Ideograph>)";
" 9803	0x7E09	縉 (<CJK Ideograph>)";
" 9804	0x7E10	縐 (<CJK Ideograph>)";
" 9805	0x7F79	罹 (<CJK Ideograph>)";
" 9806	0x7FB2	羲 (<CJK Ideograph>)";
" 9807	0x7FF0	翰 (<CJK Ideograph>)";
" 9808	0x7FF1	翱 (<CJK Ideograph>)";
" 9809	0x7FEE	翮 (<CJK Ideograph>)";
" 9810	0x8028	耨 (<CJK Ideograph>)";
" 9811	0x81B3	膳 (<CJK Ideograph>)";
" 9812	0x81A9	膩 (<CJK Ideograph>)";
" 9813	0x81A8	膨 (<CJK Ideograph>)";
" 9814	0x81FB	臻 (<CJK Ideograph>)";
" 9815	0x8208	興 (<CJK Ideograph>)";
" 9816	0x8258	艘 (<CJK Ideograph>)";
" 9817	0x8259	艙 (<CJK Ideograph>)";
" 9818	0x854A	蕊 (<CJK Ideograph>)";
" 9819	0x8559	蕙 (<CJK Ideograph>)";
" 9820	0x8548	蕈 (<CJK Ideograph>)";
" 9821	0x8568	蕨 (<CJK Ideograph>)";
" 9822	0x8569	蕩 (<CJK Ideograph>)";
" 9823	0x8543	蕃 (<CJK Ideograph>)";
" 9824	0x8549	蕉 (<CJK Ideograph>)";
" 9825	0x856D	蕭 (<CJK Ideograph>)";
" 9826	0x856A	蕪 (<CJK Ideograph>)";
" 9827	0x855E	蕞 (<CJK Ideograph>)";
" 9828	0x8783	螃 (<CJK Ideograph>)";
" 9829	0x879F	螟 (<CJK Ideograph>)";
" 9830	0x879E	螞 (<CJK Ideograph>)";
" 9831	0x87A2	螢 (<CJK Ideograph>)";
" 9832	0x878D	融 (<CJK Ideograph>)";
" 9833	0x8861	衡 (<CJK Ideograph>)";
" 9834	0x892A	褪 (<CJK Ideograph>)";
" 9835	0x8932	褲 (<CJK Ideograph>)";
" 9836	0x8925	褥 (<CJK Ideograph>)";
" 9837	0x892B	褫 (<CJK Ideograph>)";
" 9838	0x8921	褡 (<CJK Ideograph>)";
" 9839	0x89AA	親 (<CJK Ideograph>)";
" 9840	0x89A6	覦 (<CJK Ideograph>)";
" 9841	0x8AE6	諦 (<CJK Ideograph>)";
" 9842	0x8AFA	諺 (<CJK Ideograph>)";
" 9843	0x8AEB	諫 (<CJK Ideograph>)";
" 9844	0x8AF1	諱 (<CJK Ideograph>)";
" 9845	0x8B00	謀 (<CJK Ideograph>)";
" 9846	0x8ADC	諜 (<CJK Ideograph>)"
].
(* /repo/encoding_tables/whatwg/index-big5.txt:8705-8960 *)
Definition index_big5_txt_34 : list line := [
" 9847	0x8AE7	諧 (<CJK Ideograph>)";
" 9848	0x8AEE	諮 (<CJK Ideograph>)";
" 9849	0x8AFE	諾 (<CJK Ideograph>)";
" 9850	0x8B01	謁 (<CJK Ideograph>)";
" 9851	0x8B02	謂 (<CJK Ideograph>)";
" 9852	0x8AF7	諷 (<CJK Ideograph>)";
" 9853	0x8AED	諭 (<CJK Ideograph>)";
" 9854	0x8AF3	諳 (<CJK Ideograph>)";
" 9855	0x8AF6	諶 (<CJK Ideograph>)";
" 9856	0x8AFC	諼 (<CJK Ideograph>)";
" 9857	0x8C6B	豫 (<CJK Ideograph>)";
" 9858	0x8C6D	豭 (<CJK Ideograph>)";
" 9859	0x8C93	貓 (<CJK Ideograph>)";
" 9860	0x8CF4	賴 (<CJK Ideograph>)";
" 9861	0x8E44	蹄 (<CJK Ideograph>)";
" 9862	0x8E31	踱 (<CJK Ideograph>)";
" 9863	0x8E34	踴 (<CJK Ideograph>)";
" 9864	0x8E42	蹂 (<CJK Ideograph>)";
" 9865	0x8E39	踹 (<CJK Ideograph>)";
" 9866	0x8E35	踵 (<CJK Ideograph>)";
" 9867	0x8F3B	輻 (<CJK Ideograph>)";
" 9868	0x8F2F	輯 (<CJK Ideograph>)";
" 9869	0x8F38	輸 (<CJK Ideograph>)";
" 9870	0x8F33	輳 (<CJK Ideograph>)";
" 9871	0x8FA8	辨 (<CJK Ideograph>)";
" 9872	0x8FA6	辦 (<CJK Ideograph>)";
" 9873	0x9075	遵 (<CJK Ideograph>)";
" 9874	0x9074	遴 (<CJK Ideograph>)";
" 9875	0x9078	選 (<CJK Ideograph>)";
" 9876	0x9072	遲 (<CJK Ideograph>)";
" 9877	0x907C	遼 (<CJK Ideograph>)";
" 9878	0x907A	遺 (<CJK Ideograph>)";
" 9879	0x9134	鄴 (<CJK Ideograph>)";
" 9880	0x9192	醒 (<CJK Ideograph>)";
" 9881	0x9320	錠 (<CJK Ideograph>)";
" 9882	0x9336	錶 (<CJK Ideograph>)";
" 9883	0x92F8	鋸 (<CJK Ideograph>)";
" 9884	0x9333	錳 (<CJK Ideograph>)";
" 9885	0x932F	錯 (<CJK Ideograph>)";
" 9886	0x9322	錢 (<CJK Ideograph>)";
" 9887	0x92FC	鋼 (<CJK Ideograph>)";
" 9888	0x932B	錫 (<CJK Ideograph>)";
" 9889	0x9304	錄 (<CJK Ideograph>)";
" 9890	0x931A	錚 (<CJK Ideograph>)";
" 9891	0x9310	錐 (<CJK Ideograph>)";
" 9892	0x9326	錦 (<CJK Ideograph>)";
" 9893	0x9321	錡 (<CJK Ideograph>)";
" 9894	0x9315	錕 (<CJK Ideograph>)";
" 9895	0x932E	錮 (<CJK Ideograph>)";
" 9896	0x9319	錙 (<CJK Ideograph>)";
" 9897	0x95BB	閻 (<CJK Ideograph>)";
" 9898	0x96A7	隧 (<CJK Ideograph>)";
" 9899	0x96A8	隨 (<CJK Ideograph>)";
" 9900	0x96AA	險 (<CJK Ideograph>)";
" 9901	0x96D5	雕 (<CJK Ideograph>)";
" 9902	0x970E	霎 (<CJK Ideograph>)";
" 9903	0x9711	霑 (<CJK Ideograph>)";
" 9904	0x9716	霖 (<CJK Ideograph>)";
" 9905	0x970D	霍 (<CJK Ideograph>)";
" 9906	0x9713	霓 (<CJK Ideograph>)";
" 9907	0x970F	霏 (<CJK Ideograph>)";
" 9908	0x975B	靛 (<CJK Ideograph>)";
" 9909	0x975C	靜 (<CJK Ideograph>)";
" 9910	0x9766	靦 (<CJK Ideograph>)";
" 9911	0x9798	鞘 (<CJK Ideograph>)";
" 9912	0x9830	頰 (<CJK Ideograph>)";
" 9913	0x9838	頸 (<CJK Ideograph>)";
" 9914	0x983B	頻 (<CJK Ideograph>)";
" 9915	0x9837	頷 (<CJK Ideograph>)";
" 9916	0x982D	頭 (<CJK Ideograph>)";
" 9917	0x9839	頹 (<CJK Ideograph>)";
" 9918	0x9824	頤 (<CJK Ideograph>)";
" 9919	0x9910	餐 (<CJK Ideograph>)";
" 9920	0x9928	館 (<CJK Ideograph>)";
" 9921	0x991E	餞 (<CJK Ideograph>)";
" 9922	0x991B	餛 (<CJK Ideograph>)";
" 9923	0x9921	餡 (<CJK Ideograph>)";
" 9924	0x991A	餚 (<CJK Ideograph>)";
" 9925	0x99ED	駭 (<CJK Ideograph>)";
" 9926	0x99E2	駢 (<CJK Ideograph>)";
" 9927	0x99F1	駱 (<CJK Ideograph>)";
" 9928	0x9AB8	骸 (<CJK Ideograph>)";
" 9929	0x9ABC	骼 (<CJK Ideograph>)";
" 9930	0x9AFB	髻 (<CJK Ideograph>)";
" 9931	0x9AED	髭 (<CJK Ideograph>)";
" 9932	0x9B28	鬨 (<CJK Ideograph>)";
" 9933	0x9B91	鮑 (<CJK Ideograph>)";
" 9934	0x9D15	鴕 (<CJK Ideograph>)";
" 9935	0x9D23	鴣 (<CJK Ideograph>)";
" 9936	0x9D26	鴦 (<CJK Ideograph>)";
" 9937	0x9D28	鴨 (<CJK Ideograph>)";
" 9938	0x9D12	鴒 (<CJK Ideograph>)";
" 9939	0x9D1B	鴛 (<CJK Ideograph>)";
" 9940	0x9ED8	默 (<CJK Ideograph>)";
" 9941	0x9ED4	黔 (<CJK Ideograph>)";
" 9942	0x9F8D	龍 (<CJK Ideograph>)";
" 9943	0x9F9C	龜 (<CJK Ideograph>)";
" 9944	0x512A	優 (<CJK Ideograph>)";
" 9945	0x511F	償 (<CJK Ideograph>)";
" 9946	0x5121	儡 (<CJK Ideograph>)";
" 9947	0x5132	儲 (<CJK Ideograph>)";
" 9948	0x52F5	勵 (<CJK Ideograph>)";
" 9949	0x568E	嚎 (<CJK Ideograph>)";
" 9950	0x5680	嚀 (<CJK Ideograph>)";
" 9951	0x5690	嚐 (<CJK Ideograph>)";
" 9952	0x5685	嚅 (<CJK Ideograph>)";
" 9953	0x5687	嚇 (<CJK Ideograph>)";
" 9954	0x568F	嚏 (<CJK Ideograph>)";
" 9955	0x58D5	壕 (<CJK Ideograph>)";
" 9956	0x58D3	壓 (<CJK Ideograph>)";
" 9957	0x58D1	壑 (<CJK Ideograph>)";
" 9958	0x58CE	壎 (<CJK Ideograph>)";
" 9959	0x5B30	嬰 (<CJK Ideograph>)";
" 9960	0x5B2A	嬪 (<CJK Ideograph>)";
" 9961	0x5B24	嬤 (<CJK Ideograph>)";
" 9962	0x5B7A	孺 (<CJK Ideograph>)";
" 9963	0x5C37	尷 (<CJK Ideograph>)";
" 9964	0x5C68	屨 (<CJK Ideograph>)";
" 9965	0x5DBC	嶼 (<CJK Ideograph>)";
" 9966	0x5DBA	嶺 (<CJK Ideograph>)";
" 9967	0x5DBD	嶽 (<CJK Ideograph>)";
" 9968	0x5DB8	嶸 (<CJK Ideograph>)";
" 9969	0x5E6B	幫 (<CJK Ideograph>)";
" 9970	0x5F4C	彌 (<CJK Ideograph>)";
" 9971	0x5FBD	徽 (<CJK Ideograph>)";
" 9972	0x61C9	應 (<CJK Ideograph>)";
" 9973	0x61C2	懂 (<CJK Ideograph>)";
" 9974	0x61C7	懇 (<CJK Ideograph>)";
" 9975	0x61E6	懦 (<CJK Ideograph>)";
" 9976	0x61CB	懋 (<CJK Ideograph>)";
" 9977	0x6232	戲 (<CJK Ideograph>)";
" 9978	0x6234	戴 (<CJK Ideograph>)";
" 9979	0x64CE	擎 (<CJK Ideograph>)";
" 9980	0x64CA	擊 (<CJK Ideograph>)";
" 9981	0x64D8	擘 (<CJK Ideograph>)";
" 9982	0x64E0	擠 (<CJK Ideograph>)";
" 9983	0x64F0	擰 (<CJK Ideograph>)";
" 9984	0x64E6	擦 (<CJK Ideograph>)";
" 9985	0x64EC	擬 (<CJK Ideograph>)";
" 9986	0x64F1	擱 (<CJK Ideograph>)";
" 9987	0x64E2	擢 (<CJK Ideograph>)";
" 9988	0x64ED	擭 (<CJK Ideograph>)";
" 9989	0x6582	斂 (<CJK Ideograph>)";
" 9990	0x6583	斃 (<CJK Ideograph>)";
" 9991	0x66D9	曙 (<CJK Ideograph>)";
" 9992	0x66D6	曖 (<CJK Ideograph>)";
" 9993	0x6A80	檀 (<CJK Ideograph>)";
" 9994	0x6A94	檔 (<CJK Ideograph>)";
" 9995	0x6A84	檄 (<CJK Ideograph>)";
" 9996	0x6AA2	檢 (<CJK Ideograph>)";
" 9997	0x6A9C	檜 (<CJK Ideograph>)";
" 9998	0x6ADB	櫛 (<CJK Ideograph>)";
" 9999	0x6AA3	檣 (<CJK Ideograph>)";
"10000	0x6A7E	橾 (<CJK Ideograph>)";
"10001	0x6A97	檗 (<CJK Ideograph>)";
"10002	0x6A90	檐 (<CJK Ideograph>)";
"10003	0x6AA0	檠 (<CJK Ideograph>)";
"10004	0x6B5C	歜 (<CJK Ideograph>)";
"10005	0x6BAE	殮 (<CJK Ideograph>)";
"10006	0x6BDA	毚 (<CJK Ideograph>)";
"10007	0x6C08	氈 (<CJK Ideograph>)";
"10008	0x6FD8	濘 (<CJK Ideograph>)";
"10009	0x6FF1	濱 (<CJK Ideograph>)";
"10010	0x6FDF	濟 (<CJK Ideograph>)";
"10011	0x6FE0	濠 (<CJK Ideograph>)";
"10012	0x6FDB	濛 (<CJK Ideograph>)";
"10013	0x6FE4	濤 (<CJK Ideograph>)";
"10014	0x6FEB	濫 (<CJK Ideograph>)";
"10015	0x6FEF	濯 (<CJK Ideograph>)";
"10016	0x6F80	澀 (<CJK Ideograph>)";
"10017	0x6FEC	濬 (<CJK Ideograph>)";
"10018	0x6FE1	濡 (<CJK Ideograph>)";
"10019	0x6FE9	濩 (<CJK Ideograph>)";
"10020	0x6FD5	濕 (<CJK Ideograph>)";
"10021	0x6FEE	濮 (<CJK Ideograph>)";
"10022	0x6FF0	濰 (<CJK Ideograph>)";
"10023	0x71E7	燧 (<CJK Ideograph>)";
"10024	0x71DF	營 (<CJK Ideograph>)";
"10025	0x71EE	燮 (<CJK Ideograph>)";
"10026	0x71E6	燦 (<CJK Ideograph>)";
"10027	0x71E5	燥 (<CJK Ideograph>)";
"10028	0x71ED	燭 (<CJK Ideograph>)";
"10029	0x71EC	燬 (<CJK Ideograph>)";
"10030	0x71F4	燴 (<CJK Ideograph>)";
"10031	0x71E0	燠 (<CJK Ideograph>)";
"10032	0x7235	爵 (<CJK Ideograph>)";
"10033	0x7246	牆 (<CJK Ideograph>)";
"10034	0x7370	獰 (<CJK Ideograph>)";
"10035	0x7372	獲 (<CJK Ideograph>)";
"10036	0x74A9	璩 (<CJK Ideograph>)";
"10037	0x74B0	環 (<CJK Ideograph>)";
"10038	0x74A6	璦 (<CJK Ideograph>)";
"10039	0x74A8	璨 (<CJK Ideograph>)";
"10040	0x7646	癆 (<CJK Ideograph>)";
"10041	0x7642	療 (<CJK Ideograph>)";
"10042	0x764C	癌 (<CJK Ideograph>)";
"10043	0x76EA	盪 (<CJK Ideograph>)";
"10044	0x77B3	瞳 (<CJK Ideograph>)";
"10045	0x77AA	瞪 (<CJK Ideograph>)";
"10046	0x77B0	瞰 (<CJK Ideograph>)";
"10047	0x77AC	瞬 (<CJK Ideograph>)";
"10048	0x77A7	瞧 (<CJK Ideograph>)";
"10049	0x77AD	瞭 (<CJK Ideograph>)";
"10050	0x77EF	矯 (<CJK Ideograph>)";
"10051	0x78F7	磷 (<CJK Ideograph>)";
"10052	0x78FA	磺 (<CJK Ideograph>)";
"10053	0x78F4	磴 (<CJK Ideograph>)";
"10054	0x78EF	磯 (<CJK Ideograph>)";
"10055	0x7901	礁 (<CJK Ideograph>)";
"10056	0x79A7	禧 (<CJK Ideograph>)";
"10057	0x79AA	禪 (<CJK Ideograph>)";
"10058	0x7A57	穗 (<CJK Ideograph>)";
"10059	0x7ABF	窿 (<CJK Ideograph>)";
"10060	0x7C07	簇 (<CJK Ideograph>)";
"10061	0x7C0D	簍 (<CJK Ideograph>)";
"10062	0x7BFE	篾 (<CJK Ideograph>)";
"10063	0x7BF7	篷 (<CJK Ideograph>)";
"10064	0x7C0C	簌 (<CJK Ideograph>)";
"10065	0x7BE0	篠 (<CJK Ideograph>)";
"10066	0x7CE0	糠 (<CJK Ideograph>)";
"10067	0x7CDC	糜 (<CJK Ideograph>)";
"10068	0x7CDE	糞 (<CJK Ideograph>)";
"10069	0x7CE2	糢 (<CJK Ideograph>)";
"10070	0x7CDF	糟 (<CJK Ideograph>)";
"10071	0x7CD9	糙 (<CJK Ideograph>)";
"10072	0x7CDD	糝 (<CJK Ideograph>)";
"10073	0x7E2E	縮 (<CJK Ideograph>)";
"10074	0x7E3E	績 (<CJK Ideograph>)";
"10075	0x7E46	繆 (<CJK Ideograph>)";
"10076	0x7E37	縷 (<CJK Ideograph>)";
"10077	0x7E32	縲 (<CJK Ideograph>)";
"10078	0x7E43	繃 (<CJK Ideograph>)";
"10079	0x7E2B	縫 (<CJK Ideograph>)";
"10080	0x7E3D	總 (<CJK Ideograph>)";
"10081	0x7E31	縱 (<CJK Ideograph>)";
"10082	0x7E45	繅 (<CJK Ideograph>)";
"10083	0x7E41	繁 (<CJK Ideograph>)";
"10084	0x7E34	縴 (<CJK Ideograph>)";
"10085	0x7E39	縹 (<CJK Ideograph>)";
"10086	0x7E48	繈 (<CJK Ideograph>)";
"10087	0x7E35	縵 (<CJK Ideograph>)";
"10088	0x7E3F	縿 (<CJK Ideograph>)";
"10089	0x7E2F	縯 (<CJK Ideograph>)";
"10090	0x7F44	罄 (<CJK Ideograph>)";
"10091	0x7FF3	翳 (<CJK Ideograph>)";
"10092	0x7FFC	翼 (<CJK Ideograph>)";
"10093	0x8071	聱 (<CJK Ideograph>)";
"10094	0x8072	聲 (<CJK Ideograph>)";
"10095	0x8070	聰 (<CJK Ideograph>)";
"10096	0x806F	聯 (<CJK Ideograph>)";
"10097	0x8073	聳 (<CJK Ideograph>)";
"10098	0x81C6	臆 (<CJK Ideograph>)";
"10099	0x81C3	臃 (<CJK Ideograph>)";
"10100	0x81BA	膺 (<CJK Ideograph>)";
"10101	0x81C2	臂 (<CJK Ideograph>)";
"10102	0x81C0	臀 (<CJK Ideograph>)"
].
(* /repo/encoding_tables/whatwg/index-big5.txt:8961-9216 *)
Definition index_big5_txt_35 : list line := [
"10103	0x81BF	膿 (<CJK Ideograph>)";
"10104	0x81BD	膽 (<CJK Ideograph>)";
"10105	0x81C9	臉 (<CJK Ideograph>)";
"10106	0x81BE	膾 (<CJK Ideograph>)";
"10107	0x81E8	臨 (<CJK Ideograph>)";
"10108	0x8209	舉 (<CJK Ideograph>)";
"10109	0x8271	艱 (<CJK Ideograph>)";
"10110	0x85AA	薪 (<CJK Ideograph>)";
"10111	0x8584	薄 (<CJK Ideograph>)";
"10112	0x857E	蕾 (<CJK Ideograph>)";
"10113	0x859C	薜 (<CJK Ideograph>)";
"10114	0x8591	薑 (<CJK Ideograph>)";
"10115	0x8594	薔 (<CJK Ideograph>)";
"10116	0x85AF	薯 (<CJK Ideograph>)";
"10117	0x859B	薛 (<CJK Ideograph>)";
"10118	0x8587	薇 (<CJK Ideograph>)";
"10119	0x85A8	薨 (<CJK Ideograph>)";
"10120	0x858A	薊 (<CJK Ideograph>)";
"10121	0x8667	虧 (<CJK Ideograph>)";
"10122	0x87C0	蟀 (<CJK Ideograph>)";
"10123	0x87D1	蟑 (<CJK Ideograph>)";
"10124	0x87B3	螳 (<CJK Ideograph>)";
"10125	0x87D2	蟒 (<CJK Ideograph>)";
"10126	0x87C6	蟆 (<CJK Ideograph>)";
"10127	0x87AB	螫 (<CJK Ideograph>)";
"10128	0x87BB	螻 (<CJK Ideograph>)";
"10129	0x87BA	螺 (<CJK Ideograph>)";
"10130	0x87C8	蟈 (<CJK Ideograph>)";
"10131	0x87CB	蟋 (<CJK Ideograph>)";
"10132	0x893B	褻 (<CJK Ideograph>)";
"10133	0x8936	褶 (<CJK Ideograph>)";
"10134	0x8944	襄 (<CJK Ideograph>)";
"10135	0x8938	褸 (<CJK Ideograph>)";
"10136	0x893D	褽 (<CJK Ideograph>)";
"10137	0x89AC	覬 (<CJK Ideograph>)";
"10138	0x8B0E	謎 (<CJK Ideograph>)";
"10139	0x8B17	謗 (<CJK Ideograph>)";
"10140	0x8B19	謙 (<CJK Ideograph>)";
"10141	0x8B1B	講 (<CJK Ideograph>)";
"10142	0x8B0A	謊 (<CJK Ideograph>)";
"10143	0x8B20	謠 (<CJK Ideograph>)";
"10144	0x8B1D	謝 (<CJK Ideograph>)";
"10145	0x8B04	謄 (<CJK Ideograph>)";
"10146	0x8B10	謐 (<CJK Ideograph>)";
"10147	0x8C41	豁 (<CJK Ideograph>)";
"10148	0x8C3F	谿 (<CJK Ideograph>)";
"10149	0x8C73	豳 (<CJK Ideograph>)";
"10150	0x8CFA	賺 (<CJK Ideograph>)";
"10151	0x8CFD	賽 (<CJK Ideograph>)";
"10152	0x8CFC	購 (<CJK Ideograph>)";
"10153	0x8CF8	賸 (<CJK Ideograph>)";
"10154	0x8CFB	賻 (<CJK Ideograph>)";
"10155	0x8DA8	趨 (<CJK Ideograph>)";
"10156	0x8E49	蹉 (<CJK Ideograph>)";
"10157	0x8E4B	蹋 (<CJK Ideograph>)";
"10158	0x8E48	蹈 (<CJK Ideograph>)";
"10159	0x8E4A	蹊 (<CJK Ideograph>)";
"10160	0x8F44	轄 (<CJK Ideograph>)";
"10161	0x8F3E	輾 (<CJK Ideograph>)";
"10162	0x8F42	轂 (<CJK Ideograph>)";
"10163	0x8F45	轅 (<CJK Ideograph>)";
"10164	0x8F3F	輿 (<CJK Ideograph>)";
"10165	0x907F	避 (<CJK Ideograph>)";
"10166	0x907D	遽 (<CJK Ideograph>)";
"10167	0x9084	還 (<CJK Ideograph>)";
"10168	0x9081	邁 (<CJK Ideograph>)";
"10169	0x9082	邂 (<CJK Ideograph>)";
"10170	0x9080	邀 (<CJK Ideograph>)";
"10171	0x9139	鄹 (<CJK Ideograph>)";
"10172	0x91A3	醣 (<CJK Ideograph>)";
"10173	0x919E	醞 (<CJK Ideograph>)";
"10174	0x919C	醜 (<CJK Ideograph>)";
"10175	0x934D	鍍 (<CJK Ideograph>)";
"10176	0x9382	鎂 (<CJK Ideograph>)";
"10177	0x9328	錨 (<CJK Ideograph>)";
"10178	0x9375	鍵 (<CJK Ideograph>)";
"10179	0x934A	鍊 (<CJK Ideograph>)";
"10180	0x9365	鍥 (<CJK Ideograph>)";
"10181	0x934B	鍋 (<CJK Ideograph>)";
"10182	0x9318	錘 (<CJK Ideograph>)";
"10183	0x937E	鍾 (<CJK Ideograph>)";
"10184	0x936C	鍬 (<CJK Ideograph>)";
"10185	0x935B	鍛 (<CJK Ideograph>)";
"10186	0x9370	鍰 (<CJK Ideograph>)";
"10187	0x935A	鍚 (<CJK Ideograph>)";
"10188	0x9354	鍔 (<CJK Ideograph>)";
"10189	0x95CA	闊 (<CJK Ideograph>)";
"10190	0x95CB	闋 (<CJK Ideograph>)";
"10191	0x95CC	闌 (<CJK Ideograph>)";
"10192	0x95C8	闈 (<CJK Ideograph>)";
"10193	0x95C6	闆 (<CJK Ideograph>)";
"10194	0x96B1	隱 (<CJK Ideograph>)";
"10195	0x96B8	隸 (<CJK Ideograph>)";
"10196	0x96D6	雖 (<CJK Ideograph>)";
"10197	0x971C	霜 (<CJK Ideograph>)";
"10198	0x971E	霞 (<CJK Ideograph>)";
"10199	0x97A0	鞠 (<CJK Ideograph>)";
"10200	0x97D3	韓 (<CJK Ideograph>)";
"10201	0x9846	顆 (<CJK Ideograph>)";
"10202	0x98B6	颶 (<CJK Ideograph>)";
"10203	0x9935	餵 (<CJK Ideograph>)";
"10204	0x9A01	騁 (<CJK Ideograph>)";
"10205	0x99FF	駿 (<CJK Ideograph>)";
"10206	0x9BAE	鮮 (<CJK Ideograph>)";
"10207	0x9BAB	鮫 (<CJK Ideograph>)";
"10208	0x9BAA	鮪 (<CJK Ideograph>)";
"10209	0x9BAD	鮭 (<CJK Ideograph>)";
"10210	0x9D3B	鴻 (<CJK Ideograph>)";
"10211	0x9D3F	鴿 (<CJK Ideograph>)";
"10212	0x9E8B	麋 (<CJK Ideograph>)";
"10213	0x9ECF	黏 (<CJK Ideograph>)";
"10214	0x9EDE	點 (<CJK Ideograph>)";
"10215	0x9EDC	黜 (<CJK Ideograph>)";
"10216	0x9EDD	黝 (<CJK Ideograph>)";
"10217	0x9EDB	黛 (<CJK Ideograph>)";
"10218	0x9F3E	鼾 (<CJK Ideograph>)";
"10219	0x9F4B	齋 (<CJK Ideograph>)";
"10220	0x53E2	叢 (<CJK Ideograph>)";
"10221	0x5695	嚕 (<CJK Ideograph>)";
"10222	0x56AE	嚮 (<CJK Ideograph>)";
"10223	0x58D9	壙 (<CJK Ideograph>)";
"10224	0x58D8	壘 (<CJK Ideograph>)";
"10225	0x5B38	嬸 (<CJK Ideograph>)";
"10226	0x5F5D	彝 (<CJK Ideograph>)";
"10227	0x61E3	懣 (<CJK Ideograph>)";
"10228	0x6233	戳 (<CJK Ideograph>)";
"10229	0x64F4	擴 (<CJK Ideograph>)";
"10230	0x64F2	擲 (<CJK Ideograph>)";
"10231	0x64FE	擾 (<CJK Ideograph>)";
"10232	0x6506	攆 (<CJK Ideograph>)";
"10233	0x64FA	擺 (<CJK Ideograph>)";
"10234	0x64FB	擻 (<CJK Ideograph>)";
"10235	0x64F7	擷 (<CJK Ideograph>)";
"10236	0x65B7	斷 (<CJK Ideograph>)";
"10237	0x66DC	曜 (<CJK Ideograph>)";
"10238	0x6726	朦 (<CJK Ideograph>)";
"10239	0x6AB3	檳 (<CJK Ideograph>)";
"10240	0x6AAC	檬 (<CJK Ideograph>)";
"10241	0x6AC3	櫃 (<CJK Ideograph>)";
"10242	0x6ABB	檻 (<CJK Ideograph>)";
"10243	0x6AB8	檸 (<CJK Ideograph>)";
"10244	0x6AC2	櫂 (<CJK Ideograph>)";
"10245	0x6AAE	檮 (<CJK Ideograph>)";
"10246	0x6AAF	檯 (<CJK Ideograph>)";
"10247	0x6B5F	歟 (<CJK Ideograph>)";
"10248	0x6B78	歸 (<CJK Ideograph>)";
"10249	0x6BAF	殯 (<CJK Ideograph>)";
"10250	0x7009	瀉 (<CJK Ideograph>)";
"10251	0x700B	瀋 (<CJK Ideograph>)";
"10252	0x6FFE	濾 (<CJK Ideograph>)";
"10253	0x7006	瀆 (<CJK Ideograph>)";
"10254	0x6FFA	濺 (<CJK Ideograph>)";
"10255	0x7011	瀑 (<CJK Ideograph>)";
"10256	0x700F	瀏 (<CJK Ideograph>)";
"10257	0x71FB	燻 (<CJK Ideograph>)";
"10258	0x71FC	燼 (<CJK Ideograph>)";
"10259	0x71FE	燾 (<CJK Ideograph>)";
"10260	0x71F8	燸 (<CJK Ideograph>)";
"10261	0x7377	獷 (<CJK Ideograph>)";
"10262	0x7375	獵 (<CJK Ideograph>)";
"10263	0x74A7	璧 (<CJK Ideograph>)";
"10264	0x74BF	璿 (<CJK Ideograph>)";
"10265	0x7515	甕 (<CJK Ideograph>)";
"10266	0x7656	癖 (<CJK Ideograph>)";
"10267	0x7658	癘 (<CJK Ideograph>)";
"10268	0x7652	癒 (<CJK Ideograph>)";
"10269	0x77BD	瞽 (<CJK Ideograph>)";
"10270	0x77BF	瞿 (<CJK Ideograph>)";
"10271	0x77BB	瞻 (<CJK Ideograph>)";
"10272	0x77BC	瞼 (<CJK Ideograph>)";
"10273	0x790E	礎 (<CJK Ideograph>)";
"10274	0x79AE	禮 (<CJK Ideograph>)";
"10275	0x7A61	穡 (<CJK Ideograph>)";
"10276	0x7A62	穢 (<CJK Ideograph>)";
"10277	0x7A60	穠 (<CJK Ideograph>)";
"10278	0x7AC4	竄 (<CJK Ideograph>)";
"10279	0x7AC5	竅 (<CJK Ideograph>)";
"10280	0x7C2B	簫 (<CJK Ideograph>)";
"10281	0x7C27	簧 (<CJK Ideograph>)";
"10282	0x7C2A	簪 (<CJK Ideograph>)";
"10283	0x7C1E	簞 (<CJK Ideograph>)";
"10284	0x7C23	簣 (<CJK Ideograph>)";
"10285	0x7C21	簡 (<CJK Ideograph>)";
"10286	0x7CE7	糧 (<CJK Ideograph>)";
"10287	0x7E54	織 (<CJK Ideograph>)";
"10288	0x7E55	繕 (<CJK Ideograph>)";
"10289	0x7E5E	繞 (<CJK Ideograph>)";
"10290	0x7E5A	繚 (<CJK Ideograph>)";
"10291	0x7E61	繡 (<CJK Ideograph>)";
"10292	0x7E52	繒 (<CJK Ideograph>)";
"10293	0x7E59	繙 (<CJK Ideograph>)";
"10294	0x7F48	罈 (<CJK Ideograph>)";
"10295	0x7FF9	翹 (<CJK Ideograph>)";
"10296	0x7FFB	翻 (<CJK Ideograph>)";
"10297	0x8077	職 (<CJK Ideograph>)";
"10298	0x8076	聶 (<CJK Ideograph>)";
"10299	0x81CD	臍 (<CJK Ideograph>)";
"10300	0x81CF	臏 (<CJK Ideograph>)";
"10301	0x820A	舊 (<CJK Ideograph>)";
"10302	0x85CF	藏 (<CJK Ideograph>)";
"10303	0x85A9	薩 (<CJK Ideograph>)";
"10304	0x85CD	藍 (<CJK Ideograph>)";
"10305	0x85D0	藐 (<CJK Ideograph>)";
"10306	0x85C9	藉 (<CJK Ideograph>)";
"10307	0x85B0	薰 (<CJK Ideograph>)";
"10308	0x85BA	薺 (<CJK Ideograph>)";
"10309	0x85B9	薹 (<CJK Ideograph>)";
"10310	0x85A6	薦 (<CJK Ideograph>)";
"10311	0x87EF	蟯 (<CJK Ideograph>)";
"10312	0x87EC	蟬 (<CJK Ideograph>)";
"10313	0x87F2	蟲 (<CJK Ideograph>)";
"10314	0x87E0	蟠 (<CJK Ideograph>)";
"10315	0x8986	覆 (<CJK Ideograph>)";
"10316	0x89B2	覲 (<CJK Ideograph>)";
"10317	0x89F4	觴 (<CJK Ideograph>)";
"10318	0x8B28	謨 (<CJK Ideograph>)";
"10319	0x8B39	謹 (<CJK Ideograph>)";
"10320	0x8B2C	謬 (<CJK Ideograph>)";
"10321	0x8B2B	謫 (<CJK Ideograph>)";
"10322	0x8C50	豐 (<CJK Ideograph>)";
"10323	0x8D05	贅 (<CJK Ideograph>)";
"10324	0x8E59	蹙 (<CJK Ideograph>)";
"10325	0x8E63	蹣 (<CJK Ideograph>)";
"10326	0x8E66	蹦 (<CJK Ideograph>)";
"10327	0x8E64	蹤 (<CJK Ideograph>)";
"10328	0x8E5F	蹟 (<CJK Ideograph>)";
"10329	0x8E55	蹕 (<CJK Ideograph>)";
"10330	0x8EC0	軀 (<CJK Ideograph>)";
"10331	0x8F49	轉 (<CJK Ideograph>)";
"10332	0x8F4D	轍 (<CJK Ideograph>)";
"10333	0x9087	邇 (<CJK Ideograph>)";
"10334	0x9083	邃 (<CJK Ideograph>)";
"10335	0x9088	邈 (<CJK Ideograph>)";
"10336	0x91AB	醫 (<CJK Ideograph>)";
"10337	0x91AC	醬 (<CJK Ideograph>)";
"10338	0x91D0	釐 (<CJK Ideograph>)";
"10339	0x9394	鎔 (<CJK Ideograph>)";
"10340	0x938A	鎊 (<CJK Ideograph>)";
"10341	0x9396	鎖 (<CJK Ideograph>)";
"10342	0x93A2	鎢 (<CJK Ideograph>)";
"10343	0x93B3	鎳 (<CJK Ideograph>)";
"10344	0x93AE	鎮 (<CJK Ideograph>)";
"10345	0x93AC	鎬 (<CJK Ideograph>)";
"10346	0x93B0	鎰 (<CJK Ideograph>)";
"10347	0x9398	鎘 (<CJK Ideograph>)";
"10348	0x939A	鎚 (<CJK Ideograph>)";
"10349	0x9397	鎗 (<CJK Ideograph>)";
"10350	0x95D4	闔 (<CJK Ideograph>)";
"10351	0x95D6	闖 (<CJK Ideograph>)";
"10352	0x95D0	闐 (<CJK Ideograph>)";
"10353	0x95D5	闕 (<CJK Ideograph>)";
"10354	0x96E2	離 (<CJK Ideograph>)";
"10355	0x96DC	雜 (<CJK Ideograph>)";
"10356	0x96D9	雙 (<CJK Ideograph>)";
"10357	0x96DB	雛 (<CJK Ideograph>)";
"10358	0x96DE	雞 (<CJK Ideograph>)"
].
(* /repo/encoding_tables/whatwg/index-big5.txt:9217-9472 *)
Definition index_big5_txt_36 : list line := [
"10359	0x9724	霤 (<CJK Ideograph>)";
"10360	0x97A3	鞣 (<CJK Ideograph>)";
"10361	0x97A6	鞦 (<CJK Ideograph>)";
"10362	0x97AD	鞭 (<CJK Ideograph>)";
"10363	0x97F9	韹 (<CJK Ideograph>)";
"10364	0x984D	額 (<CJK Ideograph>)";
"10365	0x984F	顏 (<CJK Ideograph>)";
"10366	0x984C	題 (<CJK Ideograph>)";
"10367	0x984E	顎 (<CJK Ideograph>)";
"10368	0x9853	顓 (<CJK Ideograph>)";
"10369	0x98BA	颺 (<CJK Ideograph>)";
"10370	0x993E	餾 (<CJK Ideograph>)";
"10371	0x993F	餿 (<CJK Ideograph>)";
"10372	0x993D	餽 (<CJK Ideograph>)";
"10373	0x992E	餮 (<CJK Ideograph>)";
"10374	0x99A5	馥 (<CJK Ideograph>)";
"10375	0x9A0E	騎 (<CJK Ideograph>)";
"10376	0x9AC1	髁 (<CJK Ideograph>)";
"10377	0x9B03	鬃 (<CJK Ideograph>)";
"10378	0x9B06	鬆 (<CJK Ideograph>)";
"10379	0x9B4F	魏 (<CJK Ideograph>)";
"10380	0x9B4E	魎 (<CJK Ideograph>)";
"10381	0x9B4D	魍 (<CJK Ideograph>)";
"10382	0x9BCA	鯊 (<CJK Ideograph>)";
"10383	0x9BC9	鯉 (<CJK Ideograph>)";
"10384	0x9BFD	鯽 (<CJK Ideograph>)";
"10385	0x9BC8	鯈 (<CJK Ideograph>)";
"10386	0x9BC0	鯀 (<CJK Ideograph>)";
"10387	0x9D51	鵑 (<CJK Ideograph>)";
"10388	0x9D5D	鵝 (<CJK Ideograph>)";
"10389	0x9D60	鵠 (<CJK Ideograph>)";
"10390	0x9EE0	黠 (<CJK Ideograph>)";
"10391	0x9F15	鼕 (<CJK Ideograph>)";
"10392	0x9F2C	鼬 (<CJK Ideograph>)";
"10393	0x5133	儳 (<CJK Ideograph>)";
"10394	0x56A5	嚥 (<CJK Ideograph>)";
"10395	0x58DE	壞 (<CJK Ideograph>)";
"10396	0x58DF	壟 (<CJK Ideograph>)";
"10397	0x58E2	壢 (<CJK Ideograph>)";
"10398	0x5BF5	寵 (<CJK Ideograph>)";
"10399	0x9F90	龐 (<CJK Ideograph>)";
"10400	0x5EEC	廬 (<CJK Ideograph>)";
"10401	0x61F2	懲 (<CJK Ideograph>)";
"10402	0x61F7	懷 (<CJK Ideograph>)";
"10403	0x61F6	懶 (<CJK Ideograph>)";
"10404	0x61F5	懵 (<CJK Ideograph>)";
"10405	0x6500	攀 (<CJK Ideograph>)";
"10406	0x650F	攏 (<CJK Ideograph>)";
"10407	0x66E0	曠 (<CJK Ideograph>)";
"10408	0x66DD	曝 (<CJK Ideograph>)";
"10409	0x6AE5	櫥 (<CJK Ideograph>)";
"10410	0x6ADD	櫝 (<CJK Ideograph>)";
"10411	0x6ADA	櫚 (<CJK Ideograph>)";
"10412	0x6AD3	櫓 (<CJK Ideograph>)";
"10413	0x701B	瀛 (<CJK Ideograph>)";
"10414	0x701F	瀟 (<CJK Ideograph>)";
"10415	0x7028	瀨 (<CJK Ideograph>)";
"10416	0x701A	瀚 (<CJK Ideograph>)";
"10417	0x701D	瀝 (<CJK Ideograph>)";
"10418	0x7015	瀕 (<CJK Ideograph>)";
"10419	0x7018	瀘 (<CJK Ideograph>)";
"10420	0x7206	爆 (<CJK Ideograph>)";
"10421	0x720D	爍 (<CJK Ideograph>)";
"10422	0x7258	牘 (<CJK Ideograph>)";
"10423	0x72A2	犢 (<CJK Ideograph>)";
"10424	0x7378	獸 (<CJK Ideograph>)";
"10425	0x737A	獺 (<CJK Ideograph>)";
"10426	0x74BD	璽 (<CJK Ideograph>)";
"10427	0x74CA	瓊 (<CJK Ideograph>)";
"10428	0x74E3	瓣 (<CJK Ideograph>)";
"10429	0x7587	疇 (<CJK Ideograph>)";
"10430	0x7586	疆 (<CJK Ideograph>)";
"10431	0x765F	癟 (<CJK Ideograph>)";
"10432	0x7661	癡 (<CJK Ideograph>)";
"10433	0x77C7	矇 (<CJK Ideograph>)";
"10434	0x7919	礙 (<CJK Ideograph>)";
"10435	0x79B1	禱 (<CJK Ideograph>)";
"10436	0x7A6B	穫 (<CJK Ideograph>)";
"10437	0x7A69	穩 (<CJK Ideograph>)";
"10438	0x7C3E	簾 (<CJK Ideograph>)";
"10439	0x7C3F	簿 (<CJK Ideograph>)";
"10440	0x7C38	簸 (<CJK Ideograph>)";
"10441	0x7C3D	簽 (<CJK Ideograph>)";
"10442	0x7C37	簷 (<CJK Ideograph>)";
"10443	0x7C40	籀 (<CJK Ideograph>)";
"10444	0x7E6B	繫 (<CJK Ideograph>)";
"10445	0x7E6D	繭 (<CJK Ideograph>)";
"10446	0x7E79	繹 (<CJK Ideograph>)";
"10447	0x7E69	繩 (<CJK Ideograph>)";
"10448	0x7E6A	繪 (<CJK Ideograph>)";
"10449	0x7F85	羅 (<CJK Ideograph>)";
"10450	0x7E73	繳 (<CJK Ideograph>)";
"10451	0x7FB6	羶 (<CJK Ideograph>)";
"10452	0x7FB9	羹 (<CJK Ideograph>)";
"10453	0x7FB8	羸 (<CJK Ideograph>)";
"10454	0x81D8	臘 (<CJK Ideograph>)";
"10455	0x85E9	藩 (<CJK Ideograph>)";
"10456	0x85DD	藝 (<CJK Ideograph>)";
"10457	0x85EA	藪 (<CJK Ideograph>)";
"10458	0x85D5	藕 (<CJK Ideograph>)";
"10459	0x85E4	藤 (<CJK Ideograph>)";
"10460	0x85E5	藥 (<CJK Ideograph>)";
"10461	0x85F7	藷 (<CJK Ideograph>)";
"10462	0x87FB	蟻 (<CJK Ideograph>)";
"10463	0x8805	蠅 (<CJK Ideograph>)";
"10464	0x880D	蠍 (<CJK Ideograph>)";
"10465	0x87F9	蟹 (<CJK Ideograph>)";
"10466	0x87FE	蟾 (<CJK Ideograph>)";
"10467	0x8960	襠 (<CJK Ideograph>)";
"10468	0x895F	襟 (<CJK Ideograph>)";
"10469	0x8956	襖 (<CJK Ideograph>)";
"10470	0x895E	襞 (<CJK Ideograph>)";
"10471	0x8B41	譁 (<CJK Ideograph>)";
"10472	0x8B5C	譜 (<CJK Ideograph>)";
"10473	0x8B58	識 (<CJK Ideograph>)";
"10474	0x8B49	證 (<CJK Ideograph>)";
"10475	0x8B5A	譚 (<CJK Ideograph>)";
"10476	0x8B4E	譎 (<CJK Ideograph>)";
"10477	0x8B4F	譏 (<CJK Ideograph>)";
"10478	0x8B46	譆 (<CJK Ideograph>)";
"10479	0x8B59	譙 (<CJK Ideograph>)";
"10480	0x8D08	贈 (<CJK Ideograph>)";
"10481	0x8D0A	贊 (<CJK Ideograph>)";
"10482	0x8E7C	蹼 (<CJK Ideograph>)";
"10483	0x8E72	蹲 (<CJK Ideograph>)";
"10484	0x8E87	躇 (<CJK Ideograph>)";
"10485	0x8E76	蹶 (<CJK Ideograph>)";
"10486	0x8E6C	蹬 (<CJK Ideograph>)";
"10487	0x8E7A	蹺 (<CJK Ideograph>)";
"10488	0x8E74	蹴 (<CJK Ideograph>)";
"10489	0x8F54	轔 (<CJK Ideograph>)";
"10490	0x8F4E	轎 (<CJK Ideograph>)";
"10491	0x8FAD	辭 (<CJK Ideograph>)";
"10492	0x908A	邊 (<CJK Ideograph>)";
"10493	0x908B	邋 (<CJK Ideograph>)";
"10494	0x91B1	醱 (<CJK Ideograph>)";
"10495	0x91AE	醮 (<CJK Ideograph>)";
"10496	0x93E1	鏡 (<CJK Ideograph>)";
"10497	0x93D1	鏑 (<CJK Ideograph>)";
"10498	0x93DF	鏟 (<CJK Ideograph>)";
"10499	0x93C3	鏃 (<CJK Ideograph>)";
"10500	0x93C8	鏈 (<CJK Ideograph>)";
"10501	0x93DC	鏜 (<CJK Ideograph>)";
"10502	0x93DD	鏝 (<CJK Ideograph>)";
"10503	0x93D6	鏖 (<CJK Ideograph>)";
"10504	0x93E2	鏢 (<CJK Ideograph>)";
"10505	0x93CD	鏍 (<CJK Ideograph>)";
"10506	0x93D8	鏘 (<CJK Ideograph>)";
"10507	0x93E4	鏤 (<CJK Ideograph>)";
"10508	0x93D7	鏗 (<CJK Ideograph>)";
"10509	0x93E8	鏨 (<CJK Ideograph>)";
"10510	0x95DC	關 (<CJK Ideograph>)";
"10511	0x96B4	隴 (<CJK Ideograph>)";
"10512	0x96E3	難 (<CJK Ideograph>)";
"10513	0x972A	霪 (<CJK Ideograph>)";
"10514	0x9727	霧 (<CJK Ideograph>)";
"10515	0x9761	靡 (<CJK Ideograph>)";
"10516	0x97DC	韜 (<CJK Ideograph>)";
"10517	0x97FB	韻 (<CJK Ideograph>)";
"10518	0x985E	類 (<CJK Ideograph>)";
"10519	0x9858	願 (<CJK Ideograph>)";
"10520	0x985B	顛 (<CJK Ideograph>)";
"10521	0x98BC	颼 (<CJK Ideograph>)";
"10522	0x9945	饅 (<CJK Ideograph>)";
"10523	0x9949	饉 (<CJK Ideograph>)";
"10524	0x9A16	騖 (<CJK Ideograph>)";
"10525	0x9A19	騙 (<CJK Ideograph>)";
"10526	0x9B0D	鬍 (<CJK Ideograph>)";
"10527	0x9BE8	鯨 (<CJK Ideograph>)";
"10528	0x9BE7	鯧 (<CJK Ideograph>)";
"10529	0x9BD6	鯖 (<CJK Ideograph>)";
"10530	0x9BDB	鯛 (<CJK Ideograph>)";
"10531	0x9D89	鶉 (<CJK Ideograph>)";
"10532	0x9D61	鵡 (<CJK Ideograph>)";
"10533	0x9D72	鵲 (<CJK Ideograph>)";
"10534	0x9D6A	鵪 (<CJK Ideograph>)";
"10535	0x9D6C	鵬 (<CJK Ideograph>)";
"10536	0x9E92	麒 (<CJK Ideograph>)";
"10537	0x9E97	麗 (<CJK Ideograph>)";
"10538	0x9E93	麓 (<CJK Ideograph>)";
"10539	0x9EB4	麴 (<CJK Ideograph>)";
"10540	0x52F8	勸 (<CJK Ideograph>)";
"10541	0x56A8	嚨 (<CJK Ideograph>)";
"10542	0x56B7	嚷 (<CJK Ideograph>)";
"10543	0x56B6	嚶 (<CJK Ideograph>)";
"10544	0x56B4	嚴 (<CJK Ideograph>)";
"10545	0x56BC	嚼 (<CJK Ideograph>)";
"10546	0x58E4	壤 (<CJK Ideograph>)";
"10547	0x5B40	孀 (<CJK Ideograph>)";
"10548	0x5B43	孃 (<CJK Ideograph>)";
"10549	0x5B7D	孽 (<CJK Ideograph>)";
"10550	0x5BF6	寶 (<CJK Ideograph>)";
"10551	0x5DC9	巉 (<CJK Ideograph>)";
"10552	0x61F8	懸 (<CJK Ideograph>)";
"10553	0x61FA	懺 (<CJK Ideograph>)";
"10554	0x6518	攘 (<CJK Ideograph>)";
"10555	0x6514	攔 (<CJK Ideograph>)";
"10556	0x6519	攙 (<CJK Ideograph>)";
"10557	0x66E6	曦 (<CJK Ideograph>)";
"10558	0x6727	朧 (<CJK Ideograph>)";
"10559	0x6AEC	櫬 (<CJK Ideograph>)";
"10560	0x703E	瀾 (<CJK Ideograph>)";
"10561	0x7030	瀰 (<CJK Ideograph>)";
"10562	0x7032	瀲 (<CJK Ideograph>)";
"10563	0x7210	爐 (<CJK Ideograph>)";
"10564	0x737B	獻 (<CJK Ideograph>)";
"10565	0x74CF	瓏 (<CJK Ideograph>)";
"10566	0x7662	癢 (<CJK Ideograph>)";
"10567	0x7665	癥 (<CJK Ideograph>)";
"10568	0x7926	礦 (<CJK Ideograph>)";
"10569	0x792A	礪 (<CJK Ideograph>)";
"10570	0x792C	礬 (<CJK Ideograph>)";
"10571	0x792B	礫 (<CJK Ideograph>)";
"10572	0x7AC7	竇 (<CJK Ideograph>)";
"10573	0x7AF6	競 (<CJK Ideograph>)";
"10574	0x7C4C	籌 (<CJK Ideograph>)";
"10575	0x7C43	籃 (<CJK Ideograph>)";
"10576	0x7C4D	籍 (<CJK Ideograph>)";
"10577	0x7CEF	糯 (<CJK Ideograph>)";
"10578	0x7CF0	糰 (<CJK Ideograph>)";
"10579	0x8FAE	辮 (<CJK Ideograph>)";
"10580	0x7E7D	繽 (<CJK Ideograph>)";
"10581	0x7E7C	繼 (<CJK Ideograph>)";
"10582	0x7E82	纂 (<CJK Ideograph>)";
"10583	0x7F4C	罌 (<CJK Ideograph>)";
"10584	0x8000	耀 (<CJK Ideograph>)";
"10585	0x81DA	臚 (<CJK Ideograph>)";
"10586	0x8266	艦 (<CJK Ideograph>)";
"10587	0x85FB	藻 (<CJK Ideograph>)";
"10588	0x85F9	藹 (<CJK Ideograph>)";
"10589	0x8611	蘑 (<CJK Ideograph>)";
"10590	0x85FA	藺 (<CJK Ideograph>)";
"10591	0x8606	蘆 (<CJK Ideograph>)";
"10592	0x860B	蘋 (<CJK Ideograph>)";
"10593	0x8607	蘇 (<CJK Ideograph>)";
"10594	0x860A	蘊 (<CJK Ideograph>)";
"10595	0x8814	蠔 (<CJK Ideograph>)";
"10596	0x8815	蠕 (<CJK Ideograph>)";
"10597	0x8964	襤 (<CJK Ideograph>)";
"10598	0x89BA	覺 (<CJK Ideograph>)";
"10599	0x89F8	觸 (<CJK Ideograph>)";
"10600	0x8B70	議 (<CJK Ideograph>)";
"10601	0x8B6C	譬 (<CJK Ideograph>)";
"10602	0x8B66	警 (<CJK Ideograph>)";
"10603	0x8B6F	譯 (<CJK Ideograph>)";
"10604	0x8B5F	譟 (<CJK Ideograph>)";
"10605	0x8B6B	譫 (<CJK Ideograph>)";
"10606	0x8D0F	贏 (<CJK Ideograph>)";
"10607	0x8D0D	贍 (<CJK Ideograph>)";
"10608	0x8E89	躉 (<CJK Ideograph>)";
"10609	0x8E81	躁 (<CJK Ideograph>)";
"10610	0x8E85	躅 (<CJK Ideograph>)";
"10611	0x8E82	躂 (<CJK Ideograph>)";
"10612	0x91B4	醴 (<CJK Ideograph>)";
"10613	0x91CB	釋 (<CJK Ideograph>)";
"10614	0x9418	鐘 (<CJK Ideograph>)"
].
(* /repo/encoding_tables/whatwg/index-big5.txt:9473-9728 *)
Definition index_big5_txt_37 : list line := [
"10615	0x9403	鐃 (<CJK Ideograph>)";
"10616	0x93FD	鏽 (<CJK Ideograph>)";
"10617	0x95E1	闡 (<CJK Ideograph>)";
"10618	0x9730	霰 (<CJK Ideograph>)";
"10619	0x98C4	飄 (<CJK Ideograph>)";
"10620	0x9952	饒 (<CJK Ideograph>)";
"10621	0x9951	饑 (<CJK Ideograph>)";
"10622	0x99A8	馨 (<CJK Ideograph>)";
"10623	0x9A2B	騫 (<CJK Ideograph>)";
"10624	0x9A30	騰 (<CJK Ideograph>)";
"10625	0x9A37	騷 (<CJK Ideograph>)";
"10626	0x9A35	騵 (<CJK Ideograph>)";
"10627	0x9C13	鰓 (<CJK Ideograph>)";
"10628	0x9C0D	鰍 (<CJK Ideograph>)";
"10629	0x9E79	鹹 (<CJK Ideograph>)";
"10630	0x9EB5	麵 (<CJK Ideograph>)";
"10631	0x9EE8	黨 (<CJK Ideograph>)";
"10632	0x9F2F	鼯 (<CJK Ideograph>)";
"10633	0x9F5F	齟 (<CJK Ideograph>)";
"10634	0x9F63	齣 (<CJK Ideograph>)";
"10635	0x9F61	齡 (<CJK Ideograph>)";
"10636	0x5137	儷 (<CJK Ideograph>)";
"10637	0x5138	儸 (<CJK Ideograph>)";
"10638	0x56C1	囁 (<CJK Ideograph>)";
"10639	0x56C0	囀 (<CJK Ideograph>)";
"10640	0x56C2	囂 (<CJK Ideograph>)";
"10641	0x5914	夔 (<CJK Ideograph>)";
"10642	0x5C6C	屬 (<CJK Ideograph>)";
"10643	0x5DCD	巍 (<CJK Ideograph>)";
"10644	0x61FC	懼 (<CJK Ideograph>)";
"10645	0x61FE	懾 (<CJK Ideograph>)";
"10646	0x651D	攝 (<CJK Ideograph>)";
"10647	0x651C	攜 (<CJK Ideograph>)";
"10648	0x6595	斕 (<CJK Ideograph>)";
"10649	0x66E9	曩 (<CJK Ideograph>)";
"10650	0x6AFB	櫻 (<CJK Ideograph>)";
"10651	0x6B04	欄 (<CJK Ideograph>)";
"10652	0x6AFA	櫺 (<CJK Ideograph>)";
"10653	0x6BB2	殲 (<CJK Ideograph>)";
"10654	0x704C	灌 (<CJK Ideograph>)";
"10655	0x721B	爛 (<CJK Ideograph>)";
"10656	0x72A7	犧 (<CJK Ideograph>)";
"10657	0x74D6	瓖 (<CJK Ideograph>)";
"10658	0x74D4	瓔 (<CJK Ideograph>)";
"10659	0x7669	癩 (<CJK Ideograph>)";
"10660	0x77D3	矓 (<CJK Ideograph>)";
"10661	0x7C50	籐 (<CJK Ideograph>)";
"10662	0x7E8F	纏 (<CJK Ideograph>)";
"10663	0x7E8C	續 (<CJK Ideograph>)";
"10664	0x7FBC	羼 (<CJK Ideograph>)";
"10665	0x8617	蘗 (<CJK Ideograph>)";
"10666	0x862D	蘭 (<CJK Ideograph>)";
"10667	0x861A	蘚 (<CJK Ideograph>)";
"10668	0x8823	蠣 (<CJK Ideograph>)";
"10669	0x8822	蠢 (<CJK Ideograph>)";
"10670	0x8821	蠡 (<CJK Ideograph>)";
"10671	0x881F	蠟 (<CJK Ideograph>)";
"10672	0x896A	襪 (<CJK Ideograph>)";
"10673	0x896C	襬 (<CJK Ideograph>)";
"10674	0x89BD	覽 (<CJK Ideograph>)";
"10675	0x8B74	譴 (<CJK Ideograph>)";
"10676	0x8B77	護 (<CJK Ideograph>)";
"10677	0x8B7D	譽 (<CJK Ideograph>)";
"10678	0x8D13	贓 (<CJK Ideograph>)";
"10679	0x8E8A	躊 (<CJK Ideograph>)";
"10680	0x8E8D	躍 (<CJK Ideograph>)";
"10681	0x8E8B	躋 (<CJK Ideograph>)";
"10682	0x8F5F	轟 (<CJK Ideograph>)";
"10683	0x8FAF	辯 (<CJK Ideograph>)";
"10684	0x91BA	醺 (<CJK Ideograph>)";
"10685	0x942E	鐮 (<CJK Ideograph>)";
"10686	0x9433	鐳 (<CJK Ideograph>)";
"10687	0x9435	鐵 (<CJK Ideograph>)";
"10688	0x943A	鐺 (<CJK Ideograph>)";
"10689	0x9438	鐸 (<CJK Ideograph>)";
"10690	0x9432	鐲 (<CJK Ideograph>)";
"10691	0x942B	鐫 (<CJK Ideograph>)";
"10692	0x95E2	闢 (<CJK Ideograph>)";
"10693	0x9738	霸 (<CJK Ideograph>)";
"10694	0x9739	霹 (<CJK Ideograph>)";
"10695	0x9732	露 (<CJK Ideograph>)";
"10696	0x97FF	響 (<CJK Ideograph>)";
"10697	0x9867	顧 (<CJK Ideograph>)";
"10698	0x9865	顥 (<CJK Ideograph>)";
"10699	0x9957	饗 (<CJK Ideograph>)";
"10700	0x9A45	驅 (<CJK Ideograph>)";
"10701	0x9A43	驃 (<CJK Ideograph>)";
"10702	0x9A40	驀 (<CJK Ideograph>)";
"10703	0x9A3E	騾 (<CJK Ideograph>)";
"10704	0x9ACF	髏 (<CJK Ideograph>)";
"10705	0x9B54	魔 (<CJK Ideograph>)";
"10706	0x9B51	魑 (<CJK Ideograph>)";
"10707	0x9C2D	鰭 (<CJK Ideograph>)";
"10708	0x9C25	鰥 (<CJK Ideograph>)";
"10709	0x9DAF	鶯 (<CJK Ideograph>)";
"10710	0x9DB4	鶴 (<CJK Ideograph>)";
"10711	0x9DC2	鷂 (<CJK Ideograph>)";
"10712	0x9DB8	鶸 (<CJK Ideograph>)";
"10713	0x9E9D	麝 (<CJK Ideograph>)";
"10714	0x9EEF	黯 (<CJK Ideograph>)";
"10715	0x9F19	鼙 (<CJK Ideograph>)";
"10716	0x9F5C	齜 (<CJK Ideograph>)";
"10717	0x9F66	齦 (<CJK Ideograph>)";
"10718	0x9F67	齧 (<CJK Ideograph>)";
"10719	0x513C	儼 (<CJK Ideograph>)";
"10720	0x513B	儻 (<CJK Ideograph>)";
"10721	0x56C8	囈 (<CJK Ideograph>)";
"10722	0x56CA	囊 (<CJK Ideograph>)";
"10723	0x56C9	囉 (<CJK Ideograph>)";
"10724	0x5B7F	孿 (<CJK Ideograph>)";
"10725	0x5DD4	巔 (<CJK Ideograph>)";
"10726	0x5DD2	巒 (<CJK Ideograph>)";
"10727	0x5F4E	彎 (<CJK Ideograph>)";
"10728	0x61FF	懿 (<CJK Ideograph>)";
"10729	0x6524	攤 (<CJK Ideograph>)";
"10730	0x6B0A	權 (<CJK Ideograph>)";
"10731	0x6B61	歡 (<CJK Ideograph>)";
"10732	0x7051	灑 (<CJK Ideograph>)";
"10733	0x7058	灘 (<CJK Ideograph>)";
"10734	0x7380	玀 (<CJK Ideograph>)";
"10735	0x74E4	瓤 (<CJK Ideograph>)";
"10736	0x758A	疊 (<CJK Ideograph>)";
"10737	0x766E	癮 (<CJK Ideograph>)";
"10738	0x766C	癬 (<CJK Ideograph>)";
"10739	0x79B3	禳 (<CJK Ideograph>)";
"10740	0x7C60	籠 (<CJK Ideograph>)";
"10741	0x7C5F	籟 (<CJK Ideograph>)";
"10742	0x807E	聾 (<CJK Ideograph>)";
"10743	0x807D	聽 (<CJK Ideograph>)";
"10744	0x81DF	臟 (<CJK Ideograph>)";
"10745	0x8972	襲 (<CJK Ideograph>)";
"10746	0x896F	襯 (<CJK Ideograph>)";
"10747	0x89FC	觼 (<CJK Ideograph>)";
"10748	0x8B80	讀 (<CJK Ideograph>)";
"10749	0x8D16	贖 (<CJK Ideograph>)";
"10750	0x8D17	贗 (<CJK Ideograph>)";
"10751	0x8E91	躑 (<CJK Ideograph>)";
"10752	0x8E93	躓 (<CJK Ideograph>)";
"10753	0x8F61	轡 (<CJK Ideograph>)";
"10754	0x9148	酈 (<CJK Ideograph>)";
"10755	0x9444	鑄 (<CJK Ideograph>)";
"10756	0x9451	鑑 (<CJK Ideograph>)";
"10757	0x9452	鑒 (<CJK Ideograph>)";
"10758	0x973D	霽 (<CJK Ideograph>)";
"10759	0x973E	霾 (<CJK Ideograph>)";
"10760	0x97C3	韃 (<CJK Ideograph>)";
"10761	0x97C1	韁 (<CJK Ideograph>)";
"10762	0x986B	顫 (<CJK Ideograph>)";
"10763	0x9955	饕 (<CJK Ideograph>)";
"10764	0x9A55	驕 (<CJK Ideograph>)";
"10765	0x9A4D	驍 (<CJK Ideograph>)";
"10766	0x9AD2	髒 (<CJK Ideograph>)";
"10767	0x9B1A	鬚 (<CJK Ideograph>)";
"10768	0x9C49	鱉 (<CJK Ideograph>)";
"10769	0x9C31	鰱 (<CJK Ideograph>)";
"10770	0x9C3E	鰾 (<CJK Ideograph>)";
"10771	0x9C3B	鰻 (<CJK Ideograph>)";
"10772	0x9DD3	鷓 (<CJK Ideograph>)";
"10773	0x9DD7	鷗 (<CJK Ideograph>)";
"10774	0x9F34	鼴 (<CJK Ideograph>)";
"10775	0x9F6C	齬 (<CJK Ideograph>)";
"10776	0x9F6A	齪 (<CJK Ideograph>)";
"10777	0x9F94	龔 (<CJK Ideograph>)";
"10778	0x56CC	囌 (<CJK Ideograph>)";
"10779	0x5DD6	巖 (<CJK Ideograph>)";
"10780	0x6200	戀 (<CJK Ideograph>)";
"10781	0x6523	攣 (<CJK Ideograph>)";
"10782	0x652B	攫 (<CJK Ideograph>)";
"10783	0x652A	攪 (<CJK Ideograph>)";
"10784	0x66EC	曬 (<CJK Ideograph>)";
"10785	0x6B10	欐 (<CJK Ideograph>)";
"10786	0x74DA	瓚 (<CJK Ideograph>)";
"10787	0x7ACA	竊 (<CJK Ideograph>)";
"10788	0x7C64	籤 (<CJK Ideograph>)";
"10789	0x7C63	籣 (<CJK Ideograph>)";
"10790	0x7C65	籥 (<CJK Ideograph>)";
"10791	0x7E93	纓 (<CJK Ideograph>)";
"10792	0x7E96	纖 (<CJK Ideograph>)";
"10793	0x7E94	纔 (<CJK Ideograph>)";
"10794	0x81E2	臢 (<CJK Ideograph>)";
"10795	0x8638	蘸 (<CJK Ideograph>)";
"10796	0x863F	蘿 (<CJK Ideograph>)";
"10797	0x8831	蠱 (<CJK Ideograph>)";
"10798	0x8B8A	變 (<CJK Ideograph>)";
"10799	0x9090	邐 (<CJK Ideograph>)";
"10800	0x908F	邏 (<CJK Ideograph>)";
"10801	0x9463	鑣 (<CJK Ideograph>)";
"10802	0x9460	鑠 (<CJK Ideograph>)";
"10803	0x9464	鑤 (<CJK Ideograph>)";
"10804	0x9768	靨 (<CJK Ideograph>)";
"10805	0x986F	顯 (<CJK Ideograph>)";
"10806	0x995C	饜 (<CJK Ideograph>)";
"10807	0x9A5A	驚 (<CJK Ideograph>)";
"10808	0x9A5B	驛 (<CJK Ideograph>)";
"10809	0x9A57	驗 (<CJK Ideograph>)";
"10810	0x9AD3	髓 (<CJK Ideograph>)";
"10811	0x9AD4	體 (<CJK Ideograph>)";
"10812	0x9AD1	髑 (<CJK Ideograph>)";
"10813	0x9C54	鱔 (<CJK Ideograph>)";
"10814	0x9C57	鱗 (<CJK Ideograph>)";
"10815	0x9C56	鱖 (<CJK Ideograph>)";
"10816	0x9DE5	鷥 (<CJK Ideograph>)";
"10817	0x9E9F	麟 (<CJK Ideograph>)";
"10818	0x9EF4	黴 (<CJK Ideograph>)";
"10819	0x56D1	囑 (<CJK Ideograph>)";
"10820	0x58E9	壩 (<CJK Ideograph>)";
"10821	0x652C	攬 (<CJK Ideograph>)";
"10822	0x705E	灞 (<CJK Ideograph>)";
"10823	0x7671	癱 (<CJK Ideograph>)";
"10824	0x7672	癲 (<CJK Ideograph>)";
"10825	0x77D7	矗 (<CJK Ideograph>)";
"10826	0x7F50	罐 (<CJK Ideograph>)";
"10827	0x7F88	羈 (<CJK Ideograph>)";
"10828	0x8836	蠶 (<CJK Ideograph>)";
"10829	0x8839	蠹 (<CJK Ideograph>)";
"10830	0x8862	衢 (<CJK Ideograph>)";
"10831	0x8B93	讓 (<CJK Ideograph>)";
"10832	0x8B92	讒 (<CJK Ideograph>)";
"10833	0x8B96	讖 (<CJK Ideograph>)";
"10834	0x8277	艷 (<CJK Ideograph>)";
"10835	0x8D1B	贛 (<CJK Ideograph>)";
"10836	0x91C0	釀 (<CJK Ideograph>)";
"10837	0x946A	鑪 (<CJK Ideograph>)";
"10838	0x9742	靂 (<CJK Ideograph>)";
"10839	0x9748	靈 (<CJK Ideograph>)";
"10840	0x9744	靄 (<CJK Ideograph>)";
"10841	0x97C6	韆 (<CJK Ideograph>)";
"10842	0x9870	顰 (<CJK Ideograph>)";
"10843	0x9A5F	驟 (<CJK Ideograph>)";
"10844	0x9B22	鬢 (<CJK Ideograph>)";
"10845	0x9B58	魘 (<CJK Ideograph>)";
"10846	0x9C5F	鱟 (<CJK Ideograph>)";
"10847	0x9DF9	鷹 (<CJK Ideograph>)";
"10848	0x9DFA	鷺 (<CJK Ideograph>)";
"10849	0x9E7C	鹼 (<CJK Ideograph>)";
"10850	0x9E7D	鹽 (<CJK Ideograph>)";
"10851	0x9F07	鼇 (<CJK Ideograph>)";
"10852	0x9F77	齷 (<CJK Ideograph>)";
"10853	0x9F72	齲 (<CJK Ideograph>)";
"10854	0x5EF3	廳 (<CJK Ideograph>)";
"10855	0x6B16	欖 (<CJK Ideograph>)";
"10856	0x7063	灣 (<CJK Ideograph>)";
"10857	0x7C6C	籬 (<CJK Ideograph>)";
"10858	0x7C6E	籮 (<CJK Ideograph>)";
"10859	0x883B	蠻 (<CJK Ideograph>)";
"10860	0x89C0	觀 (<CJK Ideograph>)";
"10861	0x8EA1	躡 (<CJK Ideograph>)";
"10862	0x91C1	釁 (<CJK Ideograph>)";
"10863	0x9472	鑲 (<CJK Ideograph>)";
"10864	0x9470	鑰 (<CJK Ideograph>)";
"10865	0x9871	顱 (<CJK Ideograph>)";
"10866	0x995E	饞 (<CJK Ideograph>)";
"10867	0x9AD6	髖 (<CJK Ideograph>)";
"10868	0x9B23	鬣 (<CJK Ideograph>)";
"10869	0x9ECC	黌 (<CJK Ideograph>)";
"10870	0x7064	灤 (<CJK Ideograph>)"
].
(* /repo/encoding_tables/whatwg/index-big5.txt:9729-9984 *)
Definition index_big5_txt_38 : list line := [
"10871	0x77DA	矚 (<CJK Ideograph>)";
"10872	0x8B9A	讚 (<CJK Ideograph>)";
"10873	0x9477	鑷 (<CJK Ideograph>)";
"10874	0x97C9	韉 (<CJK Ideograph>)";
"10875	0x9A62	驢 (<CJK Ideograph>)";
"10876	0x9A65	驥 (<CJK Ideograph>)";
"10877	0x7E9C	纜 (<CJK Ideograph>)";
"10878	0x8B9C	讜 (<CJK Ideograph>)";
"10879	0x8EAA	躪 (<CJK Ideograph>)";
"10880	0x91C5	釅 (<CJK Ideograph>)";
"10881	0x947D	鑽 (<CJK Ideograph>)";
"10882	0x947E	鑾 (<CJK Ideograph>)";
"10883	0x947C	鑼 (<CJK Ideograph>)";
"10884	0x9C77	鱷 (<CJK Ideograph>)";
"10885	0x9C78	鱸 (<CJK Ideograph>)";
"10886	0x9EF7	黷 (<CJK Ideograph>)";
"10887	0x8C54	豔 (<CJK Ideograph>)";
"10888	0x947F	鑿 (<CJK Ideograph>)";
"10889	0x9E1A	鸚 (<CJK Ideograph>)";
"10890	0x7228	爨 (<CJK Ideograph>)";
"10891	0x9A6A	驪 (<CJK Ideograph>)";
"10892	0x9B31	鬱 (<CJK Ideograph>)";
"10893	0x9E1B	鸛 (<CJK Ideograph>)";
"10894	0x9E1E	鸞 (<CJK Ideograph>)";
"10895	0x7C72	籲 (<CJK Ideograph>)";
"10896	0x2460	① (CIRCLED DIGIT ONE)";
"10897	0x2461	② (CIRCLED DIGIT TWO)";
"10898	0x2462	③ (CIRCLED DIGIT THREE)";
"10899	0x2463	④ (CIRCLED DIGIT FOUR)";
"10900	0x2464	⑤ (CIRCLED DIGIT FIVE)";
"10901	0x2465	⑥ (CIRCLED DIGIT SIX)";
"10902	0x2466	⑦ (CIRCLED DIGIT SEVEN)";
"10903	0x2467	⑧ (CIRCLED DIGIT EIGHT)";
"10904	0x2468	⑨ (CIRCLED DIGIT NINE)";
"10905	0x2469	⑩ (CIRCLED NUMBER TEN)";
"10906	0x2474	⑴ (PARENTHESIZED DIGIT ONE)";
"10907	0x2475	⑵ (PARENTHESIZED DIGIT TWO)";
"10908	0x2476	⑶ (PARENTHESIZED DIGIT THREE)";
"10909	0x2477	⑷ (PARENTHESIZED DIGIT FOUR)";
"10910	0x2478	⑸ (PARENTHESIZED DIGIT FIVE)";
"10911	0x2479	⑹ (PARENTHESIZED DIGIT SIX)";
"10912	0x247A	⑺ (PARENTHESIZED DIGIT SEVEN)";
"10913	0x247B	⑻ (PARENTHESIZED DIGIT EIGHT)";
"10914	0x247C	⑼ (PARENTHESIZED DIGIT NINE)";
"10915	0x247D	⑽ (PARENTHESIZED NUMBER TEN)";
"10916	0x2170	ⅰ (SMALL ROMAN NUMERAL ONE)";
"10917	0x2171	ⅱ (SMALL ROMAN NUMERAL TWO)";
"10918	0x2172	ⅲ (SMALL ROMAN NUMERAL THREE)";
"10919	0x2173	ⅳ (SMALL ROMAN NUMERAL FOUR)";
"10920	0x2174	ⅴ (SMALL ROMAN NUMERAL FIVE)";
"10921	0x2175	ⅵ (SMALL ROMAN NUMERAL SIX)";
"10922	0x2176	ⅶ (SMALL ROMAN NUMERAL SEVEN)";
"10923	0x2177	ⅷ (SMALL ROMAN NUMERAL EIGHT)";
"10924	0x2178	ⅸ (SMALL ROMAN NUMERAL NINE)";
"10925	0x2179	ⅹ (SMALL ROMAN NUMERAL TEN)";
"10926	0x4E36	丶 (<CJK Ideograph>)";
"10927	0x4E3F	丿 (<CJK Ideograph>)";
"10928	0x4E85	亅 (<CJK Ideograph>)";
"10929	0x4EA0	亠 (<CJK Ideograph>)";
"10930	0x5182	冂 (<CJK Ideograph>)";
"10931	0x5196	冖 (<CJK Ideograph>)";
"10932	0x51AB	冫 (<CJK Ideograph>)";
"10933	0x52F9	勹 (<CJK Ideograph>)";
"10934	0x5338	匸 (<CJK Ideograph>)";
"10935	0x5369	卩 (<CJK Ideograph>)";
"10936	0x53B6	厶 (<CJK Ideograph>)";
"10937	0x590A	夊 (<CJK Ideograph>)";
"10938	0x5B80	宀 (<CJK Ideograph>)";
"10939	0x5DDB	巛 (<CJK Ideograph>)";
"10940	0x2F33	⼳ (KANGXI RADICAL SHORT THREAD)";
"10941	0x5E7F	广 (<CJK Ideograph>)";
"10942	0x5EF4	廴 (<CJK Ideograph>)";
"10943	0x5F50	彐 (<CJK Ideograph>)";
"10944	0x5F61	彡 (<CJK Ideograph>)";
"10945	0x6534	攴 (<CJK Ideograph>)";
"10946	0x65E0	无 (<CJK Ideograph>)";
"10947	0x7592	疒 (<CJK Ideograph>)";
"10948	0x7676	癶 (<CJK Ideograph>)";
"10949	0x8FB5	辵 (<CJK Ideograph>)";
"10950	0x96B6	隶 (<CJK Ideograph>)";
"10951	0x00A8	¨ (DIAERESIS)";
"10952	0x02C6	ˆ (MODIFIER LETTER CIRCUMFLEX ACCENT)";
"10953	0x30FD	ヽ (KATAKANA ITERATION MARK)";
"10954	0x30FE	ヾ (KATAKANA VOICED ITERATION MARK)";
"10955	0x309D	ゝ (HIRAGANA ITERATION MARK)";
"10956	0x309E	ゞ (HIRAGANA VOICED ITERATION MARK)";
"10957	0x3003	〃 (DITTO MARK)";
"10958	0x4EDD	仝 (<CJK Ideograph>)";
"10959	0x3005	々 (IDEOGRAPHIC ITERATION MARK)";
"10960	0x3006	〆 (IDEOGRAPHIC CLOSING MARK)";
"10961	0x3007	〇 (IDEOGRAPHIC NUMBER ZERO)";
"10962	0x30FC	ー (KATAKANA-HIRAGANA PROLONGED SOUND MARK)";
"10963	0xFF3B	［ (FULLWIDTH LEFT SQUARE BRACKET)";
"10964	0xFF3D	］ (FULLWIDTH RIGHT SQUARE BRACKET)";
"10965	0x273D	✽ (HEAVY TEARDROP-SPOKED ASTERISK)";
"10966	0x3041	ぁ (HIRAGANA LETTER SMALL A)";
"10967	0x3042	あ (HIRAGANA LETTER A)";
"10968	0x3043	ぃ (HIRAGANA LETTER SMALL I)";
"10969	0x3044	い (HIRAGANA LETTER I)";
"10970	0x3045	ぅ (HIRAGANA LETTER SMALL U)";
"10971	0x3046	う (HIRAGANA LETTER U)";
"10972	0x3047	ぇ (HIRAGANA LETTER SMALL E)";
"10973	0x3048	え (HIRAGANA LETTER E)";
"10974	0x3049	ぉ (HIRAGANA LETTER SMALL O)";
"10975	0x304A	お (HIRAGANA LETTER O)";
"10976	0x304B	か (HIRAGANA LETTER KA)";
"10977	0x304C	が (HIRAGANA LETTER GA)";
"10978	0x304D	き (HIRAGANA LETTER KI)";
"10979	0x304E	ぎ (HIRAGANA LETTER GI)";
"10980	0x304F	く (HIRAGANA LETTER KU)";
"10981	0x3050	ぐ (HIRAGANA LETTER GU)";
"10982	0x3051	け (HIRAGANA LETTER KE)";
"10983	0x3052	げ (HIRAGANA LETTER GE)";
"10984	0x3053	こ (HIRAGANA LETTER KO)";
"10985	0x3054	ご (HIRAGANA LETTER GO)";
"10986	0x3055	さ (HIRAGANA LETTER SA)";
"10987	0x3056	ざ (HIRAGANA LETTER ZA)";
"10988	0x3057	し (HIRAGANA LETTER SI)";
"10989	0x3058	じ (HIRAGANA LETTER ZI)";
"10990	0x3059	す (HIRAGANA LETTER SU)";
"10991	0x305A	ず (HIRAGANA LETTER ZU)";
"10992	0x305B	せ (HIRAGANA LETTER SE)";
"10993	0x305C	ぜ (HIRAGANA LETTER ZE)";
"10994	0x305D	そ (HIRAGANA LETTER SO)";
"10995	0x305E	ぞ (HIRAGANA LETTER ZO)";
"10996	0x305F	た (HIRAGANA LETTER TA)";
"10997	0x3060	だ (HIRAGANA LETTER DA)";
"10998	0x3061	ち (HIRAGANA LETTER TI)";
"10999	0x3062	ぢ (HIRAGANA LETTER DI)";
"11000	0x3063	っ (HIRAGANA LETTER SMALL TU)";
"11001	0x3064	つ (HIRAGANA LETTER TU)";
"11002	0x3065	づ (HIRAGANA LETTER DU)";
"11003	0x3066	て (HIRAGANA LETTER TE)";
"11004	0x3067	で (HIRAGANA LETTER DE)";
"11005	0x3068	と (HIRAGANA LETTER TO)";
"11006	0x3069	ど (HIRAGANA LETTER DO)";
"11007	0x306A	な (HIRAGANA LETTER NA)";
"11008	0x306B	に (HIRAGANA LETTER NI)";
"11009	0x306C	ぬ (HIRAGANA LETTER NU)";
"11010	0x306D	ね (HIRAGANA LETTER NE)";
"11011	0x306E	の (HIRAGANA LETTER NO)";
"11012	0x306F	は (HIRAGANA LETTER HA)";
"11013	0x3070	ば (HIRAGANA LETTER BA)";
"11014	0x3071	ぱ (HIRAGANA LETTER PA)";
"11015	0x3072	ひ (HIRAGANA LETTER HI)";
"11016	0x3073	び (HIRAGANA LETTER BI)";
"11017	0x3074	ぴ (HIRAGANA LETTER PI)";
"11018	0x3075	ふ (HIRAGANA LETTER HU)";
"11019	0x3076	ぶ (HIRAGANA LETTER BU)";
"11020	0x3077	ぷ (HIRAGANA LETTER PU)";
"11021	0x3078	へ (HIRAGANA LETTER HE)";
"11022	0x3079	べ (HIRAGANA LETTER BE)";
"11023	0x307A	ぺ (HIRAGANA LETTER PE)";
"11024	0x307B	ほ (HIRAGANA LETTER HO)";
"11025	0x307C	ぼ (HIRAGANA LETTER BO)";
"11026	0x307D	ぽ (HIRAGANA LETTER PO)";
"11027	0x307E	ま (HIRAGANA LETTER MA)";
"11028	0x307F	み (HIRAGANA LETTER MI)";
"11029	0x3080	む (HIRAGANA LETTER MU)";
"11030	0x3081	め (HIRAGANA LETTER ME)";
"11031	0x3082	も (HIRAGANA LETTER MO)";
"11032	0x3083	ゃ (HIRAGANA LETTER SMALL YA)";
"11033	0x3084	や (HIRAGANA LETTER YA)";
"11034	0x3085	ゅ (HIRAGANA LETTER SMALL YU)";
"11035	0x3086	ゆ (HIRAGANA LETTER YU)";
"11036	0x3087	ょ (HIRAGANA LETTER SMALL YO)";
"11037	0x3088	よ (HIRAGANA LETTER YO)";
"11038	0x3089	ら (HIRAGANA LETTER RA)";
"11039	0x308A	り (HIRAGANA LETTER RI)";
"11040	0x308B	る (HIRAGANA LETTER RU)";
"11041	0x308C	れ (HIRAGANA LETTER RE)";
"11042	0x308D	ろ (HIRAGANA LETTER RO)";
"11043	0x308E	ゎ (HIRAGANA LETTER SMALL WA)";
"11044	0x308F	わ (HIRAGANA LETTER WA)";
"11045	0x3090	ゐ (HIRAGANA LETTER WI)";
"11046	0x3091	ゑ (HIRAGANA LETTER WE)";
"11047	0x3092	を (HIRAGANA LETTER WO)";
"11048	0x3093	ん (HIRAGANA LETTER N)";
"11049	0x30A1	ァ (KATAKANA LETTER SMALL A)";
"11050	0x30A2	ア (KATAKANA LETTER A)";
"11051	0x30A3	ィ (KATAKANA LETTER SMALL I)";
"11052	0x30A4	イ (KATAKANA LETTER I)";
"11053	0x30A5	ゥ (KATAKANA LETTER SMALL U)";
"11054	0x30A6	ウ (KATAKANA LETTER U)";
"11055	0x30A7	ェ (KATAKANA LETTER SMALL E)";
"11056	0x30A8	エ (KATAKANA LETTER E)";
"11057	0x30A9	ォ (KATAKANA LETTER SMALL O)";
"11058	0x30AA	オ (KATAKANA LETTER O)";
"11059	0x30AB	カ (KATAKANA LETTER KA)";
"11060	0x30AC	ガ (KATAKANA LETTER GA)";
"11061	0x30AD	キ (KATAKANA LETTER KI)";
"11062	0x30AE	ギ (KATAKANA LETTER GI)";
"11063	0x30AF	ク (KATAKANA LETTER KU)";
"11064	0x30B0	グ (KATAKANA LETTER GU)";
"11065	0x30B1	ケ (KATAKANA LETTER KE)";
"11066	0x30B2	ゲ (KATAKANA LETTER GE)";
"11067	0x30B3	コ (KATAKANA LETTER KO)";
"11068	0x30B4	ゴ (KATAKANA LETTER GO)";
"11069	0x30B5	サ (KATAKANA LETTER SA)";
"11070	0x30B6	ザ (KATAKANA LETTER ZA)";
"11071	0x30B7	シ (KATAKANA LETTER SI)";
"11072	0x30B8	ジ (KATAKANA LETTER ZI)";
"11073	0x30B9	ス (KATAKANA LETTER SU)";
"11074	0x30BA	ズ (KATAKANA LETTER ZU)";
"11075	0x30BB	セ (KATAKANA LETTER SE)";
"11076	0x30BC	ゼ (KATAKANA LETTER ZE)";
"11077	0x30BD	ソ (KATAKANA LETTER SO)";
"11078	0x30BE	ゾ (KATAKANA LETTER ZO)";
"11079	0x30BF	タ (KATAKANA LETTER TA)";
"11080	0x30C0	ダ (KATAKANA LETTER DA)";
"11081	0x30C1	チ (KATAKANA LETTER TI)";
"11082	0x30C2	ヂ (KATAKANA LETTER DI)";
"11083	0x30C3	ッ (KATAKANA LETTER SMALL TU)";
"11084	0x30C4	ツ (KATAKANA LETTER TU)";
"11085	0x30C5	ヅ (KATAKANA LETTER DU)";
"11086	0x30C6	テ (KATAKANA LETTER TE)";
"11087	0x30C7	デ (KATAKANA LETTER DE)";
"11088	0x30C8	ト (KATAKANA LETTER TO)";
"11089	0x30C9	ド (KATAKANA LETTER DO)";
"11090	0x30CA	ナ (KATAKANA LETTER NA)";
"11091	0x30CB	ニ (KATAKANA LETTER NI)";
"11092	0x30CC	ヌ (KATAKANA LETTER NU)";
"11093	0x30CD	ネ (KATAKANA LETTER NE)";
"11094	0x30CE	ノ (KATAKANA LETTER NO)";
"11095	0x30CF	ハ (KATAKANA LETTER HA)";
"11096	0x30D0	バ (KATAKANA LETTER BA)";
"11097	0x30D1	パ (KATAKANA LETTER PA)";
"11098	0x30D2	ヒ (KATAKANA LETTER HI)";
"11099	0x30D3	ビ (KATAKANA LETTER BI)";
"11100	0x30D4	ピ (KATAKANA LETTER PI)";
"11101	0x30D5	フ (KATAKANA LETTER HU)";
"11102	0x30D6	ブ (KATAKANA LETTER BU)";
"11103	0x30D7	プ (KATAKANA LETTER PU)";
"11104	0x30D8	ヘ (KATAKANA LETTER HE)";
"11105	0x30D9	ベ (KATAKANA LETTER BE)";
"11106	0x30DA	ペ (KATAKANA LETTER PE)";
"11107	0x30DB	ホ (KATAKANA LETTER HO)";
"11108	0x30DC	ボ (KATAKANA LETTER BO)";
"11109	0x30DD	ポ (KATAKANA LETTER PO)";
"11110	0x30DE	マ (KATAKANA LETTER MA)";
"11111	0x30DF	ミ (KATAKANA LETTER MI)";
"11112	0x30E0	ム (KATAKANA LETTER MU)";
"11113	0x30E1	メ (KATAKANA LETTER ME)";
"11114	0x30E2	モ (KATAKANA LETTER MO)";
"11115	0x30E3	ャ (KATAKANA LETTER SMALL YA)";
"11116	0x30E4	ヤ (KATAKANA LETTER YA)";
"11117	0x30E5	ュ (KATAKANA LETTER SMALL YU)";
"11118	0x30E6	ユ (KATAKANA LETTER YU)";
"11119	0x30E7	ョ (KATAKANA LETTER SMALL YO)";
"11120	0x30E8	ヨ (KATAKANA LETTER YO)";
"11121	0x30E9	ラ (KATAKANA LETTER RA)";
"11122	0x30EA	リ (KATAKANA LETTER RI)";
"11123	0x30EB	ル (KATAKANA LETTER RU)";
"11124	0x30EC	レ (KATAKANA LETTER RE)";
"11125	0x30ED	ロ (KATAKANA LETTER RO)";
"11126	0x30EE	ヮ (KATAKANA LETTER SMALL WA)"
].
(* /repo/encoding_tables/whatwg/index-big5.txt:9985-10240 *)
Definition index_big5_txt_39 : list line := [
"11127	0x30EF	ワ (KATAKANA LETTER WA)";
"11128	0x30F0	ヰ (KATAKANA LETTER WI)";
"11129	0x30F1	ヱ (KATAKANA LETTER WE)";
"11130	0x30F2	ヲ (KATAKANA LETTER WO)";
"11131	0x30F3	ン (KATAKANA LETTER N)";
"11132	0x30F4	ヴ (KATAKANA LETTER VU)";
"11133	0x30F5	ヵ (KATAKANA LETTER SMALL KA)";
"11134	0x30F6	ヶ (KATAKANA LETTER SMALL KE)";
"11135	0x0410	А (CYRILLIC CAPITAL LETTER A)";
"11136	0x0411	Б (CYRILLIC CAPITAL LETTER BE)";
"11137	0x0412	В (CYRILLIC CAPITAL LETTER VE)";
"11138	0x0413	Г (CYRILLIC CAPITAL LETTER GHE)";
"11139	0x0414	Д (CYRILLIC CAPITAL LETTER DE)";
"11140	0x0415	Е (CYRILLIC CAPITAL LETTER IE)";
"11141	0x0401	Ё (CYRILLIC CAPITAL LETTER IO)";
"11142	0x0416	Ж (CYRILLIC CAPITAL LETTER ZHE)";
"11143	0x0417	З (CYRILLIC CAPITAL LETTER ZE)";
"11144	0x0418	И (CYRILLIC CAPITAL LETTER I)";
"11145	0x0419	Й (CYRILLIC CAPITAL LETTER SHORT I)";
"11146	0x041A	К (CYRILLIC CAPITAL LETTER KA)";
"11147	0x041B	Л (CYRILLIC CAPITAL LETTER EL)";
"11148	0x041C	М (CYRILLIC CAPITAL LETTER EM)";
"11149	0x041D	Н (CYRILLIC CAPITAL LETTER EN)";
"11150	0x041E	О (CYRILLIC CAPITAL LETTER O)";
"11151	0x041F	П (CYRILLIC CAPITAL LETTER PE)";
"11152	0x0420	Р (CYRILLIC CAPITAL LETTER ER)";
"11153	0x0421	С (CYRILLIC CAPITAL LETTER ES)";
"11154	0x0422	Т (CYRILLIC CAPITAL LETTER TE)";
"11155	0x0423	У (CYRILLIC CAPITAL LETTER U)";
"11156	0x0424	Ф (CYRILLIC CAPITAL LETTER EF)";
"11157	0x0425	Х (CYRILLIC CAPITAL LETTER HA)";
"11158	0x0426	Ц (CYRILLIC CAPITAL LETTER TSE)";
"11159	0x0427	Ч (CYRILLIC CAPITAL LETTER CHE)";
"11160	0x0428	Ш (CYRILLIC CAPITAL LETTER SHA)";
"11161	0x0429	Щ (CYRILLIC CAPITAL LETTER SHCHA)";
"11162	0x042A	Ъ (CYRILLIC CAPITAL LETTER HARD SIGN)";
"11163	0x042B	Ы (CYRILLIC CAPITAL LETTER YERU)";
"11164	0x042C	Ь (CYRILLIC CAPITAL LETTER SOFT SIGN)";
"11165	0x042D	Э (CYRILLIC CAPITAL LETTER E)";
"11166	0x042E	Ю (CYRILLIC CAPITAL LETTER YU)";
"11167	0x042F	Я (CYRILLIC CAPITAL LETTER YA)";
"11168	0x0430	а (CYRILLIC SMALL LETTER A)";
"11169	0x0431	б (CYRILLIC SMALL LETTER BE)";
"11170	0x0432	в (CYRILLIC SMALL LETTER VE)";
"11171	0x0433	г (CYRILLIC SMALL LETTER GHE)";
"11172	0x0434	д (CYRILLIC SMALL LETTER DE)";
"11173	0x0435	е (CYRILLIC SMALL LETTER IE)";
"11174	0x0451	ё (CYRILLIC SMALL LETTER IO)";
"11175	0x0436	ж (CYRILLIC SMALL LETTER ZHE)";
"11176	0x0437	з (CYRILLIC SMALL LETTER ZE)";
"11177	0x0438	и (CYRILLIC SMALL LETTER I)";
"11178	0x0439	й (CYRILLIC SMALL LETTER SHORT I)";
"11179	0x043A	к (CYRILLIC SMALL LETTER KA)";
"11180	0x043B	л (CYRILLIC SMALL LETTER EL)";
"11181	0x043C	м (CYRILLIC SMALL LETTER EM)";
"11182	0x043D	н (CYRILLIC SMALL LETTER EN)";
"11183	0x043E	о (CYRILLIC SMALL LETTER O)";
"11184	0x043F	п (CYRILLIC SMALL LETTER PE)";
"11185	0x0440	р (CYRILLIC SMALL LETTER ER)";
"11186	0x0441	с (CYRILLIC SMALL LETTER ES)";
"11187	0x0442	т (CYRILLIC SMALL LETTER TE)";
"11188	0x0443	у (CYRILLIC SMALL LETTER U)";
"11189	0x0444	ф (CYRILLIC SMALL LETTER EF)";
"11190	0x0445	х (CYRILLIC SMALL LETTER HA)";
"11191	0x0446	ц (CYRILLIC SMALL LETTER TSE)";
"11192	0x0447	ч (CYRILLIC SMALL LETTER CHE)";
"11193	0x0448	ш (CYRILLIC SMALL LETTER SHA)";
"11194	0x0449	щ (CYRILLIC SMALL LETTER SHCHA)";
"11195	0x044A	ъ (CYRILLIC SMALL LETTER HARD SIGN)";
"11196	0x044B	ы (CYRILLIC SMALL LETTER YERU)";
"11197	0x044C	ь (CYRILLIC SMALL LETTER SOFT SIGN)";
"11198	0x044D	э (CYRILLIC SMALL LETTER E)";
"11199	0x044E	ю (CYRILLIC SMALL LETTER YU)";
"11200	0x044F	я (CYRILLIC SMALL LETTER YA)";
"11201	0x21E7	⇧ (UPWARDS WHITE ARROW)";
"11202	0x21B8	↸ (NORTH WEST ARROW TO LONG BAR)";
"11203	0x21B9	↹ (LEFTWARDS ARROW TO BAR OVER RIGHTWARDS ARROW TO BAR)";
"11204	0x31CF	㇏ (CJK STROKE N)";
"11205	0x200CC	𠃌 (<CJK Ideograph Extension B>)";
"11206	0x4E5A	乚 (<CJK Ideograph>)";
"11207	0x2008A	𠂊 (<CJK Ideograph Extension B>)";
"11208	0x5202	刂 (<CJK Ideograph>)";
"11209	0x4491	䒑 (<CJK Ideograph Extension A>)";
"11210	0x9FB0	龰 (<CJK Ideograph>)";
"11211	0x5188	冈 (<CJK Ideograph>)";
"11212	0x9FB1	龱 (<CJK Ideograph>)";
"11213	0x27607	𧘇 (<CJK Ideograph Extension B>)";
"11254	0xFFE2	￢ (FULLWIDTH NOT SIGN)";
"11255	0xFFE4	￤ (FULLWIDTH BROKEN BAR)";
"11256	0xFF07	＇ (FULLWIDTH APOSTROPHE)";
"11257	0xFF02	＂ (FULLWIDTH QUOTATION MARK)";
"11258	0x3231	㈱ (PARENTHESIZED IDEOGRAPH STOCK)";
"11259	0x2116	№ (NUMERO SIGN)";
"11260	0x2121	℡ (TELEPHONE SIGN)";
"11261	0x309B	゛ (KATAKANA-HIRAGANA VOICED SOUND MARK)";
"11262	0x309C	゜ (KATAKANA-HIRAGANA SEMI-VOICED SOUND MARK)";
"11263	0x2E80	⺀ (CJK RADICAL REPEAT)";
"11264	0x2E84	⺄ (CJK RADICAL SECOND THREE)";
"11265	0x2E86	⺆ (CJK RADICAL BOX)";
"11266	0x2E87	⺇ (CJK RADICAL TABLE)";
"11267	0x2E88	⺈ (CJK RADICAL KNIFE ONE)";
"11268	0x2E8A	⺊ (CJK RADICAL DIVINATION)";
"11269	0x2E8C	⺌ (CJK RADICAL SMALL ONE)";
"11270	0x2E8D	⺍ (CJK RADICAL SMALL TWO)";
"11271	0x2E95	⺕ (CJK RADICAL SNOUT TWO)";
"11272	0x2E9C	⺜ (CJK RADICAL SUN)";
"11273	0x2E9D	⺝ (CJK RADICAL MOON)";
"11274	0x2EA5	⺥ (CJK RADICAL PAW TWO)";
"11275	0x2EA7	⺧ (CJK RADICAL COW)";
"11276	0x2EAA	⺪ (CJK RADICAL BOLT OF CLOTH)";
"11277	0x2EAC	⺬ (CJK RADICAL SPIRIT ONE)";
"11278	0x2EAE	⺮ (CJK RADICAL BAMBOO)";
"11279	0x2EB6	⺶ (CJK RADICAL SHEEP)";
"11280	0x2EBC	⺼ (CJK RADICAL MEAT)";
"11281	0x2EBE	⺾ (CJK RADICAL GRASS ONE)";
"11282	0x2EC6	⻆ (CJK RADICAL SIMPLIFIED HORN)";
"11283	0x2ECA	⻊ (CJK RADICAL FOOT)";
"11284	0x2ECC	⻌ (CJK RADICAL SIMPLIFIED WALK)";
"11285	0x2ECD	⻍ (CJK RADICAL WALK ONE)";
"11286	0x2ECF	⻏ (CJK RADICAL CITY)";
"11287	0x2ED6	⻖ (CJK RADICAL MOUND TWO)";
"11288	0x2ED7	⻗ (CJK RADICAL RAIN)";
"11289	0x2EDE	⻞ (CJK RADICAL EAT TWO)";
"11290	0x2EE3	⻣ (CJK RADICAL BONE)";
"11294	0x0283	ʃ (LATIN SMALL LETTER ESH)";
"11295	0x0250	ɐ (LATIN SMALL LETTER TURNED A)";
"11296	0x025B	ɛ (LATIN SMALL LETTER OPEN E)";
"11297	0x0254	ɔ (LATIN SMALL LETTER OPEN O)";
"11298	0x0275	ɵ (LATIN SMALL LETTER BARRED O)";
"11299	0x0153	œ (LATIN SMALL LIGATURE OE)";
"11300	0x00F8	ø (LATIN SMALL LETTER O WITH STROKE)";
"11301	0x014B	ŋ (LATIN SMALL LETTER ENG)";
"11302	0x028A	ʊ (LATIN SMALL LETTER UPSILON)";
"11303	0x026A	ɪ (LATIN LETTER SMALL CAPITAL I)";
"11304	0x4E42	乂 (<CJK Ideograph>)";
"11305	0x4E5C	乜 (<CJK Ideograph>)";
"11306	0x51F5	凵 (<CJK Ideograph>)";
"11307	0x531A	匚 (<CJK Ideograph>)";
"11308	0x5382	厂 (<CJK Ideograph>)";
"11309	0x4E07	万 (<CJK Ideograph>)";
"11310	0x4E0C	丌 (<CJK Ideograph>)";
"11311	0x4E47	乇 (<CJK Ideograph>)";
"11312	0x4E8D	亍 (<CJK Ideograph>)";
"11313	0x56D7	囗 (<CJK Ideograph>)";
"11314	0xFA0C	兀 (CJK COMPATIBILITY IDEOGRAPH-FA0C)";
"11315	0x5C6E	屮 (<CJK Ideograph>)";
"11316	0x5F73	彳 (<CJK Ideograph>)";
"11317	0x4E0F	丏 (<CJK Ideograph>)";
"11318	0x5187	冇 (<CJK Ideograph>)";
"11319	0x4E0E	与 (<CJK Ideograph>)";
"11320	0x4E2E	丮 (<CJK Ideograph>)";
"11321	0x4E93	亓 (<CJK Ideograph>)";
"11322	0x4EC2	仂 (<CJK Ideograph>)";
"11323	0x4EC9	仉 (<CJK Ideograph>)";
"11324	0x4EC8	仈 (<CJK Ideograph>)";
"11325	0x5198	冘 (<CJK Ideograph>)";
"11326	0x52FC	勼 (<CJK Ideograph>)";
"11327	0x536C	卬 (<CJK Ideograph>)";
"11328	0x53B9	厹 (<CJK Ideograph>)";
"11329	0x5720	圠 (<CJK Ideograph>)";
"11330	0x5903	夃 (<CJK Ideograph>)";
"11331	0x592C	夬 (<CJK Ideograph>)";
"11332	0x5C10	尐 (<CJK Ideograph>)";
"11333	0x5DFF	巿 (<CJK Ideograph>)";
"11334	0x65E1	旡 (<CJK Ideograph>)";
"11335	0x6BB3	殳 (<CJK Ideograph>)";
"11336	0x6BCC	毌 (<CJK Ideograph>)";
"11337	0x6C14	气 (<CJK Ideograph>)";
"11338	0x723F	爿 (<CJK Ideograph>)";
"11339	0x4E31	丱 (<CJK Ideograph>)";
"11340	0x4E3C	丼 (<CJK Ideograph>)";
"11341	0x4EE8	仨 (<CJK Ideograph>)";
"11342	0x4EDC	仜 (<CJK Ideograph>)";
"11343	0x4EE9	仩 (<CJK Ideograph>)";
"11344	0x4EE1	仡 (<CJK Ideograph>)";
"11345	0x4EDD	仝 (<CJK Ideograph>)";
"11346	0x4EDA	仚 (<CJK Ideograph>)";
"11347	0x520C	刌 (<CJK Ideograph>)";
"11348	0x531C	匜 (<CJK Ideograph>)";
"11349	0x534C	卌 (<CJK Ideograph>)";
"11350	0x5722	圢 (<CJK Ideograph>)";
"11351	0x5723	圣 (<CJK Ideograph>)";
"11352	0x5917	夗 (<CJK Ideograph>)";
"11353	0x592F	夯 (<CJK Ideograph>)";
"11354	0x5B81	宁 (<CJK Ideograph>)";
"11355	0x5B84	宄 (<CJK Ideograph>)";
"11356	0x5C12	尒 (<CJK Ideograph>)";
"11357	0x5C3B	尻 (<CJK Ideograph>)";
"11358	0x5C74	屴 (<CJK Ideograph>)";
"11359	0x5C73	屳 (<CJK Ideograph>)";
"11360	0x5E04	帄 (<CJK Ideograph>)";
"11361	0x5E80	庀 (<CJK Ideograph>)";
"11362	0x5E82	庂 (<CJK Ideograph>)";
"11363	0x5FC9	忉 (<CJK Ideograph>)";
"11364	0x6209	戉 (<CJK Ideograph>)";
"11365	0x6250	扐 (<CJK Ideograph>)";
"11366	0x6C15	氕 (<CJK Ideograph>)";
"11367	0x6C36	氶 (<CJK Ideograph>)";
"11368	0x6C43	汃 (<CJK Ideograph>)";
"11369	0x6C3F	氿 (<CJK Ideograph>)";
"11370	0x6C3B	氻 (<CJK Ideograph>)";
"11371	0x72AE	犮 (<CJK Ideograph>)";
"11372	0x72B0	犰 (<CJK Ideograph>)";
"11373	0x738A	玊 (<CJK Ideograph>)";
"11374	0x79B8	禸 (<CJK Ideograph>)";
"11375	0x808A	肊 (<CJK Ideograph>)";
"11376	0x961E	阞 (<CJK Ideograph>)";
"11377	0x4F0E	伎 (<CJK Ideograph>)";
"11378	0x4F18	优 (<CJK Ideograph>)";
"11379	0x4F2C	伬 (<CJK Ideograph>)";
"11380	0x4EF5	仵 (<CJK Ideograph>)";
"11381	0x4F14	伔 (<CJK Ideograph>)";
"11382	0x4EF1	仱 (<CJK Ideograph>)";
"11383	0x4F00	伀 (<CJK Ideograph>)";
"11384	0x4EF7	价 (<CJK Ideograph>)";
"11385	0x4F08	伈 (<CJK Ideograph>)";
"11386	0x4F1D	伝 (<CJK Ideograph>)";
"11387	0x4F02	伂 (<CJK Ideograph>)";
"11388	0x4F05	伅 (<CJK Ideograph>)";
"11389	0x4F22	伢 (<CJK Ideograph>)";
"11390	0x4F13	伓 (<CJK Ideograph>)";
"11391	0x4F04	伄 (<CJK Ideograph>)";
"11392	0x4EF4	仴 (<CJK Ideograph>)";
"11393	0x4F12	伒 (<CJK Ideograph>)";
"11394	0x51B1	冱 (<CJK Ideograph>)";
"11395	0x5213	刓 (<CJK Ideograph>)";
"11396	0x5209	刉 (<CJK Ideograph>)";
"11397	0x5210	刐 (<CJK Ideograph>)";
"11398	0x52A6	劦 (<CJK Ideograph>)";
"11399	0x5322	匢 (<CJK Ideograph>)";
"11400	0x531F	匟 (<CJK Ideograph>)";
"11401	0x534D	卍 (<CJK Ideograph>)";
"11402	0x538A	厊 (<CJK Ideograph>)";
"11403	0x5407	吇 (<CJK Ideograph>)";
"11404	0x56E1	囡 (<CJK Ideograph>)";
"11405	0x56DF	囟 (<CJK Ideograph>)";
"11406	0x572E	圮 (<CJK Ideograph>)";
"11407	0x572A	圪 (<CJK Ideograph>)";
"11408	0x5734	圴 (<CJK Ideograph>)";
"11409	0x593C	夼 (<CJK Ideograph>)";
"11410	0x5980	妀 (<CJK Ideograph>)";
"11411	0x597C	奼 (<CJK Ideograph>)";
"11412	0x5985	妅 (<CJK Ideograph>)";
"11413	0x597B	奻 (<CJK Ideograph>)";
"11414	0x597E	奾 (<CJK Ideograph>)";
"11415	0x5977	奷 (<CJK Ideograph>)";
"11416	0x597F	奿 (<CJK Ideograph>)";
"11417	0x5B56	孖 (<CJK Ideograph>)";
"11418	0x5C15	尕 (<CJK Ideograph>)";
"11419	0x5C25	尥 (<CJK Ideograph>)";
"11420	0x5C7C	屼 (<CJK Ideograph>)";
"11421	0x5C7A	屺 (<CJK Ideograph>)";
"11422	0x5C7B	屻 (<CJK Ideograph>)";
"11423	0x5C7E	屾 (<CJK Ideograph>)";
"11424	0x5DDF	巟 (<CJK Ideograph>)";
"11425	0x5E75	幵 (<CJK Ideograph>)"
].
(* /repo/encoding_tables/whatwg/index-big5.txt:10241-10496 *)
Definition index_big5_txt_40 : list line := [
"11426	0x5E84	庄 (<CJK Ideograph>)";
"11427	0x5F02	异 (<CJK Ideograph>)";
"11428	0x5F1A	弚 (<CJK Ideograph>)";
"11429	0x5F74	彴 (<CJK Ideograph>)";
"11430	0x5FD5	忕 (<CJK Ideograph>)";
"11431	0x5FD4	忔 (<CJK Ideograph>)";
"11432	0x5FCF	忏 (<CJK Ideograph>)";
"11433	0x625C	扜 (<CJK Ideograph>)";
"11434	0x625E	扞 (<CJK Ideograph>)";
"11435	0x6264	扤 (<CJK Ideograph>)";
"11436	0x6261	扡 (<CJK Ideograph>)";
"11437	0x6266	扦 (<CJK Ideograph>)";
"11438	0x6262	扢 (<CJK Ideograph>)";
"11439	0x6259	扙 (<CJK Ideograph>)";
"11440	0x6260	扠 (<CJK Ideograph>)";
"11441	0x625A	扚 (<CJK Ideograph>)";
"11442	0x6265	扥 (<CJK Ideograph>)";
"11443	0x65EF	旯 (<CJK Ideograph>)";
"11444	0x65EE	旮 (<CJK Ideograph>)";
"11445	0x673E	朾 (<CJK Ideograph>)";
"11446	0x6739	朹 (<CJK Ideograph>)";
"11447	0x6738	朸 (<CJK Ideograph>)";
"11448	0x673B	朻 (<CJK Ideograph>)";
"11449	0x673A	机 (<CJK Ideograph>)";
"11450	0x673F	朿 (<CJK Ideograph>)";
"11451	0x673C	朼 (<CJK Ideograph>)";
"11452	0x6733	朳 (<CJK Ideograph>)";
"11453	0x6C18	氘 (<CJK Ideograph>)";
"11454	0x6C46	汆 (<CJK Ideograph>)";
"11455	0x6C52	汒 (<CJK Ideograph>)";
"11456	0x6C5C	汜 (<CJK Ideograph>)";
"11457	0x6C4F	汏 (<CJK Ideograph>)";
"11458	0x6C4A	汊 (<CJK Ideograph>)";
"11459	0x6C54	汔 (<CJK Ideograph>)";
"11460	0x6C4B	汋 (<CJK Ideograph>)";
"11461	0x6C4C	汌 (<CJK Ideograph>)";
"11462	0x7071	灱 (<CJK Ideograph>)";
"11463	0x725E	牞 (<CJK Ideograph>)";
"11464	0x72B4	犴 (<CJK Ideograph>)";
"11465	0x72B5	犵 (<CJK Ideograph>)";
"11466	0x738E	玎 (<CJK Ideograph>)";
"11467	0x752A	甪 (<CJK Ideograph>)";
"11468	0x767F	癿 (<CJK Ideograph>)";
"11469	0x7A75	穵 (<CJK Ideograph>)";
"11470	0x7F51	网 (<CJK Ideograph>)";
"11471	0x8278	艸 (<CJK Ideograph>)";
"11472	0x827C	艼 (<CJK Ideograph>)";
"11473	0x8280	芀 (<CJK Ideograph>)";
"11474	0x827D	艽 (<CJK Ideograph>)";
"11475	0x827F	艿 (<CJK Ideograph>)";
"11476	0x864D	虍 (<CJK Ideograph>)";
"11477	0x897E	襾 (<CJK Ideograph>)";
"11478	0x9099	邙 (<CJK Ideograph>)";
"11479	0x9097	邗 (<CJK Ideograph>)";
"11480	0x9098	邘 (<CJK Ideograph>)";
"11481	0x909B	邛 (<CJK Ideograph>)";
"11482	0x9094	邔 (<CJK Ideograph>)";
"11483	0x9622	阢 (<CJK Ideograph>)";
"11484	0x9624	阤 (<CJK Ideograph>)";
"11485	0x9620	阠 (<CJK Ideograph>)";
"11486	0x9623	阣 (<CJK Ideograph>)";
"11487	0x4F56	佖 (<CJK Ideograph>)";
"11488	0x4F3B	伻 (<CJK Ideograph>)";
"11489	0x4F62	佢 (<CJK Ideograph>)";
"11490	0x4F49	佉 (<CJK Ideograph>)";
"11491	0x4F53	体 (<CJK Ideograph>)";
"11492	0x4F64	佤 (<CJK Ideograph>)";
"11493	0x4F3E	伾 (<CJK Ideograph>)";
"11494	0x4F67	佧 (<CJK Ideograph>)";
"11495	0x4F52	佒 (<CJK Ideograph>)";
"11496	0x4F5F	佟 (<CJK Ideograph>)";
"11497	0x4F41	佁 (<CJK Ideograph>)";
"11498	0x4F58	佘 (<CJK Ideograph>)";
"11499	0x4F2D	伭 (<CJK Ideograph>)";
"11500	0x4F33	伳 (<CJK Ideograph>)";
"11501	0x4F3F	伿 (<CJK Ideograph>)";
"11502	0x4F61	佡 (<CJK Ideograph>)";
"11503	0x518F	冏 (<CJK Ideograph>)";
"11504	0x51B9	冹 (<CJK Ideograph>)";
"11505	0x521C	刜 (<CJK Ideograph>)";
"11506	0x521E	刞 (<CJK Ideograph>)";
"11507	0x5221	刡 (<CJK Ideograph>)";
"11508	0x52AD	劭 (<CJK Ideograph>)";
"11509	0x52AE	劮 (<CJK Ideograph>)";
"11510	0x5309	匉 (<CJK Ideograph>)";
"11511	0x5363	卣 (<CJK Ideograph>)";
"11512	0x5372	卲 (<CJK Ideograph>)";
"11513	0x538E	厎 (<CJK Ideograph>)";
"11514	0x538F	厏 (<CJK Ideograph>)";
"11515	0x5430	吰 (<CJK Ideograph>)";
"11516	0x5437	吷 (<CJK Ideograph>)";
"11517	0x542A	吪 (<CJK Ideograph>)";
"11518	0x5454	呔 (<CJK Ideograph>)";
"11519	0x5445	呅 (<CJK Ideograph>)";
"11520	0x5419	吙 (<CJK Ideograph>)";
"11521	0x541C	吜 (<CJK Ideograph>)";
"11522	0x5425	吥 (<CJK Ideograph>)";
"11523	0x5418	吘 (<CJK Ideograph>)";
"11524	0x543D	吽 (<CJK Ideograph>)";
"11525	0x544F	呏 (<CJK Ideograph>)";
"11526	0x5441	呁 (<CJK Ideograph>)";
"11527	0x5428	吨 (<CJK Ideograph>)";
"11528	0x5424	吤 (<CJK Ideograph>)";
"11529	0x5447	呇 (<CJK Ideograph>)";
"11530	0x56EE	囮 (<CJK Ideograph>)";
"11531	0x56E7	囧 (<CJK Ideograph>)";
"11532	0x56E5	囥 (<CJK Ideograph>)";
"11533	0x5741	坁 (<CJK Ideograph>)";
"11534	0x5745	坅 (<CJK Ideograph>)";
"11535	0x574C	坌 (<CJK Ideograph>)";
"11536	0x5749	坉 (<CJK Ideograph>)";
"11537	0x574B	坋 (<CJK Ideograph>)";
"11538	0x5752	坒 (<CJK Ideograph>)";
"11539	0x5906	夆 (<CJK Ideograph>)";
"11540	0x5940	奀 (<CJK Ideograph>)";
"11541	0x59A6	妦 (<CJK Ideograph>)";
"11542	0x5998	妘 (<CJK Ideograph>)";
"11543	0x59A0	妠 (<CJK Ideograph>)";
"11544	0x5997	妗 (<CJK Ideograph>)";
"11545	0x598E	妎 (<CJK Ideograph>)";
"11546	0x59A2	妢 (<CJK Ideograph>)";
"11547	0x5990	妐 (<CJK Ideograph>)";
"11548	0x598F	妏 (<CJK Ideograph>)";
"11549	0x59A7	妧 (<CJK Ideograph>)";
"11550	0x59A1	妡 (<CJK Ideograph>)";
"11551	0x5B8E	宎 (<CJK Ideograph>)";
"11552	0x5B92	宒 (<CJK Ideograph>)";
"11553	0x5C28	尨 (<CJK Ideograph>)";
"11554	0x5C2A	尪 (<CJK Ideograph>)";
"11555	0x5C8D	岍 (<CJK Ideograph>)";
"11556	0x5C8F	岏 (<CJK Ideograph>)";
"11557	0x5C88	岈 (<CJK Ideograph>)";
"11558	0x5C8B	岋 (<CJK Ideograph>)";
"11559	0x5C89	岉 (<CJK Ideograph>)";
"11560	0x5C92	岒 (<CJK Ideograph>)";
"11561	0x5C8A	岊 (<CJK Ideograph>)";
"11562	0x5C86	岆 (<CJK Ideograph>)";
"11563	0x5C93	岓 (<CJK Ideograph>)";
"11564	0x5C95	岕 (<CJK Ideograph>)";
"11565	0x5DE0	巠 (<CJK Ideograph>)";
"11566	0x5E0A	帊 (<CJK Ideograph>)";
"11567	0x5E0E	帎 (<CJK Ideograph>)";
"11568	0x5E8B	庋 (<CJK Ideograph>)";
"11569	0x5E89	庉 (<CJK Ideograph>)";
"11570	0x5E8C	庌 (<CJK Ideograph>)";
"11571	0x5E88	庈 (<CJK Ideograph>)";
"11572	0x5E8D	庍 (<CJK Ideograph>)";
"11573	0x5F05	弅 (<CJK Ideograph>)";
"11574	0x5F1D	弝 (<CJK Ideograph>)";
"11575	0x5F78	彸 (<CJK Ideograph>)";
"11576	0x5F76	彶 (<CJK Ideograph>)";
"11577	0x5FD2	忒 (<CJK Ideograph>)";
"11578	0x5FD1	忑 (<CJK Ideograph>)";
"11579	0x5FD0	忐 (<CJK Ideograph>)";
"11580	0x5FED	忭 (<CJK Ideograph>)";
"11581	0x5FE8	忨 (<CJK Ideograph>)";
"11582	0x5FEE	忮 (<CJK Ideograph>)";
"11583	0x5FF3	忳 (<CJK Ideograph>)";
"11584	0x5FE1	忡 (<CJK Ideograph>)";
"11585	0x5FE4	忤 (<CJK Ideograph>)";
"11586	0x5FE3	忣 (<CJK Ideograph>)";
"11587	0x5FFA	忺 (<CJK Ideograph>)";
"11588	0x5FEF	忯 (<CJK Ideograph>)";
"11589	0x5FF7	忷 (<CJK Ideograph>)";
"11590	0x5FFB	忻 (<CJK Ideograph>)";
"11591	0x6000	怀 (<CJK Ideograph>)";
"11592	0x5FF4	忴 (<CJK Ideograph>)";
"11593	0x623A	戺 (<CJK Ideograph>)";
"11594	0x6283	抃 (<CJK Ideograph>)";
"11595	0x628C	抌 (<CJK Ideograph>)";
"11596	0x628E	抎 (<CJK Ideograph>)";
"11597	0x628F	抏 (<CJK Ideograph>)";
"11598	0x6294	抔 (<CJK Ideograph>)";
"11599	0x6287	抇 (<CJK Ideograph>)";
"11600	0x6271	扱 (<CJK Ideograph>)";
"11601	0x627B	扻 (<CJK Ideograph>)";
"11602	0x627A	扺 (<CJK Ideograph>)";
"11603	0x6270	扰 (<CJK Ideograph>)";
"11604	0x6281	抁 (<CJK Ideograph>)";
"11605	0x6288	抈 (<CJK Ideograph>)";
"11606	0x6277	扷 (<CJK Ideograph>)";
"11607	0x627D	扽 (<CJK Ideograph>)";
"11608	0x6272	扲 (<CJK Ideograph>)";
"11609	0x6274	扴 (<CJK Ideograph>)";
"11610	0x6537	攷 (<CJK Ideograph>)";
"11611	0x65F0	旰 (<CJK Ideograph>)";
"11612	0x65F4	旴 (<CJK Ideograph>)";
"11613	0x65F3	旳 (<CJK Ideograph>)";
"11614	0x65F2	旲 (<CJK Ideograph>)";
"11615	0x65F5	旵 (<CJK Ideograph>)";
"11616	0x6745	杅 (<CJK Ideograph>)";
"11617	0x6747	杇 (<CJK Ideograph>)";
"11618	0x6759	杙 (<CJK Ideograph>)";
"11619	0x6755	杕 (<CJK Ideograph>)";
"11620	0x674C	杌 (<CJK Ideograph>)";
"11621	0x6748	杈 (<CJK Ideograph>)";
"11622	0x675D	杝 (<CJK Ideograph>)";
"11623	0x674D	杍 (<CJK Ideograph>)";
"11624	0x675A	杚 (<CJK Ideograph>)";
"11625	0x674B	杋 (<CJK Ideograph>)";
"11626	0x6BD0	毐 (<CJK Ideograph>)";
"11627	0x6C19	氙 (<CJK Ideograph>)";
"11628	0x6C1A	氚 (<CJK Ideograph>)";
"11629	0x6C78	汸 (<CJK Ideograph>)";
"11630	0x6C67	汧 (<CJK Ideograph>)";
"11631	0x6C6B	汫 (<CJK Ideograph>)";
"11632	0x6C84	沄 (<CJK Ideograph>)";
"11633	0x6C8B	沋 (<CJK Ideograph>)";
"11634	0x6C8F	沏 (<CJK Ideograph>)";
"11635	0x6C71	汱 (<CJK Ideograph>)";
"11636	0x6C6F	汯 (<CJK Ideograph>)";
"11637	0x6C69	汩 (<CJK Ideograph>)";
"11638	0x6C9A	沚 (<CJK Ideograph>)";
"11639	0x6C6D	汭 (<CJK Ideograph>)";
"11640	0x6C87	沇 (<CJK Ideograph>)";
"11641	0x6C95	沕 (<CJK Ideograph>)";
"11642	0x6C9C	沜 (<CJK Ideograph>)";
"11643	0x6C66	汦 (<CJK Ideograph>)";
"11644	0x6C73	汳 (<CJK Ideograph>)";
"11645	0x6C65	汥 (<CJK Ideograph>)";
"11646	0x6C7B	汻 (<CJK Ideograph>)";
"11647	0x6C8E	沎 (<CJK Ideograph>)";
"11648	0x7074	灴 (<CJK Ideograph>)";
"11649	0x707A	灺 (<CJK Ideograph>)";
"11650	0x7263	牣 (<CJK Ideograph>)";
"11651	0x72BF	犿 (<CJK Ideograph>)";
"11652	0x72BD	犽 (<CJK Ideograph>)";
"11653	0x72C3	狃 (<CJK Ideograph>)";
"11654	0x72C6	狆 (<CJK Ideograph>)";
"11655	0x72C1	狁 (<CJK Ideograph>)";
"11656	0x72BA	犺 (<CJK Ideograph>)";
"11657	0x72C5	狅 (<CJK Ideograph>)";
"11658	0x7395	玕 (<CJK Ideograph>)";
"11659	0x7397	玗 (<CJK Ideograph>)";
"11660	0x7393	玓 (<CJK Ideograph>)";
"11661	0x7394	玔 (<CJK Ideograph>)";
"11662	0x7392	玒 (<CJK Ideograph>)";
"11663	0x753A	町 (<CJK Ideograph>)";
"11664	0x7539	甹 (<CJK Ideograph>)";
"11665	0x7594	疔 (<CJK Ideograph>)";
"11666	0x7595	疕 (<CJK Ideograph>)";
"11667	0x7681	皁 (<CJK Ideograph>)";
"11668	0x793D	礽 (<CJK Ideograph>)";
"11669	0x8034	耴 (<CJK Ideograph>)";
"11670	0x8095	肕 (<CJK Ideograph>)";
"11671	0x8099	肙 (<CJK Ideograph>)";
"11672	0x8090	肐 (<CJK Ideograph>)";
"11673	0x8092	肒 (<CJK Ideograph>)";
"11674	0x809C	肜 (<CJK Ideograph>)";
"11675	0x8290	芐 (<CJK Ideograph>)";
"11676	0x828F	芏 (<CJK Ideograph>)";
"11677	0x8285	芅 (<CJK Ideograph>)";
"11678	0x828E	芎 (<CJK Ideograph>)";
"11679	0x8291	芑 (<CJK Ideograph>)";
"11680	0x8293	芓 (<CJK Ideograph>)";
"11681	0x828A	芊 (<CJK Ideograph>)"
].
(* /repo/encoding_tables/whatwg/index-big5.txt:10497-10752 *)
Definition index_big5_txt_41 : list line := [
"11682	0x8283	芃 (<CJK Ideograph>)";
"11683	0x8284	芄 (<CJK Ideograph>)";
"11684	0x8C78	豸 (<CJK Ideograph>)";
"11685	0x8FC9	迉 (<CJK Ideograph>)";
"11686	0x8FBF	辿 (<CJK Ideograph>)";
"11687	0x909F	邟 (<CJK Ideograph>)";
"11688	0x90A1	邡 (<CJK Ideograph>)";
"11689	0x90A5	邥 (<CJK Ideograph>)";
"11690	0x909E	邞 (<CJK Ideograph>)";
"11691	0x90A7	邧 (<CJK Ideograph>)";
"11692	0x90A0	邠 (<CJK Ideograph>)";
"11693	0x9630	阰 (<CJK Ideograph>)";
"11694	0x9628	阨 (<CJK Ideograph>)";
"11695	0x962F	阯 (<CJK Ideograph>)";
"11696	0x962D	阭 (<CJK Ideograph>)";
"11697	0x4E33	丳 (<CJK Ideograph>)";
"11698	0x4F98	侘 (<CJK Ideograph>)";
"11699	0x4F7C	佼 (<CJK Ideograph>)";
"11700	0x4F85	侅 (<CJK Ideograph>)";
"11701	0x4F7D	佽 (<CJK Ideograph>)";
"11702	0x4F80	侀 (<CJK Ideograph>)";
"11703	0x4F87	侇 (<CJK Ideograph>)";
"11704	0x4F76	佶 (<CJK Ideograph>)";
"11705	0x4F74	佴 (<CJK Ideograph>)";
"11706	0x4F89	侉 (<CJK Ideograph>)";
"11707	0x4F84	侄 (<CJK Ideograph>)";
"11708	0x4F77	佷 (<CJK Ideograph>)";
"11709	0x4F4C	佌 (<CJK Ideograph>)";
"11710	0x4F97	侗 (<CJK Ideograph>)";
"11711	0x4F6A	佪 (<CJK Ideograph>)";
"11712	0x4F9A	侚 (<CJK Ideograph>)";
"11713	0x4F79	佹 (<CJK Ideograph>)";
"11714	0x4F81	侁 (<CJK Ideograph>)";
"11715	0x4F78	佸 (<CJK Ideograph>)";
"11716	0x4F90	侐 (<CJK Ideograph>)";
"11717	0x4F9C	侜 (<CJK Ideograph>)";
"11718	0x4F94	侔 (<CJK Ideograph>)";
"11719	0x4F9E	侞 (<CJK Ideograph>)";
"11720	0x4F92	侒 (<CJK Ideograph>)";
"11721	0x4F82	侂 (<CJK Ideograph>)";
"11722	0x4F95	侕 (<CJK Ideograph>)";
"11723	0x4F6B	佫 (<CJK Ideograph>)";
"11724	0x4F6E	佮 (<CJK Ideograph>)";
"11725	0x519E	冞 (<CJK Ideograph>)";
"11726	0x51BC	冼 (<CJK Ideograph>)";
"11727	0x51BE	冾 (<CJK Ideograph>)";
"11728	0x5235	刵 (<CJK Ideograph>)";
"11729	0x5232	刲 (<CJK Ideograph>)";
"11730	0x5233	刳 (<CJK Ideograph>)";
"11731	0x5246	剆 (<CJK Ideograph>)";
"11732	0x5231	刱 (<CJK Ideograph>)";
"11733	0x52BC	劼 (<CJK Ideograph>)";
"11734	0x530A	匊 (<CJK Ideograph>)";
"11735	0x530B	匋 (<CJK Ideograph>)";
"11736	0x533C	匼 (<CJK Ideograph>)";
"11737	0x5392	厒 (<CJK Ideograph>)";
"11738	0x5394	厔 (<CJK Ideograph>)";
"11739	0x5487	咇 (<CJK Ideograph>)";
"11740	0x547F	呿 (<CJK Ideograph>)";
"11741	0x5481	咁 (<CJK Ideograph>)";
"11742	0x5491	咑 (<CJK Ideograph>)";
"11743	0x5482	咂 (<CJK Ideograph>)";
"11744	0x5488	咈 (<CJK Ideograph>)";
"11745	0x546B	呫 (<CJK Ideograph>)";
"11746	0x547A	呺 (<CJK Ideograph>)";
"11747	0x547E	呾 (<CJK Ideograph>)";
"11748	0x5465	呥 (<CJK Ideograph>)";
"11749	0x546C	呬 (<CJK Ideograph>)";
"11750	0x5474	呴 (<CJK Ideograph>)";
"11751	0x5466	呦 (<CJK Ideograph>)";
"11752	0x548D	咍 (<CJK Ideograph>)";
"11753	0x546F	呯 (<CJK Ideograph>)";
"11754	0x5461	呡 (<CJK Ideograph>)";
"11755	0x5460	呠 (<CJK Ideograph>)";
"11756	0x5498	咘 (<CJK Ideograph>)";
"11757	0x5463	呣 (<CJK Ideograph>)";
"11758	0x5467	呧 (<CJK Ideograph>)";
"11759	0x5464	呤 (<CJK Ideograph>)";
"11760	0x56F7	囷 (<CJK Ideograph>)";
"11761	0x56F9	囹 (<CJK Ideograph>)";
"11762	0x576F	坯 (<CJK Ideograph>)";
"11763	0x5772	坲 (<CJK Ideograph>)";
"11764	0x576D	坭 (<CJK Ideograph>)";
"11765	0x576B	坫 (<CJK Ideograph>)";
"11766	0x5771	坱 (<CJK Ideograph>)";
"11767	0x5770	坰 (<CJK Ideograph>)";
"11768	0x5776	坶 (<CJK Ideograph>)";
"11769	0x5780	垀 (<CJK Ideograph>)";
"11770	0x5775	坵 (<CJK Ideograph>)";
"11771	0x577B	坻 (<CJK Ideograph>)";
"11772	0x5773	坳 (<CJK Ideograph>)";
"11773	0x5774	坴 (<CJK Ideograph>)";
"11774	0x5762	坢 (<CJK Ideograph>)";
"11775	0x5768	坨 (<CJK Ideograph>)";
"11776	0x577D	坽 (<CJK Ideograph>)";
"11777	0x590C	夌 (<CJK Ideograph>)";
"11778	0x5945	奅 (<CJK Ideograph>)";
"11779	0x59B5	妵 (<CJK Ideograph>)";
"11780	0x59BA	妺 (<CJK Ideograph>)";
"11781	0x59CF	姏 (<CJK Ideograph>)";
"11782	0x59CE	姎 (<CJK Ideograph>)";
"11783	0x59B2	妲 (<CJK Ideograph>)";
"11784	0x59CC	姌 (<CJK Ideograph>)";
"11785	0x59C1	姁 (<CJK Ideograph>)";
"11786	0x59B6	妶 (<CJK Ideograph>)";
"11787	0x59BC	妼 (<CJK Ideograph>)";
"11788	0x59C3	姃 (<CJK Ideograph>)";
"11789	0x59D6	姖 (<CJK Ideograph>)";
"11790	0x59B1	妱 (<CJK Ideograph>)";
"11791	0x59BD	妽 (<CJK Ideograph>)";
"11792	0x59C0	姀 (<CJK Ideograph>)";
"11793	0x59C8	姈 (<CJK Ideograph>)";
"11794	0x59B4	妴 (<CJK Ideograph>)";
"11795	0x59C7	姇 (<CJK Ideograph>)";
"11796	0x5B62	孢 (<CJK Ideograph>)";
"11797	0x5B65	孥 (<CJK Ideograph>)";
"11798	0x5B93	宓 (<CJK Ideograph>)";
"11799	0x5B95	宕 (<CJK Ideograph>)";
"11800	0x5C44	屄 (<CJK Ideograph>)";
"11801	0x5C47	屇 (<CJK Ideograph>)";
"11802	0x5CAE	岮 (<CJK Ideograph>)";
"11803	0x5CA4	岤 (<CJK Ideograph>)";
"11804	0x5CA0	岠 (<CJK Ideograph>)";
"11805	0x5CB5	岵 (<CJK Ideograph>)";
"11806	0x5CAF	岯 (<CJK Ideograph>)";
"11807	0x5CA8	岨 (<CJK Ideograph>)";
"11808	0x5CAC	岬 (<CJK Ideograph>)";
"11809	0x5C9F	岟 (<CJK Ideograph>)";
"11810	0x5CA3	岣 (<CJK Ideograph>)";
"11811	0x5CAD	岭 (<CJK Ideograph>)";
"11812	0x5CA2	岢 (<CJK Ideograph>)";
"11813	0x5CAA	岪 (<CJK Ideograph>)";
"11814	0x5CA7	岧 (<CJK Ideograph>)";
"11815	0x5C9D	岝 (<CJK Ideograph>)";
"11816	0x5CA5	岥 (<CJK Ideograph>)";
"11817	0x5CB6	岶 (<CJK Ideograph>)";
"11818	0x5CB0	岰 (<CJK Ideograph>)";
"11819	0x5CA6	岦 (<CJK Ideograph>)";
"11820	0x5E17	帗 (<CJK Ideograph>)";
"11821	0x5E14	帔 (<CJK Ideograph>)";
"11822	0x5E19	帙 (<CJK Ideograph>)";
"11823	0x5F28	弨 (<CJK Ideograph>)";
"11824	0x5F22	弢 (<CJK Ideograph>)";
"11825	0x5F23	弣 (<CJK Ideograph>)";
"11826	0x5F24	弤 (<CJK Ideograph>)";
"11827	0x5F54	彔 (<CJK Ideograph>)";
"11828	0x5F82	徂 (<CJK Ideograph>)";
"11829	0x5F7E	彾 (<CJK Ideograph>)";
"11830	0x5F7D	彽 (<CJK Ideograph>)";
"11831	0x5FDE	忞 (<CJK Ideograph>)";
"11832	0x5FE5	忥 (<CJK Ideograph>)";
"11833	0x602D	怭 (<CJK Ideograph>)";
"11834	0x6026	怦 (<CJK Ideograph>)";
"11835	0x6019	怙 (<CJK Ideograph>)";
"11836	0x6032	怲 (<CJK Ideograph>)";
"11837	0x600B	怋 (<CJK Ideograph>)";
"11838	0x6034	怴 (<CJK Ideograph>)";
"11839	0x600A	怊 (<CJK Ideograph>)";
"11840	0x6017	怗 (<CJK Ideograph>)";
"11841	0x6033	怳 (<CJK Ideograph>)";
"11842	0x601A	怚 (<CJK Ideograph>)";
"11843	0x601E	怞 (<CJK Ideograph>)";
"11844	0x602C	怬 (<CJK Ideograph>)";
"11845	0x6022	怢 (<CJK Ideograph>)";
"11846	0x600D	怍 (<CJK Ideograph>)";
"11847	0x6010	怐 (<CJK Ideograph>)";
"11848	0x602E	怮 (<CJK Ideograph>)";
"11849	0x6013	怓 (<CJK Ideograph>)";
"11850	0x6011	怑 (<CJK Ideograph>)";
"11851	0x600C	怌 (<CJK Ideograph>)";
"11852	0x6009	怉 (<CJK Ideograph>)";
"11853	0x601C	怜 (<CJK Ideograph>)";
"11854	0x6214	戔 (<CJK Ideograph>)";
"11855	0x623D	戽 (<CJK Ideograph>)";
"11856	0x62AD	抭 (<CJK Ideograph>)";
"11857	0x62B4	抴 (<CJK Ideograph>)";
"11858	0x62D1	拑 (<CJK Ideograph>)";
"11859	0x62BE	抾 (<CJK Ideograph>)";
"11860	0x62AA	抪 (<CJK Ideograph>)";
"11861	0x62B6	抶 (<CJK Ideograph>)";
"11862	0x62CA	拊 (<CJK Ideograph>)";
"11863	0x62AE	抮 (<CJK Ideograph>)";
"11864	0x62B3	抳 (<CJK Ideograph>)";
"11865	0x62AF	抯 (<CJK Ideograph>)";
"11866	0x62BB	抻 (<CJK Ideograph>)";
"11867	0x62A9	抩 (<CJK Ideograph>)";
"11868	0x62B0	抰 (<CJK Ideograph>)";
"11869	0x62B8	抸 (<CJK Ideograph>)";
"11870	0x653D	攽 (<CJK Ideograph>)";
"11871	0x65A8	斨 (<CJK Ideograph>)";
"11872	0x65BB	斻 (<CJK Ideograph>)";
"11873	0x6609	昉 (<CJK Ideograph>)";
"11874	0x65FC	旼 (<CJK Ideograph>)";
"11875	0x6604	昄 (<CJK Ideograph>)";
"11876	0x6612	昒 (<CJK Ideograph>)";
"11877	0x6608	昈 (<CJK Ideograph>)";
"11878	0x65FB	旻 (<CJK Ideograph>)";
"11879	0x6603	昃 (<CJK Ideograph>)";
"11880	0x660B	昋 (<CJK Ideograph>)";
"11881	0x660D	昍 (<CJK Ideograph>)";
"11882	0x6605	昅 (<CJK Ideograph>)";
"11883	0x65FD	旽 (<CJK Ideograph>)";
"11884	0x6611	昑 (<CJK Ideograph>)";
"11885	0x6610	昐 (<CJK Ideograph>)";
"11886	0x66F6	曶 (<CJK Ideograph>)";
"11887	0x670A	朊 (<CJK Ideograph>)";
"11888	0x6785	枅 (<CJK Ideograph>)";
"11889	0x676C	杬 (<CJK Ideograph>)";
"11890	0x678E	枎 (<CJK Ideograph>)";
"11891	0x6792	枒 (<CJK Ideograph>)";
"11892	0x6776	杶 (<CJK Ideograph>)";
"11893	0x677B	杻 (<CJK Ideograph>)";
"11894	0x6798	枘 (<CJK Ideograph>)";
"11895	0x6786	枆 (<CJK Ideograph>)";
"11896	0x6784	构 (<CJK Ideograph>)";
"11897	0x6774	杴 (<CJK Ideograph>)";
"11898	0x678D	枍 (<CJK Ideograph>)";
"11899	0x678C	枌 (<CJK Ideograph>)";
"11900	0x677A	杺 (<CJK Ideograph>)";
"11901	0x679F	枟 (<CJK Ideograph>)";
"11902	0x6791	枑 (<CJK Ideograph>)";
"11903	0x6799	枙 (<CJK Ideograph>)";
"11904	0x6783	枃 (<CJK Ideograph>)";
"11905	0x677D	杽 (<CJK Ideograph>)";
"11906	0x6781	极 (<CJK Ideograph>)";
"11907	0x6778	杸 (<CJK Ideograph>)";
"11908	0x6779	杹 (<CJK Ideograph>)";
"11909	0x6794	枔 (<CJK Ideograph>)";
"11910	0x6B25	欥 (<CJK Ideograph>)";
"11911	0x6B80	殀 (<CJK Ideograph>)";
"11912	0x6B7E	歾 (<CJK Ideograph>)";
"11913	0x6BDE	毞 (<CJK Ideograph>)";
"11914	0x6C1D	氝 (<CJK Ideograph>)";
"11915	0x6C93	沓 (<CJK Ideograph>)";
"11916	0x6CEC	泬 (<CJK Ideograph>)";
"11917	0x6CEB	泫 (<CJK Ideograph>)";
"11918	0x6CEE	泮 (<CJK Ideograph>)";
"11919	0x6CD9	泙 (<CJK Ideograph>)";
"11920	0x6CB6	沶 (<CJK Ideograph>)";
"11921	0x6CD4	泔 (<CJK Ideograph>)";
"11922	0x6CAD	沭 (<CJK Ideograph>)";
"11923	0x6CE7	泧 (<CJK Ideograph>)";
"11924	0x6CB7	沷 (<CJK Ideograph>)";
"11925	0x6CD0	泐 (<CJK Ideograph>)";
"11926	0x6CC2	泂 (<CJK Ideograph>)";
"11927	0x6CBA	沺 (<CJK Ideograph>)";
"11928	0x6CC3	泃 (<CJK Ideograph>)";
"11929	0x6CC6	泆 (<CJK Ideograph>)";
"11930	0x6CED	泭 (<CJK Ideograph>)";
"11931	0x6CF2	泲 (<CJK Ideograph>)";
"11932	0x6CD2	泒 (<CJK Ideograph>)";
"11933	0x6CDD	泝 (<CJK Ideograph>)";
"11934	0x6CB4	沴 (<CJK Ideograph>)";
"11935	0x6C8A	沊 (<CJK Ideograph>)";
"11936	0x6C9D	沝 (<CJK Ideograph>)";
"11937	0x6C80	沀 (<CJK Ideograph>)"
].
(* /repo/encoding_tables/whatwg/index-big5.txt:10753-11008 *)
Definition index_big5_txt_42 : list line := [
"11938	0x6CDE	泞 (<CJK Ideograph>)";
"11939	0x6CC0	泀 (<CJK Ideograph>)";
"11940	0x6D30	洰 (<CJK Ideograph>)";
"11941	0x6CCD	泍 (<CJK Ideograph>)";
"11942	0x6CC7	泇 (<CJK Ideograph>)";
"11943	0x6CB0	沰 (<CJK Ideograph>)";
"11944	0x6CF9	泹 (<CJK Ideograph>)";
"11945	0x6CCF	泏 (<CJK Ideograph>)";
"11946	0x6CE9	泩 (<CJK Ideograph>)";
"11947	0x6CD1	泑 (<CJK Ideograph>)";
"11948	0x7094	炔 (<CJK Ideograph>)";
"11949	0x7098	炘 (<CJK Ideograph>)";
"11950	0x7085	炅 (<CJK Ideograph>)";
"11951	0x7093	炓 (<CJK Ideograph>)";
"11952	0x7086	炆 (<CJK Ideograph>)";
"11953	0x7084	炄 (<CJK Ideograph>)";
"11954	0x7091	炑 (<CJK Ideograph>)";
"11955	0x7096	炖 (<CJK Ideograph>)";
"11956	0x7082	炂 (<CJK Ideograph>)";
"11957	0x709A	炚 (<CJK Ideograph>)";
"11958	0x7083	炃 (<CJK Ideograph>)";
"11959	0x726A	牪 (<CJK Ideograph>)";
"11960	0x72D6	狖 (<CJK Ideograph>)";
"11961	0x72CB	狋 (<CJK Ideograph>)";
"11962	0x72D8	狘 (<CJK Ideograph>)";
"11963	0x72C9	狉 (<CJK Ideograph>)";
"11964	0x72DC	狜 (<CJK Ideograph>)";
"11965	0x72D2	狒 (<CJK Ideograph>)";
"11966	0x72D4	狔 (<CJK Ideograph>)";
"11967	0x72DA	狚 (<CJK Ideograph>)";
"11968	0x72CC	狌 (<CJK Ideograph>)";
"11969	0x72D1	狑 (<CJK Ideograph>)";
"11970	0x73A4	玤 (<CJK Ideograph>)";
"11971	0x73A1	玡 (<CJK Ideograph>)";
"11972	0x73AD	玭 (<CJK Ideograph>)";
"11973	0x73A6	玦 (<CJK Ideograph>)";
"11974	0x73A2	玢 (<CJK Ideograph>)";
"11975	0x73A0	玠 (<CJK Ideograph>)";
"11976	0x73AC	玬 (<CJK Ideograph>)";
"11977	0x739D	玝 (<CJK Ideograph>)";
"11978	0x74DD	瓝 (<CJK Ideograph>)";
"11979	0x74E8	瓨 (<CJK Ideograph>)";
"11980	0x753F	甿 (<CJK Ideograph>)";
"11981	0x7540	畀 (<CJK Ideograph>)";
"11982	0x753E	甾 (<CJK Ideograph>)";
"11983	0x758C	疌 (<CJK Ideograph>)";
"11984	0x7598	疘 (<CJK Ideograph>)";
"11985	0x76AF	皯 (<CJK Ideograph>)";
"11986	0x76F3	盳 (<CJK Ideograph>)";
"11987	0x76F1	盱 (<CJK Ideograph>)";
"11988	0x76F0	盰 (<CJK Ideograph>)";
"11989	0x76F5	盵 (<CJK Ideograph>)";
"11990	0x77F8	矸 (<CJK Ideograph>)";
"11991	0x77FC	矼 (<CJK Ideograph>)";
"11992	0x77F9	矹 (<CJK Ideograph>)";
"11993	0x77FB	矻 (<CJK Ideograph>)";
"11994	0x77FA	矺 (<CJK Ideograph>)";
"11995	0x77F7	矷 (<CJK Ideograph>)";
"11996	0x7942	祂 (<CJK Ideograph>)";
"11997	0x793F	礿 (<CJK Ideograph>)";
"11998	0x79C5	秅 (<CJK Ideograph>)";
"11999	0x7A78	穸 (<CJK Ideograph>)";
"12000	0x7A7B	穻 (<CJK Ideograph>)";
"12001	0x7AFB	竻 (<CJK Ideograph>)";
"12002	0x7C75	籵 (<CJK Ideograph>)";
"12003	0x7CFD	糽 (<CJK Ideograph>)";
"12004	0x8035	耵 (<CJK Ideograph>)";
"12005	0x808F	肏 (<CJK Ideograph>)";
"12006	0x80AE	肮 (<CJK Ideograph>)";
"12007	0x80A3	肣 (<CJK Ideograph>)";
"12008	0x80B8	肸 (<CJK Ideograph>)";
"12009	0x80B5	肵 (<CJK Ideograph>)";
"12010	0x80AD	肭 (<CJK Ideograph>)";
"12011	0x8220	舠 (<CJK Ideograph>)";
"12012	0x82A0	芠 (<CJK Ideograph>)";
"12013	0x82C0	苀 (<CJK Ideograph>)";
"12014	0x82AB	芫 (<CJK Ideograph>)";
"12015	0x829A	芚 (<CJK Ideograph>)";
"12016	0x8298	芘 (<CJK Ideograph>)";
"12017	0x829B	芛 (<CJK Ideograph>)";
"12018	0x82B5	芵 (<CJK Ideograph>)";
"12019	0x82A7	芧 (<CJK Ideograph>)";
"12020	0x82AE	芮 (<CJK Ideograph>)";
"12021	0x82BC	芼 (<CJK Ideograph>)";
"12022	0x829E	芞 (<CJK Ideograph>)";
"12023	0x82BA	芺 (<CJK Ideograph>)";
"12024	0x82B4	芴 (<CJK Ideograph>)";
"12025	0x82A8	芨 (<CJK Ideograph>)";
"12026	0x82A1	芡 (<CJK Ideograph>)";
"12027	0x82A9	芩 (<CJK Ideograph>)";
"12028	0x82C2	苂 (<CJK Ideograph>)";
"12029	0x82A4	芤 (<CJK Ideograph>)";
"12030	0x82C3	苃 (<CJK Ideograph>)";
"12031	0x82B6	芶 (<CJK Ideograph>)";
"12032	0x82A2	芢 (<CJK Ideograph>)";
"12033	0x8670	虰 (<CJK Ideograph>)";
"12034	0x866F	虯 (<CJK Ideograph>)";
"12035	0x866D	虭 (<CJK Ideograph>)";
"12036	0x866E	虮 (<CJK Ideograph>)";
"12037	0x8C56	豖 (<CJK Ideograph>)";
"12038	0x8FD2	迒 (<CJK Ideograph>)";
"12039	0x8FCB	迋 (<CJK Ideograph>)";
"12040	0x8FD3	迓 (<CJK Ideograph>)";
"12041	0x8FCD	迍 (<CJK Ideograph>)";
"12042	0x8FD6	迖 (<CJK Ideograph>)";
"12043	0x8FD5	迕 (<CJK Ideograph>)";
"12044	0x8FD7	迗 (<CJK Ideograph>)";
"12045	0x90B2	邲 (<CJK Ideograph>)";
"12046	0x90B4	邴 (<CJK Ideograph>)";
"12047	0x90AF	邯 (<CJK Ideograph>)";
"12048	0x90B3	邳 (<CJK Ideograph>)";
"12049	0x90B0	邰 (<CJK Ideograph>)";
"12050	0x9639	阹 (<CJK Ideograph>)";
"12051	0x963D	阽 (<CJK Ideograph>)";
"12052	0x963C	阼 (<CJK Ideograph>)";
"12053	0x963A	阺 (<CJK Ideograph>)";
"12054	0x9643	陃 (<CJK Ideograph>)";
"12055	0x4FCD	俍 (<CJK Ideograph>)";
"12056	0x4FC5	俅 (<CJK Ideograph>)";
"12057	0x4FD3	俓 (<CJK Ideograph>)";
"12058	0x4FB2	侲 (<CJK Ideograph>)";
"12059	0x4FC9	俉 (<CJK Ideograph>)";
"12060	0x4FCB	俋 (<CJK Ideograph>)";
"12061	0x4FC1	俁 (<CJK Ideograph>)";
"12062	0x4FD4	俔 (<CJK Ideograph>)";
"12063	0x4FDC	俜 (<CJK Ideograph>)";
"12064	0x4FD9	俙 (<CJK Ideograph>)";
"12065	0x4FBB	侻 (<CJK Ideograph>)";
"12066	0x4FB3	侳 (<CJK Ideograph>)";
"12067	0x4FDB	俛 (<CJK Ideograph>)";
"12068	0x4FC7	俇 (<CJK Ideograph>)";
"12069	0x4FD6	俖 (<CJK Ideograph>)";
"12070	0x4FBA	侺 (<CJK Ideograph>)";
"12071	0x4FC0	俀 (<CJK Ideograph>)";
"12072	0x4FB9	侹 (<CJK Ideograph>)";
"12073	0x4FEC	俬 (<CJK Ideograph>)";
"12074	0x5244	剄 (<CJK Ideograph>)";
"12075	0x5249	剉 (<CJK Ideograph>)";
"12076	0x52C0	勀 (<CJK Ideograph>)";
"12077	0x52C2	勂 (<CJK Ideograph>)";
"12078	0x533D	匽 (<CJK Ideograph>)";
"12079	0x537C	卼 (<CJK Ideograph>)";
"12080	0x5397	厗 (<CJK Ideograph>)";
"12081	0x5396	厖 (<CJK Ideograph>)";
"12082	0x5399	厙 (<CJK Ideograph>)";
"12083	0x5398	厘 (<CJK Ideograph>)";
"12084	0x54BA	咺 (<CJK Ideograph>)";
"12085	0x54A1	咡 (<CJK Ideograph>)";
"12086	0x54AD	咭 (<CJK Ideograph>)";
"12087	0x54A5	咥 (<CJK Ideograph>)";
"12088	0x54CF	哏 (<CJK Ideograph>)";
"12089	0x54C3	哃 (<CJK Ideograph>)";
"12090	0x830D	茍 (<CJK Ideograph>)";
"12091	0x54B7	咷 (<CJK Ideograph>)";
"12092	0x54AE	咮 (<CJK Ideograph>)";
"12093	0x54D6	哖 (<CJK Ideograph>)";
"12094	0x54B6	咶 (<CJK Ideograph>)";
"12095	0x54C5	哅 (<CJK Ideograph>)";
"12096	0x54C6	哆 (<CJK Ideograph>)";
"12097	0x54A0	咠 (<CJK Ideograph>)";
"12098	0x5470	呰 (<CJK Ideograph>)";
"12099	0x54BC	咼 (<CJK Ideograph>)";
"12100	0x54A2	咢 (<CJK Ideograph>)";
"12101	0x54BE	咾 (<CJK Ideograph>)";
"12102	0x5472	呲 (<CJK Ideograph>)";
"12103	0x54DE	哞 (<CJK Ideograph>)";
"12104	0x54B0	咰 (<CJK Ideograph>)";
"12105	0x57B5	垵 (<CJK Ideograph>)";
"12106	0x579E	垞 (<CJK Ideograph>)";
"12107	0x579F	垟 (<CJK Ideograph>)";
"12108	0x57A4	垤 (<CJK Ideograph>)";
"12109	0x578C	垌 (<CJK Ideograph>)";
"12110	0x5797	垗 (<CJK Ideograph>)";
"12111	0x579D	垝 (<CJK Ideograph>)";
"12112	0x579B	垛 (<CJK Ideograph>)";
"12113	0x5794	垔 (<CJK Ideograph>)";
"12114	0x5798	垘 (<CJK Ideograph>)";
"12115	0x578F	垏 (<CJK Ideograph>)";
"12116	0x5799	垙 (<CJK Ideograph>)";
"12117	0x57A5	垥 (<CJK Ideograph>)";
"12118	0x579A	垚 (<CJK Ideograph>)";
"12119	0x5795	垕 (<CJK Ideograph>)";
"12120	0x58F4	壴 (<CJK Ideograph>)";
"12121	0x590D	复 (<CJK Ideograph>)";
"12122	0x5953	奓 (<CJK Ideograph>)";
"12123	0x59E1	姡 (<CJK Ideograph>)";
"12124	0x59DE	姞 (<CJK Ideograph>)";
"12125	0x59EE	姮 (<CJK Ideograph>)";
"12126	0x5A00	娀 (<CJK Ideograph>)";
"12127	0x59F1	姱 (<CJK Ideograph>)";
"12128	0x59DD	姝 (<CJK Ideograph>)";
"12129	0x59FA	姺 (<CJK Ideograph>)";
"12130	0x59FD	姽 (<CJK Ideograph>)";
"12131	0x59FC	姼 (<CJK Ideograph>)";
"12132	0x59F6	姶 (<CJK Ideograph>)";
"12133	0x59E4	姤 (<CJK Ideograph>)";
"12134	0x59F2	姲 (<CJK Ideograph>)";
"12135	0x59F7	姷 (<CJK Ideograph>)";
"12136	0x59DB	姛 (<CJK Ideograph>)";
"12137	0x59E9	姩 (<CJK Ideograph>)";
"12138	0x59F3	姳 (<CJK Ideograph>)";
"12139	0x59F5	姵 (<CJK Ideograph>)";
"12140	0x59E0	姠 (<CJK Ideograph>)";
"12141	0x59FE	姾 (<CJK Ideograph>)";
"12142	0x59F4	姴 (<CJK Ideograph>)";
"12143	0x59ED	姭 (<CJK Ideograph>)";
"12144	0x5BA8	宨 (<CJK Ideograph>)";
"12145	0x5C4C	屌 (<CJK Ideograph>)";
"12146	0x5CD0	峐 (<CJK Ideograph>)";
"12147	0x5CD8	峘 (<CJK Ideograph>)";
"12148	0x5CCC	峌 (<CJK Ideograph>)";
"12149	0x5CD7	峗 (<CJK Ideograph>)";
"12150	0x5CCB	峋 (<CJK Ideograph>)";
"12151	0x5CDB	峛 (<CJK Ideograph>)";
"12152	0x5CDE	峞 (<CJK Ideograph>)";
"12153	0x5CDA	峚 (<CJK Ideograph>)";
"12154	0x5CC9	峉 (<CJK Ideograph>)";
"12155	0x5CC7	峇 (<CJK Ideograph>)";
"12156	0x5CCA	峊 (<CJK Ideograph>)";
"12157	0x5CD6	峖 (<CJK Ideograph>)";
"12158	0x5CD3	峓 (<CJK Ideograph>)";
"12159	0x5CD4	峔 (<CJK Ideograph>)";
"12160	0x5CCF	峏 (<CJK Ideograph>)";
"12161	0x5CC8	峈 (<CJK Ideograph>)";
"12162	0x5CC6	峆 (<CJK Ideograph>)";
"12163	0x5CCE	峎 (<CJK Ideograph>)";
"12164	0x5CDF	峟 (<CJK Ideograph>)";
"12165	0x5CF8	峸 (<CJK Ideograph>)";
"12166	0x5DF9	巹 (<CJK Ideograph>)";
"12167	0x5E21	帡 (<CJK Ideograph>)";
"12168	0x5E22	帢 (<CJK Ideograph>)";
"12169	0x5E23	帣 (<CJK Ideograph>)";
"12170	0x5E20	帠 (<CJK Ideograph>)";
"12171	0x5E24	帤 (<CJK Ideograph>)";
"12172	0x5EB0	庰 (<CJK Ideograph>)";
"12173	0x5EA4	庤 (<CJK Ideograph>)";
"12174	0x5EA2	庢 (<CJK Ideograph>)";
"12175	0x5E9B	庛 (<CJK Ideograph>)";
"12176	0x5EA3	庣 (<CJK Ideograph>)";
"12177	0x5EA5	庥 (<CJK Ideograph>)";
"12178	0x5F07	弇 (<CJK Ideograph>)";
"12179	0x5F2E	弮 (<CJK Ideograph>)";
"12180	0x5F56	彖 (<CJK Ideograph>)";
"12181	0x5F86	徆 (<CJK Ideograph>)";
"12182	0x6037	怷 (<CJK Ideograph>)";
"12183	0x6039	怹 (<CJK Ideograph>)";
"12184	0x6054	恔 (<CJK Ideograph>)";
"12185	0x6072	恲 (<CJK Ideograph>)";
"12186	0x605E	恞 (<CJK Ideograph>)";
"12187	0x6045	恅 (<CJK Ideograph>)";
"12188	0x6053	恓 (<CJK Ideograph>)";
"12189	0x6047	恇 (<CJK Ideograph>)";
"12190	0x6049	恉 (<CJK Ideograph>)";
"12191	0x605B	恛 (<CJK Ideograph>)";
"12192	0x604C	恌 (<CJK Ideograph>)";
"12193	0x6040	恀 (<CJK Ideograph>)"
].
(* /repo/encoding_tables/whatwg/index-big5.txt:11009-11264 *)
Definition index_big5_txt_43 : list line := [
"12194	0x6042	恂 (<CJK Ideograph>)";
"12195	0x605F	恟 (<CJK Ideograph>)";
"12196	0x6024	怤 (<CJK Ideograph>)";
"12197	0x6044	恄 (<CJK Ideograph>)";
"12198	0x6058	恘 (<CJK Ideograph>)";
"12199	0x6066	恦 (<CJK Ideograph>)";
"12200	0x606E	恮 (<CJK Ideograph>)";
"12201	0x6242	扂 (<CJK Ideograph>)";
"12202	0x6243	扃 (<CJK Ideograph>)";
"12203	0x62CF	拏 (<CJK Ideograph>)";
"12204	0x630D	挍 (<CJK Ideograph>)";
"12205	0x630B	挋 (<CJK Ideograph>)";
"12206	0x62F5	拵 (<CJK Ideograph>)";
"12207	0x630E	挎 (<CJK Ideograph>)";
"12208	0x6303	挃 (<CJK Ideograph>)";
"12209	0x62EB	拫 (<CJK Ideograph>)";
"12210	0x62F9	拹 (<CJK Ideograph>)";
"12211	0x630F	挏 (<CJK Ideograph>)";
"12212	0x630C	挌 (<CJK Ideograph>)";
"12213	0x62F8	拸 (<CJK Ideograph>)";
"12214	0x62F6	拶 (<CJK Ideograph>)";
"12215	0x6300	挀 (<CJK Ideograph>)";
"12216	0x6313	挓 (<CJK Ideograph>)";
"12217	0x6314	挔 (<CJK Ideograph>)";
"12218	0x62FA	拺 (<CJK Ideograph>)";
"12219	0x6315	挕 (<CJK Ideograph>)";
"12220	0x62FB	拻 (<CJK Ideograph>)";
"12221	0x62F0	拰 (<CJK Ideograph>)";
"12222	0x6541	敁 (<CJK Ideograph>)";
"12223	0x6543	敃 (<CJK Ideograph>)";
"12224	0x65AA	斪 (<CJK Ideograph>)";
"12225	0x65BF	斿 (<CJK Ideograph>)";
"12226	0x6636	昶 (<CJK Ideograph>)";
"12227	0x6621	昡 (<CJK Ideograph>)";
"12228	0x6632	昲 (<CJK Ideograph>)";
"12229	0x6635	昵 (<CJK Ideograph>)";
"12230	0x661C	昜 (<CJK Ideograph>)";
"12231	0x6626	昦 (<CJK Ideograph>)";
"12232	0x6622	昢 (<CJK Ideograph>)";
"12233	0x6633	昳 (<CJK Ideograph>)";
"12234	0x662B	昫 (<CJK Ideograph>)";
"12235	0x663A	昺 (<CJK Ideograph>)";
"12236	0x661D	昝 (<CJK Ideograph>)";
"12237	0x6634	昴 (<CJK Ideograph>)";
"12238	0x6639	昹 (<CJK Ideograph>)";
"12239	0x662E	昮 (<CJK Ideograph>)";
"12240	0x670F	朏 (<CJK Ideograph>)";
"12241	0x6710	朐 (<CJK Ideograph>)";
"12242	0x67C1	柁 (<CJK Ideograph>)";
"12243	0x67F2	柲 (<CJK Ideograph>)";
"12244	0x67C8	柈 (<CJK Ideograph>)";
"12245	0x67BA	枺 (<CJK Ideograph>)";
"12246	0x67DC	柜 (<CJK Ideograph>)";
"12247	0x67BB	枻 (<CJK Ideograph>)";
"12248	0x67F8	柸 (<CJK Ideograph>)";
"12249	0x67D8	柘 (<CJK Ideograph>)";
"12250	0x67C0	柀 (<CJK Ideograph>)";
"12251	0x67B7	枷 (<CJK Ideograph>)";
"12252	0x67C5	柅 (<CJK Ideograph>)";
"12253	0x67EB	柫 (<CJK Ideograph>)";
"12254	0x67E4	柤 (<CJK Ideograph>)";
"12255	0x67DF	柟 (<CJK Ideograph>)";
"12256	0x67B5	枵 (<CJK Ideograph>)";
"12257	0x67CD	柍 (<CJK Ideograph>)";
"12258	0x67B3	枳 (<CJK Ideograph>)";
"12259	0x67F7	柷 (<CJK Ideograph>)";
"12260	0x67F6	柶 (<CJK Ideograph>)";
"12261	0x67EE	柮 (<CJK Ideograph>)";
"12262	0x67E3	柣 (<CJK Ideograph>)";
"12263	0x67C2	柂 (<CJK Ideograph>)";
"12264	0x67B9	枹 (<CJK Ideograph>)";
"12265	0x67CE	柎 (<CJK Ideograph>)";
"12266	0x67E7	柧 (<CJK Ideograph>)";
"12267	0x67F0	柰 (<CJK Ideograph>)";
"12268	0x67B2	枲 (<CJK Ideograph>)";
"12269	0x67FC	柼 (<CJK Ideograph>)";
"12270	0x67C6	柆 (<CJK Ideograph>)";
"12271	0x67ED	柭 (<CJK Ideograph>)";
"12272	0x67CC	柌 (<CJK Ideograph>)";
"12273	0x67AE	枮 (<CJK Ideograph>)";
"12274	0x67E6	柦 (<CJK Ideograph>)";
"12275	0x67DB	柛 (<CJK Ideograph>)";
"12276	0x67FA	柺 (<CJK Ideograph>)";
"12277	0x67C9	柉 (<CJK Ideograph>)";
"12278	0x67CA	柊 (<CJK Ideograph>)";
"12279	0x67C3	柃 (<CJK Ideograph>)";
"12280	0x67EA	柪 (<CJK Ideograph>)";
"12281	0x67CB	柋 (<CJK Ideograph>)";
"12282	0x6B28	欨 (<CJK Ideograph>)";
"12283	0x6B82	殂 (<CJK Ideograph>)";
"12284	0x6B84	殄 (<CJK Ideograph>)";
"12285	0x6BB6	殶 (<CJK Ideograph>)";
"12286	0x6BD6	毖 (<CJK Ideograph>)";
"12287	0x6BD8	毘 (<CJK Ideograph>)";
"12288	0x6BE0	毠 (<CJK Ideograph>)";
"12289	0x6C20	氠 (<CJK Ideograph>)";
"12290	0x6C21	氡 (<CJK Ideograph>)";
"12291	0x6D28	洨 (<CJK Ideograph>)";
"12292	0x6D34	洴 (<CJK Ideograph>)";
"12293	0x6D2D	洭 (<CJK Ideograph>)";
"12294	0x6D1F	洟 (<CJK Ideograph>)";
"12295	0x6D3C	洼 (<CJK Ideograph>)";
"12296	0x6D3F	洿 (<CJK Ideograph>)";
"12297	0x6D12	洒 (<CJK Ideograph>)";
"12298	0x6D0A	洊 (<CJK Ideograph>)";
"12299	0x6CDA	泚 (<CJK Ideograph>)";
"12300	0x6D33	洳 (<CJK Ideograph>)";
"12301	0x6D04	洄 (<CJK Ideograph>)";
"12302	0x6D19	洙 (<CJK Ideograph>)";
"12303	0x6D3A	洺 (<CJK Ideograph>)";
"12304	0x6D1A	洚 (<CJK Ideograph>)";
"12305	0x6D11	洑 (<CJK Ideograph>)";
"12306	0x6D00	洀 (<CJK Ideograph>)";
"12307	0x6D1D	洝 (<CJK Ideograph>)";
"12308	0x6D42	浂 (<CJK Ideograph>)";
"12309	0x6D01	洁 (<CJK Ideograph>)";
"12310	0x6D18	洘 (<CJK Ideograph>)";
"12311	0x6D37	洷 (<CJK Ideograph>)";
"12312	0x6D03	洃 (<CJK Ideograph>)";
"12313	0x6D0F	洏 (<CJK Ideograph>)";
"12314	0x6D40	浀 (<CJK Ideograph>)";
"12315	0x6D07	洇 (<CJK Ideograph>)";
"12316	0x6D20	洠 (<CJK Ideograph>)";
"12317	0x6D2C	洬 (<CJK Ideograph>)";
"12318	0x6D08	洈 (<CJK Ideograph>)";
"12319	0x6D22	洢 (<CJK Ideograph>)";
"12320	0x6D09	洉 (<CJK Ideograph>)";
"12321	0x6D10	洐 (<CJK Ideograph>)";
"12322	0x70B7	炷 (<CJK Ideograph>)";
"12323	0x709F	炟 (<CJK Ideograph>)";
"12324	0x70BE	炾 (<CJK Ideograph>)";
"12325	0x70B1	炱 (<CJK Ideograph>)";
"12326	0x70B0	炰 (<CJK Ideograph>)";
"12327	0x70A1	炡 (<CJK Ideograph>)";
"12328	0x70B4	炴 (<CJK Ideograph>)";
"12329	0x70B5	炵 (<CJK Ideograph>)";
"12330	0x70A9	炩 (<CJK Ideograph>)";
"12331	0x7241	牁 (<CJK Ideograph>)";
"12332	0x7249	牉 (<CJK Ideograph>)";
"12333	0x724A	牊 (<CJK Ideograph>)";
"12334	0x726C	牬 (<CJK Ideograph>)";
"12335	0x7270	牰 (<CJK Ideograph>)";
"12336	0x7273	牳 (<CJK Ideograph>)";
"12337	0x726E	牮 (<CJK Ideograph>)";
"12338	0x72CA	狊 (<CJK Ideograph>)";
"12339	0x72E4	狤 (<CJK Ideograph>)";
"12340	0x72E8	狨 (<CJK Ideograph>)";
"12341	0x72EB	狫 (<CJK Ideograph>)";
"12342	0x72DF	狟 (<CJK Ideograph>)";
"12343	0x72EA	狪 (<CJK Ideograph>)";
"12344	0x72E6	狦 (<CJK Ideograph>)";
"12345	0x72E3	狣 (<CJK Ideograph>)";
"12346	0x7385	玅 (<CJK Ideograph>)";
"12347	0x73CC	珌 (<CJK Ideograph>)";
"12348	0x73C2	珂 (<CJK Ideograph>)";
"12349	0x73C8	珈 (<CJK Ideograph>)";
"12350	0x73C5	珅 (<CJK Ideograph>)";
"12351	0x73B9	玹 (<CJK Ideograph>)";
"12352	0x73B6	玶 (<CJK Ideograph>)";
"12353	0x73B5	玵 (<CJK Ideograph>)";
"12354	0x73B4	玴 (<CJK Ideograph>)";
"12355	0x73EB	珫 (<CJK Ideograph>)";
"12356	0x73BF	玿 (<CJK Ideograph>)";
"12357	0x73C7	珇 (<CJK Ideograph>)";
"12358	0x73BE	玾 (<CJK Ideograph>)";
"12359	0x73C3	珃 (<CJK Ideograph>)";
"12360	0x73C6	珆 (<CJK Ideograph>)";
"12361	0x73B8	玸 (<CJK Ideograph>)";
"12362	0x73CB	珋 (<CJK Ideograph>)";
"12363	0x74EC	瓬 (<CJK Ideograph>)";
"12364	0x74EE	瓮 (<CJK Ideograph>)";
"12365	0x752E	甮 (<CJK Ideograph>)";
"12366	0x7547	畇 (<CJK Ideograph>)";
"12367	0x7548	畈 (<CJK Ideograph>)";
"12368	0x75A7	疧 (<CJK Ideograph>)";
"12369	0x75AA	疪 (<CJK Ideograph>)";
"12370	0x7679	癹 (<CJK Ideograph>)";
"12371	0x76C4	盄 (<CJK Ideograph>)";
"12372	0x7708	眈 (<CJK Ideograph>)";
"12373	0x7703	眃 (<CJK Ideograph>)";
"12374	0x7704	眄 (<CJK Ideograph>)";
"12375	0x7705	眅 (<CJK Ideograph>)";
"12376	0x770A	眊 (<CJK Ideograph>)";
"12377	0x76F7	盷 (<CJK Ideograph>)";
"12378	0x76FB	盻 (<CJK Ideograph>)";
"12379	0x76FA	盺 (<CJK Ideograph>)";
"12380	0x77E7	矧 (<CJK Ideograph>)";
"12381	0x77E8	矨 (<CJK Ideograph>)";
"12382	0x7806	砆 (<CJK Ideograph>)";
"12383	0x7811	砑 (<CJK Ideograph>)";
"12384	0x7812	砒 (<CJK Ideograph>)";
"12385	0x7805	砅 (<CJK Ideograph>)";
"12386	0x7810	砐 (<CJK Ideograph>)";
"12387	0x780F	砏 (<CJK Ideograph>)";
"12388	0x780E	砎 (<CJK Ideograph>)";
"12389	0x7809	砉 (<CJK Ideograph>)";
"12390	0x7803	砃 (<CJK Ideograph>)";
"12391	0x7813	砓 (<CJK Ideograph>)";
"12392	0x794A	祊 (<CJK Ideograph>)";
"12393	0x794C	祌 (<CJK Ideograph>)";
"12394	0x794B	祋 (<CJK Ideograph>)";
"12395	0x7945	祅 (<CJK Ideograph>)";
"12396	0x7944	祄 (<CJK Ideograph>)";
"12397	0x79D5	秕 (<CJK Ideograph>)";
"12398	0x79CD	种 (<CJK Ideograph>)";
"12399	0x79CF	秏 (<CJK Ideograph>)";
"12400	0x79D6	秖 (<CJK Ideograph>)";
"12401	0x79CE	秎 (<CJK Ideograph>)";
"12402	0x7A80	窀 (<CJK Ideograph>)";
"12403	0x7A7E	穾 (<CJK Ideograph>)";
"12404	0x7AD1	竑 (<CJK Ideograph>)";
"12405	0x7B00	笀 (<CJK Ideograph>)";
"12406	0x7B01	笁 (<CJK Ideograph>)";
"12407	0x7C7A	籺 (<CJK Ideograph>)";
"12408	0x7C78	籸 (<CJK Ideograph>)";
"12409	0x7C79	籹 (<CJK Ideograph>)";
"12410	0x7C7F	籿 (<CJK Ideograph>)";
"12411	0x7C80	粀 (<CJK Ideograph>)";
"12412	0x7C81	粁 (<CJK Ideograph>)";
"12413	0x7D03	紃 (<CJK Ideograph>)";
"12414	0x7D08	紈 (<CJK Ideograph>)";
"12415	0x7D01	紁 (<CJK Ideograph>)";
"12416	0x7F58	罘 (<CJK Ideograph>)";
"12417	0x7F91	羑 (<CJK Ideograph>)";
"12418	0x7F8D	羍 (<CJK Ideograph>)";
"12419	0x7FBE	羾 (<CJK Ideograph>)";
"12420	0x8007	耇 (<CJK Ideograph>)";
"12421	0x800E	耎 (<CJK Ideograph>)";
"12422	0x800F	耏 (<CJK Ideograph>)";
"12423	0x8014	耔 (<CJK Ideograph>)";
"12424	0x8037	耷 (<CJK Ideograph>)";
"12425	0x80D8	胘 (<CJK Ideograph>)";
"12426	0x80C7	胇 (<CJK Ideograph>)";
"12427	0x80E0	胠 (<CJK Ideograph>)";
"12428	0x80D1	胑 (<CJK Ideograph>)";
"12429	0x80C8	胈 (<CJK Ideograph>)";
"12430	0x80C2	胂 (<CJK Ideograph>)";
"12431	0x80D0	胐 (<CJK Ideograph>)";
"12432	0x80C5	胅 (<CJK Ideograph>)";
"12433	0x80E3	胣 (<CJK Ideograph>)";
"12434	0x80D9	胙 (<CJK Ideograph>)";
"12435	0x80DC	胜 (<CJK Ideograph>)";
"12436	0x80CA	胊 (<CJK Ideograph>)";
"12437	0x80D5	胕 (<CJK Ideograph>)";
"12438	0x80C9	胉 (<CJK Ideograph>)";
"12439	0x80CF	胏 (<CJK Ideograph>)";
"12440	0x80D7	胗 (<CJK Ideograph>)";
"12441	0x80E6	胦 (<CJK Ideograph>)";
"12442	0x80CD	胍 (<CJK Ideograph>)";
"12443	0x81FF	臿 (<CJK Ideograph>)";
"12444	0x8221	舡 (<CJK Ideograph>)";
"12445	0x8294	芔 (<CJK Ideograph>)";
"12446	0x82D9	苙 (<CJK Ideograph>)";
"12447	0x82FE	苾 (<CJK Ideograph>)";
"12448	0x82F9	苹 (<CJK Ideograph>)";
"12449	0x8307	茇 (<CJK Ideograph>)"
].
(* /repo/encoding_tables/whatwg/index-big5.txt:11265-11520 *)
Definition index_big5_txt_44 : list line := [
"12450	0x82E8	苨 (<CJK Ideograph>)";
"12451	0x8300	茀 (<CJK Ideograph>)";
"12452	0x82D5	苕 (<CJK Ideograph>)";
"12453	0x833A	茺 (<CJK Ideograph>)";
"12454	0x82EB	苫 (<CJK Ideograph>)";
"12455	0x82D6	苖 (<CJK Ideograph>)";
"12456	0x82F4	苴 (<CJK Ideograph>)";
"12457	0x82EC	苬 (<CJK Ideograph>)";
"12458	0x82E1	苡 (<CJK Ideograph>)";
"12459	0x82F2	苲 (<CJK Ideograph>)";
"12460	0x82F5	苵 (<CJK Ideograph>)";
"12461	0x830C	茌 (<CJK Ideograph>)";
"12462	0x82FB	苻 (<CJK Ideograph>)";
"12463	0x82F6	苶 (<CJK Ideograph>)";
"12464	0x82F0	苰 (<CJK Ideograph>)";
"12465	0x82EA	苪 (<CJK Ideograph>)";
"12466	0x82E4	苤 (<CJK Ideograph>)";
"12467	0x82E0	苠 (<CJK Ideograph>)";
"12468	0x82FA	苺 (<CJK Ideograph>)";
"12469	0x82F3	苳 (<CJK Ideograph>)";
"12470	0x82ED	苭 (<CJK Ideograph>)";
"12471	0x8677	虷 (<CJK Ideograph>)";
"12472	0x8674	虴 (<CJK Ideograph>)";
"12473	0x867C	虼 (<CJK Ideograph>)";
"12474	0x8673	虳 (<CJK Ideograph>)";
"12475	0x8841	衁 (<CJK Ideograph>)";
"12476	0x884E	衎 (<CJK Ideograph>)";
"12477	0x8867	衧 (<CJK Ideograph>)";
"12478	0x886A	衪 (<CJK Ideograph>)";
"12479	0x8869	衩 (<CJK Ideograph>)";
"12480	0x89D3	觓 (<CJK Ideograph>)";
"12481	0x8A04	訄 (<CJK Ideograph>)";
"12482	0x8A07	訇 (<CJK Ideograph>)";
"12483	0x8D72	赲 (<CJK Ideograph>)";
"12484	0x8FE3	迣 (<CJK Ideograph>)";
"12485	0x8FE1	迡 (<CJK Ideograph>)";
"12486	0x8FEE	迮 (<CJK Ideograph>)";
"12487	0x8FE0	迠 (<CJK Ideograph>)";
"12488	0x90F1	郱 (<CJK Ideograph>)";
"12489	0x90BD	邽 (<CJK Ideograph>)";
"12490	0x90BF	邿 (<CJK Ideograph>)";
"12491	0x90D5	郕 (<CJK Ideograph>)";
"12492	0x90C5	郅 (<CJK Ideograph>)";
"12493	0x90BE	邾 (<CJK Ideograph>)";
"12494	0x90C7	郇 (<CJK Ideograph>)";
"12495	0x90CB	郋 (<CJK Ideograph>)";
"12496	0x90C8	郈 (<CJK Ideograph>)";
"12497	0x91D4	釔 (<CJK Ideograph>)";
"12498	0x91D3	釓 (<CJK Ideograph>)";
"12499	0x9654	陔 (<CJK Ideograph>)";
"12500	0x964F	陏 (<CJK Ideograph>)";
"12501	0x9651	陑 (<CJK Ideograph>)";
"12502	0x9653	陓 (<CJK Ideograph>)";
"12503	0x964A	陊 (<CJK Ideograph>)";
"12504	0x964E	陎 (<CJK Ideograph>)";
"12505	0x501E	倞 (<CJK Ideograph>)";
"12506	0x5005	倅 (<CJK Ideograph>)";
"12507	0x5007	倇 (<CJK Ideograph>)";
"12508	0x5013	倓 (<CJK Ideograph>)";
"12509	0x5022	倢 (<CJK Ideograph>)";
"12510	0x5030	倰 (<CJK Ideograph>)";
"12511	0x501B	倛 (<CJK Ideograph>)";
"12512	0x4FF5	俵 (<CJK Ideograph>)";
"12513	0x4FF4	俴 (<CJK Ideograph>)";
"12514	0x5033	倳 (<CJK Ideograph>)";
"12515	0x5037	倷 (<CJK Ideograph>)";
"12516	0x502C	倬 (<CJK Ideograph>)";
"12517	0x4FF6	俶 (<CJK Ideograph>)";
"12518	0x4FF7	俷 (<CJK Ideograph>)";
"12519	0x5017	倗 (<CJK Ideograph>)";
"12520	0x501C	倜 (<CJK Ideograph>)";
"12521	0x5020	倠 (<CJK Ideograph>)";
"12522	0x5027	倧 (<CJK Ideograph>)";
"12523	0x5035	倵 (<CJK Ideograph>)";
"12524	0x502F	倯 (<CJK Ideograph>)";
"12525	0x5031	倱 (<CJK Ideograph>)";
"12526	0x500E	倎 (<CJK Ideograph>)";
"12527	0x515A	党 (<CJK Ideograph>)";
"12528	0x5194	冔 (<CJK Ideograph>)";
"12529	0x5193	冓 (<CJK Ideograph>)";
"12530	0x51CA	凊 (<CJK Ideograph>)";
"12531	0x51C4	凄 (<CJK Ideograph>)";
"12532	0x51C5	凅 (<CJK Ideograph>)";
"12533	0x51C8	凈 (<CJK Ideograph>)";
"12534	0x51CE	凎 (<CJK Ideograph>)";
"12535	0x5261	剡 (<CJK Ideograph>)";
"12536	0x525A	剚 (<CJK Ideograph>)";
"12537	0x5252	剒 (<CJK Ideograph>)";
"12538	0x525E	剞 (<CJK Ideograph>)";
"12539	0x525F	剟 (<CJK Ideograph>)";
"12540	0x5255	剕 (<CJK Ideograph>)";
"12541	0x5262	剢 (<CJK Ideograph>)";
"12542	0x52CD	勍 (<CJK Ideograph>)";
"12543	0x530E	匎 (<CJK Ideograph>)";
"12544	0x539E	厞 (<CJK Ideograph>)";
"12545	0x5526	唦 (<CJK Ideograph>)";
"12546	0x54E2	哢 (<CJK Ideograph>)";
"12547	0x5517	唗 (<CJK Ideograph>)";
"12548	0x5512	唒 (<CJK Ideograph>)";
"12549	0x54E7	哧 (<CJK Ideograph>)";
"12550	0x54F3	哳 (<CJK Ideograph>)";
"12551	0x54E4	哤 (<CJK Ideograph>)";
"12552	0x551A	唚 (<CJK Ideograph>)";
"12553	0x54FF	哿 (<CJK Ideograph>)";
"12554	0x5504	唄 (<CJK Ideograph>)";
"12555	0x5508	唈 (<CJK Ideograph>)";
"12556	0x54EB	哫 (<CJK Ideograph>)";
"12557	0x5511	唑 (<CJK Ideograph>)";
"12558	0x5505	唅 (<CJK Ideograph>)";
"12559	0x54F1	哱 (<CJK Ideograph>)";
"12560	0x550A	唊 (<CJK Ideograph>)";
"12561	0x54FB	哻 (<CJK Ideograph>)";
"12562	0x54F7	哷 (<CJK Ideograph>)";
"12563	0x54F8	哸 (<CJK Ideograph>)";
"12564	0x54E0	哠 (<CJK Ideograph>)";
"12565	0x550E	唎 (<CJK Ideograph>)";
"12566	0x5503	唃 (<CJK Ideograph>)";
"12567	0x550B	唋 (<CJK Ideograph>)";
"12568	0x5701	圁 (<CJK Ideograph>)";
"12569	0x5702	圂 (<CJK Ideograph>)";
"12570	0x57CC	埌 (<CJK Ideograph>)";
"12571	0x5832	堲 (<CJK Ideograph>)";
"12572	0x57D5	埕 (<CJK Ideograph>)";
"12573	0x57D2	埒 (<CJK Ideograph>)";
"12574	0x57BA	垺 (<CJK Ideograph>)";
"12575	0x57C6	埆 (<CJK Ideograph>)";
"12576	0x57BD	垽 (<CJK Ideograph>)";
"12577	0x57BC	垼 (<CJK Ideograph>)";
"12578	0x57B8	垸 (<CJK Ideograph>)";
"12579	0x57B6	垶 (<CJK Ideograph>)";
"12580	0x57BF	垿 (<CJK Ideograph>)";
"12581	0x57C7	埇 (<CJK Ideograph>)";
"12582	0x57D0	埐 (<CJK Ideograph>)";
"12583	0x57B9	垹 (<CJK Ideograph>)";
"12584	0x57C1	埁 (<CJK Ideograph>)";
"12585	0x590E	夎 (<CJK Ideograph>)";
"12586	0x594A	奊 (<CJK Ideograph>)";
"12587	0x5A19	娙 (<CJK Ideograph>)";
"12588	0x5A16	娖 (<CJK Ideograph>)";
"12589	0x5A2D	娭 (<CJK Ideograph>)";
"12590	0x5A2E	娮 (<CJK Ideograph>)";
"12591	0x5A15	娕 (<CJK Ideograph>)";
"12592	0x5A0F	娏 (<CJK Ideograph>)";
"12593	0x5A17	娗 (<CJK Ideograph>)";
"12594	0x5A0A	娊 (<CJK Ideograph>)";
"12595	0x5A1E	娞 (<CJK Ideograph>)";
"12596	0x5A33	娳 (<CJK Ideograph>)";
"12597	0x5B6C	孬 (<CJK Ideograph>)";
"12598	0x5BA7	宧 (<CJK Ideograph>)";
"12599	0x5BAD	宭 (<CJK Ideograph>)";
"12600	0x5BAC	宬 (<CJK Ideograph>)";
"12601	0x5C03	尃 (<CJK Ideograph>)";
"12602	0x5C56	屖 (<CJK Ideograph>)";
"12603	0x5C54	屔 (<CJK Ideograph>)";
"12604	0x5CEC	峬 (<CJK Ideograph>)";
"12605	0x5CFF	峿 (<CJK Ideograph>)";
"12606	0x5CEE	峮 (<CJK Ideograph>)";
"12607	0x5CF1	峱 (<CJK Ideograph>)";
"12608	0x5CF7	峷 (<CJK Ideograph>)";
"12609	0x5D00	崀 (<CJK Ideograph>)";
"12610	0x5CF9	峹 (<CJK Ideograph>)";
"12611	0x5E29	帩 (<CJK Ideograph>)";
"12612	0x5E28	帨 (<CJK Ideograph>)";
"12613	0x5EA8	庨 (<CJK Ideograph>)";
"12614	0x5EAE	庮 (<CJK Ideograph>)";
"12615	0x5EAA	庪 (<CJK Ideograph>)";
"12616	0x5EAC	庬 (<CJK Ideograph>)";
"12617	0x5F33	弳 (<CJK Ideograph>)";
"12618	0x5F30	弰 (<CJK Ideograph>)";
"12619	0x5F67	彧 (<CJK Ideograph>)";
"12620	0x605D	恝 (<CJK Ideograph>)";
"12621	0x605A	恚 (<CJK Ideograph>)";
"12622	0x6067	恧 (<CJK Ideograph>)";
"12623	0x6041	恁 (<CJK Ideograph>)";
"12624	0x60A2	悢 (<CJK Ideograph>)";
"12625	0x6088	悈 (<CJK Ideograph>)";
"12626	0x6080	悀 (<CJK Ideograph>)";
"12627	0x6092	悒 (<CJK Ideograph>)";
"12628	0x6081	悁 (<CJK Ideograph>)";
"12629	0x609D	悝 (<CJK Ideograph>)";
"12630	0x6083	悃 (<CJK Ideograph>)";
"12631	0x6095	悕 (<CJK Ideograph>)";
"12632	0x609B	悛 (<CJK Ideograph>)";
"12633	0x6097	悗 (<CJK Ideograph>)";
"12634	0x6087	悇 (<CJK Ideograph>)";
"12635	0x609C	悜 (<CJK Ideograph>)";
"12636	0x608E	悎 (<CJK Ideograph>)";
"12637	0x6219	戙 (<CJK Ideograph>)";
"12638	0x6246	扆 (<CJK Ideograph>)";
"12639	0x62F2	拲 (<CJK Ideograph>)";
"12640	0x6310	挐 (<CJK Ideograph>)";
"12641	0x6356	捖 (<CJK Ideograph>)";
"12642	0x632C	挬 (<CJK Ideograph>)";
"12643	0x6344	捄 (<CJK Ideograph>)";
"12644	0x6345	捅 (<CJK Ideograph>)";
"12645	0x6336	挶 (<CJK Ideograph>)";
"12646	0x6343	捃 (<CJK Ideograph>)";
"12647	0x63E4	揤 (<CJK Ideograph>)";
"12648	0x6339	挹 (<CJK Ideograph>)";
"12649	0x634B	捋 (<CJK Ideograph>)";
"12650	0x634A	捊 (<CJK Ideograph>)";
"12651	0x633C	挼 (<CJK Ideograph>)";
"12652	0x6329	挩 (<CJK Ideograph>)";
"12653	0x6341	捁 (<CJK Ideograph>)";
"12654	0x6334	挴 (<CJK Ideograph>)";
"12655	0x6358	捘 (<CJK Ideograph>)";
"12656	0x6354	捔 (<CJK Ideograph>)";
"12657	0x6359	捙 (<CJK Ideograph>)";
"12658	0x632D	挭 (<CJK Ideograph>)";
"12659	0x6347	捇 (<CJK Ideograph>)";
"12660	0x6333	挳 (<CJK Ideograph>)";
"12661	0x635A	捚 (<CJK Ideograph>)";
"12662	0x6351	捑 (<CJK Ideograph>)";
"12663	0x6338	挸 (<CJK Ideograph>)";
"12664	0x6357	捗 (<CJK Ideograph>)";
"12665	0x6340	捀 (<CJK Ideograph>)";
"12666	0x6348	捈 (<CJK Ideograph>)";
"12667	0x654A	敊 (<CJK Ideograph>)";
"12668	0x6546	敆 (<CJK Ideograph>)";
"12669	0x65C6	旆 (<CJK Ideograph>)";
"12670	0x65C3	旃 (<CJK Ideograph>)";
"12671	0x65C4	旄 (<CJK Ideograph>)";
"12672	0x65C2	旂 (<CJK Ideograph>)";
"12673	0x664A	晊 (<CJK Ideograph>)";
"12674	0x665F	晟 (<CJK Ideograph>)";
"12675	0x6647	晇 (<CJK Ideograph>)";
"12676	0x6651	晑 (<CJK Ideograph>)";
"12677	0x6712	朒 (<CJK Ideograph>)";
"12678	0x6713	朓 (<CJK Ideograph>)";
"12679	0x681F	栟 (<CJK Ideograph>)";
"12680	0x681A	栚 (<CJK Ideograph>)";
"12681	0x6849	桉 (<CJK Ideograph>)";
"12682	0x6832	栲 (<CJK Ideograph>)";
"12683	0x6833	栳 (<CJK Ideograph>)";
"12684	0x683B	栻 (<CJK Ideograph>)";
"12685	0x684B	桋 (<CJK Ideograph>)";
"12686	0x684F	桏 (<CJK Ideograph>)";
"12687	0x6816	栖 (<CJK Ideograph>)";
"12688	0x6831	栱 (<CJK Ideograph>)";
"12689	0x681C	栜 (<CJK Ideograph>)";
"12690	0x6835	栵 (<CJK Ideograph>)";
"12691	0x682B	栫 (<CJK Ideograph>)";
"12692	0x682D	栭 (<CJK Ideograph>)";
"12693	0x682F	栯 (<CJK Ideograph>)";
"12694	0x684E	桎 (<CJK Ideograph>)";
"12695	0x6844	桄 (<CJK Ideograph>)";
"12696	0x6834	栴 (<CJK Ideograph>)";
"12697	0x681D	栝 (<CJK Ideograph>)";
"12698	0x6812	栒 (<CJK Ideograph>)";
"12699	0x6814	栔 (<CJK Ideograph>)";
"12700	0x6826	栦 (<CJK Ideograph>)";
"12701	0x6828	栨 (<CJK Ideograph>)";
"12702	0x682E	栮 (<CJK Ideograph>)";
"12703	0x684D	桍 (<CJK Ideograph>)";
"12704	0x683A	栺 (<CJK Ideograph>)";
"12705	0x6825	栥 (<CJK Ideograph>)"
].
(* /repo/encoding_tables/whatwg/index-big5.txt:11521-11776 *)
Definition index_big5_txt_45 : list line := [
"12706	0x6820	栠 (<CJK Ideograph>)";
"12707	0x6B2C	欬 (<CJK Ideograph>)";
"12708	0x6B2F	欯 (<CJK Ideograph>)";
"12709	0x6B2D	欭 (<CJK Ideograph>)";
"12710	0x6B31	欱 (<CJK Ideograph>)";
"12711	0x6B34	欴 (<CJK Ideograph>)";
"12712	0x6B6D	歭 (<CJK Ideograph>)";
"12713	0x8082	肂 (<CJK Ideograph>)";
"12714	0x6B88	殈 (<CJK Ideograph>)";
"12715	0x6BE6	毦 (<CJK Ideograph>)";
"12716	0x6BE4	毤 (<CJK Ideograph>)";
"12717	0x6BE8	毨 (<CJK Ideograph>)";
"12718	0x6BE3	毣 (<CJK Ideograph>)";
"12719	0x6BE2	毢 (<CJK Ideograph>)";
"12720	0x6BE7	毧 (<CJK Ideograph>)";
"12721	0x6C25	氥 (<CJK Ideograph>)";
"12722	0x6D7A	浺 (<CJK Ideograph>)";
"12723	0x6D63	浣 (<CJK Ideograph>)";
"12724	0x6D64	浤 (<CJK Ideograph>)";
"12725	0x6D76	浶 (<CJK Ideograph>)";
"12726	0x6D0D	洍 (<CJK Ideograph>)";
"12727	0x6D61	浡 (<CJK Ideograph>)";
"12728	0x6D92	涒 (<CJK Ideograph>)";
"12729	0x6D58	浘 (<CJK Ideograph>)";
"12730	0x6D62	浢 (<CJK Ideograph>)";
"12731	0x6D6D	浭 (<CJK Ideograph>)";
"12732	0x6D6F	浯 (<CJK Ideograph>)";
"12733	0x6D91	涑 (<CJK Ideograph>)";
"12734	0x6D8D	涍 (<CJK Ideograph>)";
"12735	0x6DEF	淯 (<CJK Ideograph>)";
"12736	0x6D7F	浿 (<CJK Ideograph>)";
"12737	0x6D86	涆 (<CJK Ideograph>)";
"12738	0x6D5E	浞 (<CJK Ideograph>)";
"12739	0x6D67	浧 (<CJK Ideograph>)";
"12740	0x6D60	浠 (<CJK Ideograph>)";
"12741	0x6D97	涗 (<CJK Ideograph>)";
"12742	0x6D70	浰 (<CJK Ideograph>)";
"12743	0x6D7C	浼 (<CJK Ideograph>)";
"12744	0x6D5F	浟 (<CJK Ideograph>)";
"12745	0x6D82	涂 (<CJK Ideograph>)";
"12746	0x6D98	涘 (<CJK Ideograph>)";
"12747	0x6D2F	洯 (<CJK Ideograph>)";
"12748	0x6D68	浨 (<CJK Ideograph>)";
"12749	0x6D8B	涋 (<CJK Ideograph>)";
"12750	0x6D7E	浾 (<CJK Ideograph>)";
"12751	0x6D80	涀 (<CJK Ideograph>)";
"12752	0x6D84	涄 (<CJK Ideograph>)";
"12753	0x6D16	洖 (<CJK Ideograph>)";
"12754	0x6D83	涃 (<CJK Ideograph>)";
"12755	0x6D7B	浻 (<CJK Ideograph>)";
"12756	0x6D7D	浽 (<CJK Ideograph>)";
"12757	0x6D75	浵 (<CJK Ideograph>)";
"12758	0x6D90	涐 (<CJK Ideograph>)";
"12759	0x70DC	烜 (<CJK Ideograph>)";
"12760	0x70D3	烓 (<CJK Ideograph>)";
"12761	0x70D1	烑 (<CJK Ideograph>)";
"12762	0x70DD	烝 (<CJK Ideograph>)";
"12763	0x70CB	烋 (<CJK Ideograph>)";
"12764	0x7F39	缹 (<CJK Ideograph>)";
"12765	0x70E2	烢 (<CJK Ideograph>)";
"12766	0x70D7	烗 (<CJK Ideograph>)";
"12767	0x70D2	烒 (<CJK Ideograph>)";
"12768	0x70DE	烞 (<CJK Ideograph>)";
"12769	0x70E0	烠 (<CJK Ideograph>)";
"12770	0x70D4	烔 (<CJK Ideograph>)";
"12771	0x70CD	烍 (<CJK Ideograph>)";
"12772	0x70C5	烅 (<CJK Ideograph>)";
"12773	0x70C6	烆 (<CJK Ideograph>)";
"12774	0x70C7	烇 (<CJK Ideograph>)";
"12775	0x70DA	烚 (<CJK Ideograph>)";
"12776	0x70CE	烎 (<CJK Ideograph>)";
"12777	0x70E1	烡 (<CJK Ideograph>)";
"12778	0x7242	牂 (<CJK Ideograph>)";
"12779	0x7278	牸 (<CJK Ideograph>)";
"12780	0x7277	牷 (<CJK Ideograph>)";
"12781	0x7276	牶 (<CJK Ideograph>)";
"12782	0x7300	猀 (<CJK Ideograph>)";
"12783	0x72FA	狺 (<CJK Ideograph>)";
"12784	0x72F4	狴 (<CJK Ideograph>)";
"12785	0x72FE	狾 (<CJK Ideograph>)";
"12786	0x72F6	狶 (<CJK Ideograph>)";
"12787	0x72F3	狳 (<CJK Ideograph>)";
"12788	0x72FB	狻 (<CJK Ideograph>)";
"12789	0x7301	猁 (<CJK Ideograph>)";
"12790	0x73D3	珓 (<CJK Ideograph>)";
"12791	0x73D9	珙 (<CJK Ideograph>)";
"12792	0x73E5	珥 (<CJK Ideograph>)";
"12793	0x73D6	珖 (<CJK Ideograph>)";
"12794	0x73BC	玼 (<CJK Ideograph>)";
"12795	0x73E7	珧 (<CJK Ideograph>)";
"12796	0x73E3	珣 (<CJK Ideograph>)";
"12797	0x73E9	珩 (<CJK Ideograph>)";
"12798	0x73DC	珜 (<CJK Ideograph>)";
"12799	0x73D2	珒 (<CJK Ideograph>)";
"12800	0x73DB	珛 (<CJK Ideograph>)";
"12801	0x73D4	珔 (<CJK Ideograph>)";
"12802	0x73DD	珝 (<CJK Ideograph>)";
"12803	0x73DA	珚 (<CJK Ideograph>)";
"12804	0x73D7	珗 (<CJK Ideograph>)";
"12805	0x73D8	珘 (<CJK Ideograph>)";
"12806	0x73E8	珨 (<CJK Ideograph>)";
"12807	0x74DE	瓞 (<CJK Ideograph>)";
"12808	0x74DF	瓟 (<CJK Ideograph>)";
"12809	0x74F4	瓴 (<CJK Ideograph>)";
"12810	0x74F5	瓵 (<CJK Ideograph>)";
"12811	0x7521	甡 (<CJK Ideograph>)";
"12812	0x755B	畛 (<CJK Ideograph>)";
"12813	0x755F	畟 (<CJK Ideograph>)";
"12814	0x75B0	疰 (<CJK Ideograph>)";
"12815	0x75C1	痁 (<CJK Ideograph>)";
"12816	0x75BB	疻 (<CJK Ideograph>)";
"12817	0x75C4	痄 (<CJK Ideograph>)";
"12818	0x75C0	痀 (<CJK Ideograph>)";
"12819	0x75BF	疿 (<CJK Ideograph>)";
"12820	0x75B6	疶 (<CJK Ideograph>)";
"12821	0x75BA	疺 (<CJK Ideograph>)";
"12822	0x768A	皊 (<CJK Ideograph>)";
"12823	0x76C9	盉 (<CJK Ideograph>)";
"12824	0x771D	眝 (<CJK Ideograph>)";
"12825	0x771B	眛 (<CJK Ideograph>)";
"12826	0x7710	眐 (<CJK Ideograph>)";
"12827	0x7713	眓 (<CJK Ideograph>)";
"12828	0x7712	眒 (<CJK Ideograph>)";
"12829	0x7723	眣 (<CJK Ideograph>)";
"12830	0x7711	眑 (<CJK Ideograph>)";
"12831	0x7715	眕 (<CJK Ideograph>)";
"12832	0x7719	眙 (<CJK Ideograph>)";
"12833	0x771A	眚 (<CJK Ideograph>)";
"12834	0x7722	眢 (<CJK Ideograph>)";
"12835	0x7727	眧 (<CJK Ideograph>)";
"12836	0x7823	砣 (<CJK Ideograph>)";
"12837	0x782C	砬 (<CJK Ideograph>)";
"12838	0x7822	砢 (<CJK Ideograph>)";
"12839	0x7835	砵 (<CJK Ideograph>)";
"12840	0x782F	砯 (<CJK Ideograph>)";
"12841	0x7828	砨 (<CJK Ideograph>)";
"12842	0x782E	砮 (<CJK Ideograph>)";
"12843	0x782B	砫 (<CJK Ideograph>)";
"12844	0x7821	砡 (<CJK Ideograph>)";
"12845	0x7829	砩 (<CJK Ideograph>)";
"12846	0x7833	砳 (<CJK Ideograph>)";
"12847	0x782A	砪 (<CJK Ideograph>)";
"12848	0x7831	砱 (<CJK Ideograph>)";
"12849	0x7954	祔 (<CJK Ideograph>)";
"12850	0x795B	祛 (<CJK Ideograph>)";
"12851	0x794F	祏 (<CJK Ideograph>)";
"12852	0x795C	祜 (<CJK Ideograph>)";
"12853	0x7953	祓 (<CJK Ideograph>)";
"12854	0x7952	祒 (<CJK Ideograph>)";
"12855	0x7951	祑 (<CJK Ideograph>)";
"12856	0x79EB	秫 (<CJK Ideograph>)";
"12857	0x79EC	秬 (<CJK Ideograph>)";
"12858	0x79E0	秠 (<CJK Ideograph>)";
"12859	0x79EE	秮 (<CJK Ideograph>)";
"12860	0x79ED	秭 (<CJK Ideograph>)";
"12861	0x79EA	秪 (<CJK Ideograph>)";
"12862	0x79DC	秜 (<CJK Ideograph>)";
"12863	0x79DE	秞 (<CJK Ideograph>)";
"12864	0x79DD	秝 (<CJK Ideograph>)";
"12865	0x7A86	窆 (<CJK Ideograph>)";
"12866	0x7A89	窉 (<CJK Ideograph>)";
"12867	0x7A85	窅 (<CJK Ideograph>)";
"12868	0x7A8B	窋 (<CJK Ideograph>)";
"12869	0x7A8C	窌 (<CJK Ideograph>)";
"12870	0x7A8A	窊 (<CJK Ideograph>)";
"12871	0x7A87	窇 (<CJK Ideograph>)";
"12872	0x7AD8	竘 (<CJK Ideograph>)";
"12873	0x7B10	笐 (<CJK Ideograph>)";
"12874	0x7B04	笄 (<CJK Ideograph>)";
"12875	0x7B13	笓 (<CJK Ideograph>)";
"12876	0x7B05	笅 (<CJK Ideograph>)";
"12877	0x7B0F	笏 (<CJK Ideograph>)";
"12878	0x7B08	笈 (<CJK Ideograph>)";
"12879	0x7B0A	笊 (<CJK Ideograph>)";
"12880	0x7B0E	笎 (<CJK Ideograph>)";
"12881	0x7B09	笉 (<CJK Ideograph>)";
"12882	0x7B12	笒 (<CJK Ideograph>)";
"12883	0x7C84	粄 (<CJK Ideograph>)";
"12884	0x7C91	粑 (<CJK Ideograph>)";
"12885	0x7C8A	粊 (<CJK Ideograph>)";
"12886	0x7C8C	粌 (<CJK Ideograph>)";
"12887	0x7C88	粈 (<CJK Ideograph>)";
"12888	0x7C8D	粍 (<CJK Ideograph>)";
"12889	0x7C85	粅 (<CJK Ideograph>)";
"12890	0x7D1E	紞 (<CJK Ideograph>)";
"12891	0x7D1D	紝 (<CJK Ideograph>)";
"12892	0x7D11	紑 (<CJK Ideograph>)";
"12893	0x7D0E	紎 (<CJK Ideograph>)";
"12894	0x7D18	紘 (<CJK Ideograph>)";
"12895	0x7D16	紖 (<CJK Ideograph>)";
"12896	0x7D13	紓 (<CJK Ideograph>)";
"12897	0x7D1F	紟 (<CJK Ideograph>)";
"12898	0x7D12	紒 (<CJK Ideograph>)";
"12899	0x7D0F	紏 (<CJK Ideograph>)";
"12900	0x7D0C	紌 (<CJK Ideograph>)";
"12901	0x7F5C	罜 (<CJK Ideograph>)";
"12902	0x7F61	罡 (<CJK Ideograph>)";
"12903	0x7F5E	罞 (<CJK Ideograph>)";
"12904	0x7F60	罠 (<CJK Ideograph>)";
"12905	0x7F5D	罝 (<CJK Ideograph>)";
"12906	0x7F5B	罛 (<CJK Ideograph>)";
"12907	0x7F96	羖 (<CJK Ideograph>)";
"12908	0x7F92	羒 (<CJK Ideograph>)";
"12909	0x7FC3	翃 (<CJK Ideograph>)";
"12910	0x7FC2	翂 (<CJK Ideograph>)";
"12911	0x7FC0	翀 (<CJK Ideograph>)";
"12912	0x8016	耖 (<CJK Ideograph>)";
"12913	0x803E	耾 (<CJK Ideograph>)";
"12914	0x8039	耹 (<CJK Ideograph>)";
"12915	0x80FA	胺 (<CJK Ideograph>)";
"12916	0x80F2	胲 (<CJK Ideograph>)";
"12917	0x80F9	胹 (<CJK Ideograph>)";
"12918	0x80F5	胵 (<CJK Ideograph>)";
"12919	0x8101	脁 (<CJK Ideograph>)";
"12920	0x80FB	胻 (<CJK Ideograph>)";
"12921	0x8100	脀 (<CJK Ideograph>)";
"12922	0x8201	舁 (<CJK Ideograph>)";
"12923	0x822F	舯 (<CJK Ideograph>)";
"12924	0x8225	舥 (<CJK Ideograph>)";
"12925	0x8333	茳 (<CJK Ideograph>)";
"12926	0x832D	茭 (<CJK Ideograph>)";
"12927	0x8344	荄 (<CJK Ideograph>)";
"12928	0x8319	茙 (<CJK Ideograph>)";
"12929	0x8351	荑 (<CJK Ideograph>)";
"12930	0x8325	茥 (<CJK Ideograph>)";
"12931	0x8356	荖 (<CJK Ideograph>)";
"12932	0x833F	茿 (<CJK Ideograph>)";
"12933	0x8341	荁 (<CJK Ideograph>)";
"12934	0x8326	茦 (<CJK Ideograph>)";
"12935	0x831C	茜 (<CJK Ideograph>)";
"12936	0x8322	茢 (<CJK Ideograph>)";
"12937	0x8342	荂 (<CJK Ideograph>)";
"12938	0x834E	荎 (<CJK Ideograph>)";
"12939	0x831B	茛 (<CJK Ideograph>)";
"12940	0x832A	茪 (<CJK Ideograph>)";
"12941	0x8308	茈 (<CJK Ideograph>)";
"12942	0x833C	茼 (<CJK Ideograph>)";
"12943	0x834D	荍 (<CJK Ideograph>)";
"12944	0x8316	茖 (<CJK Ideograph>)";
"12945	0x8324	茤 (<CJK Ideograph>)";
"12946	0x8320	茠 (<CJK Ideograph>)";
"12947	0x8337	茷 (<CJK Ideograph>)";
"12948	0x832F	茯 (<CJK Ideograph>)";
"12949	0x8329	茩 (<CJK Ideograph>)";
"12950	0x8347	荇 (<CJK Ideograph>)";
"12951	0x8345	荅 (<CJK Ideograph>)";
"12952	0x834C	荌 (<CJK Ideograph>)";
"12953	0x8353	荓 (<CJK Ideograph>)";
"12954	0x831E	茞 (<CJK Ideograph>)";
"12955	0x832C	茬 (<CJK Ideograph>)";
"12956	0x834B	荋 (<CJK Ideograph>)";
"12957	0x8327	茧 (<CJK Ideograph>)";
"12958	0x8348	荈 (<CJK Ideograph>)";
"12959	0x8653	虓 (<CJK Ideograph>)";
"12960	0x8652	虒 (<CJK Ideograph>)";
"12961	0x86A2	蚢 (<CJK Ideograph>)"
].
(* /repo/encoding_tables/whatwg/index-big5.txt:11777-12032 *)
Definition index_big5_txt_46 : list line := [
"12962	0x86A8	蚨 (<CJK Ideograph>)";
"12963	0x8696	蚖 (<CJK Ideograph>)";
"12964	0x868D	蚍 (<CJK Ideograph>)";
"12965	0x8691	蚑 (<CJK Ideograph>)";
"12966	0x869E	蚞 (<CJK Ideograph>)";
"12967	0x8687	蚇 (<CJK Ideograph>)";
"12968	0x8697	蚗 (<CJK Ideograph>)";
"12969	0x8686	蚆 (<CJK Ideograph>)";
"12970	0x868B	蚋 (<CJK Ideograph>)";
"12971	0x869A	蚚 (<CJK Ideograph>)";
"12972	0x8685	蚅 (<CJK Ideograph>)";
"12973	0x86A5	蚥 (<CJK Ideograph>)";
"12974	0x8699	蚙 (<CJK Ideograph>)";
"12975	0x86A1	蚡 (<CJK Ideograph>)";
"12976	0x86A7	蚧 (<CJK Ideograph>)";
"12977	0x8695	蚕 (<CJK Ideograph>)";
"12978	0x8698	蚘 (<CJK Ideograph>)";
"12979	0x868E	蚎 (<CJK Ideograph>)";
"12980	0x869D	蚝 (<CJK Ideograph>)";
"12981	0x8690	蚐 (<CJK Ideograph>)";
"12982	0x8694	蚔 (<CJK Ideograph>)";
"12983	0x8843	衃 (<CJK Ideograph>)";
"12984	0x8844	衄 (<CJK Ideograph>)";
"12985	0x886D	衭 (<CJK Ideograph>)";
"12986	0x8875	衵 (<CJK Ideograph>)";
"12987	0x8876	衶 (<CJK Ideograph>)";
"12988	0x8872	衲 (<CJK Ideograph>)";
"12989	0x8880	袀 (<CJK Ideograph>)";
"12990	0x8871	衱 (<CJK Ideograph>)";
"12991	0x887F	衿 (<CJK Ideograph>)";
"12992	0x886F	衯 (<CJK Ideograph>)";
"12993	0x8883	袃 (<CJK Ideograph>)";
"12994	0x887E	衾 (<CJK Ideograph>)";
"12995	0x8874	衴 (<CJK Ideograph>)";
"12996	0x887C	衼 (<CJK Ideograph>)";
"12997	0x8A12	訒 (<CJK Ideograph>)";
"12998	0x8C47	豇 (<CJK Ideograph>)";
"12999	0x8C57	豗 (<CJK Ideograph>)";
"13000	0x8C7B	豻 (<CJK Ideograph>)";
"13001	0x8CA4	貤 (<CJK Ideograph>)";
"13002	0x8CA3	貣 (<CJK Ideograph>)";
"13003	0x8D76	赶 (<CJK Ideograph>)";
"13004	0x8D78	赸 (<CJK Ideograph>)";
"13005	0x8DB5	趵 (<CJK Ideograph>)";
"13006	0x8DB7	趷 (<CJK Ideograph>)";
"13007	0x8DB6	趶 (<CJK Ideograph>)";
"13008	0x8ED1	軑 (<CJK Ideograph>)";
"13009	0x8ED3	軓 (<CJK Ideograph>)";
"13010	0x8FFE	迾 (<CJK Ideograph>)";
"13011	0x8FF5	迵 (<CJK Ideograph>)";
"13012	0x9002	适 (<CJK Ideograph>)";
"13013	0x8FFF	迿 (<CJK Ideograph>)";
"13014	0x8FFB	迻 (<CJK Ideograph>)";
"13015	0x9004	逄 (<CJK Ideograph>)";
"13016	0x8FFC	迼 (<CJK Ideograph>)";
"13017	0x8FF6	迶 (<CJK Ideograph>)";
"13018	0x90D6	郖 (<CJK Ideograph>)";
"13019	0x90E0	郠 (<CJK Ideograph>)";
"13020	0x90D9	郙 (<CJK Ideograph>)";
"13021	0x90DA	郚 (<CJK Ideograph>)";
"13022	0x90E3	郣 (<CJK Ideograph>)";
"13023	0x90DF	郟 (<CJK Ideograph>)";
"13024	0x90E5	郥 (<CJK Ideograph>)";
"13025	0x90D8	郘 (<CJK Ideograph>)";
"13026	0x90DB	郛 (<CJK Ideograph>)";
"13027	0x90D7	郗 (<CJK Ideograph>)";
"13028	0x90DC	郜 (<CJK Ideograph>)";
"13029	0x90E4	郤 (<CJK Ideograph>)";
"13030	0x9150	酐 (<CJK Ideograph>)";
"13031	0x914E	酎 (<CJK Ideograph>)";
"13032	0x914F	酏 (<CJK Ideograph>)";
"13033	0x91D5	釕 (<CJK Ideograph>)";
"13034	0x91E2	釢 (<CJK Ideograph>)";
"13035	0x91DA	釚 (<CJK Ideograph>)";
"13036	0x965C	陜 (<CJK Ideograph>)";
"13037	0x965F	陟 (<CJK Ideograph>)";
"13038	0x96BC	隼 (<CJK Ideograph>)";
"13039	0x98E3	飣 (<CJK Ideograph>)";
"13040	0x9ADF	髟 (<CJK Ideograph>)";
"13041	0x9B2F	鬯 (<CJK Ideograph>)";
"13042	0x4E7F	乿 (<CJK Ideograph>)";
"13043	0x5070	偰 (<CJK Ideograph>)";
"13044	0x506A	偪 (<CJK Ideograph>)";
"13045	0x5061	偡 (<CJK Ideograph>)";
"13046	0x505E	偞 (<CJK Ideograph>)";
"13047	0x5060	偠 (<CJK Ideograph>)";
"13048	0x5053	偓 (<CJK Ideograph>)";
"13049	0x504B	偋 (<CJK Ideograph>)";
"13050	0x505D	偝 (<CJK Ideograph>)";
"13051	0x5072	偲 (<CJK Ideograph>)";
"13052	0x5048	偈 (<CJK Ideograph>)";
"13053	0x504D	偍 (<CJK Ideograph>)";
"13054	0x5041	偁 (<CJK Ideograph>)";
"13055	0x505B	偛 (<CJK Ideograph>)";
"13056	0x504A	偊 (<CJK Ideograph>)";
"13057	0x5062	偢 (<CJK Ideograph>)";
"13058	0x5015	倕 (<CJK Ideograph>)";
"13059	0x5045	偅 (<CJK Ideograph>)";
"13060	0x505F	偟 (<CJK Ideograph>)";
"13061	0x5069	偩 (<CJK Ideograph>)";
"13062	0x506B	偫 (<CJK Ideograph>)";
"13063	0x5063	偣 (<CJK Ideograph>)";
"13064	0x5064	偤 (<CJK Ideograph>)";
"13065	0x5046	偆 (<CJK Ideograph>)";
"13066	0x5040	偀 (<CJK Ideograph>)";
"13067	0x506E	偮 (<CJK Ideograph>)";
"13068	0x5073	偳 (<CJK Ideograph>)";
"13069	0x5057	偗 (<CJK Ideograph>)";
"13070	0x5051	偑 (<CJK Ideograph>)";
"13071	0x51D0	凐 (<CJK Ideograph>)";
"13072	0x526B	剫 (<CJK Ideograph>)";
"13073	0x526D	剭 (<CJK Ideograph>)";
"13074	0x526C	剬 (<CJK Ideograph>)";
"13075	0x526E	剮 (<CJK Ideograph>)";
"13076	0x52D6	勖 (<CJK Ideograph>)";
"13077	0x52D3	勓 (<CJK Ideograph>)";
"13078	0x532D	匭 (<CJK Ideograph>)";
"13079	0x539C	厜 (<CJK Ideograph>)";
"13080	0x5575	啵 (<CJK Ideograph>)";
"13081	0x5576	啶 (<CJK Ideograph>)";
"13082	0x553C	唼 (<CJK Ideograph>)";
"13083	0x554D	啍 (<CJK Ideograph>)";
"13084	0x5550	啐 (<CJK Ideograph>)";
"13085	0x5534	唴 (<CJK Ideograph>)";
"13086	0x552A	唪 (<CJK Ideograph>)";
"13087	0x5551	啑 (<CJK Ideograph>)";
"13088	0x5562	啢 (<CJK Ideograph>)";
"13089	0x5536	唶 (<CJK Ideograph>)";
"13090	0x5535	唵 (<CJK Ideograph>)";
"13091	0x5530	唰 (<CJK Ideograph>)";
"13092	0x5552	啒 (<CJK Ideograph>)";
"13093	0x5545	啅 (<CJK Ideograph>)";
"13094	0x550C	唌 (<CJK Ideograph>)";
"13095	0x5532	唲 (<CJK Ideograph>)";
"13096	0x5565	啥 (<CJK Ideograph>)";
"13097	0x554E	啎 (<CJK Ideograph>)";
"13098	0x5539	唹 (<CJK Ideograph>)";
"13099	0x5548	啈 (<CJK Ideograph>)";
"13100	0x552D	唭 (<CJK Ideograph>)";
"13101	0x553B	唻 (<CJK Ideograph>)";
"13102	0x5540	啀 (<CJK Ideograph>)";
"13103	0x554B	啋 (<CJK Ideograph>)";
"13104	0x570A	圊 (<CJK Ideograph>)";
"13105	0x5707	圇 (<CJK Ideograph>)";
"13106	0x57FB	埻 (<CJK Ideograph>)";
"13107	0x5814	堔 (<CJK Ideograph>)";
"13108	0x57E2	埢 (<CJK Ideograph>)";
"13109	0x57F6	埶 (<CJK Ideograph>)";
"13110	0x57DC	埜 (<CJK Ideograph>)";
"13111	0x57F4	埴 (<CJK Ideograph>)";
"13112	0x5800	堀 (<CJK Ideograph>)";
"13113	0x57ED	埭 (<CJK Ideograph>)";
"13114	0x57FD	埽 (<CJK Ideograph>)";
"13115	0x5808	堈 (<CJK Ideograph>)";
"13116	0x57F8	埸 (<CJK Ideograph>)";
"13117	0x580B	堋 (<CJK Ideograph>)";
"13118	0x57F3	埳 (<CJK Ideograph>)";
"13119	0x57CF	埏 (<CJK Ideograph>)";
"13120	0x5807	堇 (<CJK Ideograph>)";
"13121	0x57EE	埮 (<CJK Ideograph>)";
"13122	0x57E3	埣 (<CJK Ideograph>)";
"13123	0x57F2	埲 (<CJK Ideograph>)";
"13124	0x57E5	埥 (<CJK Ideograph>)";
"13125	0x57EC	埬 (<CJK Ideograph>)";
"13126	0x57E1	埡 (<CJK Ideograph>)";
"13127	0x580E	堎 (<CJK Ideograph>)";
"13128	0x57FC	埼 (<CJK Ideograph>)";
"13129	0x5810	堐 (<CJK Ideograph>)";
"13130	0x57E7	埧 (<CJK Ideograph>)";
"13131	0x5801	堁 (<CJK Ideograph>)";
"13132	0x580C	堌 (<CJK Ideograph>)";
"13133	0x57F1	埱 (<CJK Ideograph>)";
"13134	0x57E9	埩 (<CJK Ideograph>)";
"13135	0x57F0	埰 (<CJK Ideograph>)";
"13136	0x580D	堍 (<CJK Ideograph>)";
"13137	0x5804	堄 (<CJK Ideograph>)";
"13138	0x595C	奜 (<CJK Ideograph>)";
"13139	0x5A60	婠 (<CJK Ideograph>)";
"13140	0x5A58	婘 (<CJK Ideograph>)";
"13141	0x5A55	婕 (<CJK Ideograph>)";
"13142	0x5A67	婧 (<CJK Ideograph>)";
"13143	0x5A5E	婞 (<CJK Ideograph>)";
"13144	0x5A38	娸 (<CJK Ideograph>)";
"13145	0x5A35	娵 (<CJK Ideograph>)";
"13146	0x5A6D	婭 (<CJK Ideograph>)";
"13147	0x5A50	婐 (<CJK Ideograph>)";
"13148	0x5A5F	婟 (<CJK Ideograph>)";
"13149	0x5A65	婥 (<CJK Ideograph>)";
"13150	0x5A6C	婬 (<CJK Ideograph>)";
"13151	0x5A53	婓 (<CJK Ideograph>)";
"13152	0x5A64	婤 (<CJK Ideograph>)";
"13153	0x5A57	婗 (<CJK Ideograph>)";
"13154	0x5A43	婃 (<CJK Ideograph>)";
"13155	0x5A5D	婝 (<CJK Ideograph>)";
"13156	0x5A52	婒 (<CJK Ideograph>)";
"13157	0x5A44	婄 (<CJK Ideograph>)";
"13158	0x5A5B	婛 (<CJK Ideograph>)";
"13159	0x5A48	婈 (<CJK Ideograph>)";
"13160	0x5A8E	媎 (<CJK Ideograph>)";
"13161	0x5A3E	娾 (<CJK Ideograph>)";
"13162	0x5A4D	婍 (<CJK Ideograph>)";
"13163	0x5A39	娹 (<CJK Ideograph>)";
"13164	0x5A4C	婌 (<CJK Ideograph>)";
"13165	0x5A70	婰 (<CJK Ideograph>)";
"13166	0x5A69	婩 (<CJK Ideograph>)";
"13167	0x5A47	婇 (<CJK Ideograph>)";
"13168	0x5A51	婑 (<CJK Ideograph>)";
"13169	0x5A56	婖 (<CJK Ideograph>)";
"13170	0x5A42	婂 (<CJK Ideograph>)";
"13171	0x5A5C	婜 (<CJK Ideograph>)";
"13172	0x5B72	孲 (<CJK Ideograph>)";
"13173	0x5B6E	孮 (<CJK Ideograph>)";
"13174	0x5BC1	寁 (<CJK Ideograph>)";
"13175	0x5BC0	寀 (<CJK Ideograph>)";
"13176	0x5C59	屙 (<CJK Ideograph>)";
"13177	0x5D1E	崞 (<CJK Ideograph>)";
"13178	0x5D0B	崋 (<CJK Ideograph>)";
"13179	0x5D1D	崝 (<CJK Ideograph>)";
"13180	0x5D1A	崚 (<CJK Ideograph>)";
"13181	0x5D20	崠 (<CJK Ideograph>)";
"13182	0x5D0C	崌 (<CJK Ideograph>)";
"13183	0x5D28	崨 (<CJK Ideograph>)";
"13184	0x5D0D	崍 (<CJK Ideograph>)";
"13185	0x5D26	崦 (<CJK Ideograph>)";
"13186	0x5D25	崥 (<CJK Ideograph>)";
"13187	0x5D0F	崏 (<CJK Ideograph>)";
"13188	0x5D30	崰 (<CJK Ideograph>)";
"13189	0x5D12	崒 (<CJK Ideograph>)";
"13190	0x5D23	崣 (<CJK Ideograph>)";
"13191	0x5D1F	崟 (<CJK Ideograph>)";
"13192	0x5D2E	崮 (<CJK Ideograph>)";
"13193	0x5E3E	帾 (<CJK Ideograph>)";
"13194	0x5E34	帴 (<CJK Ideograph>)";
"13195	0x5EB1	庱 (<CJK Ideograph>)";
"13196	0x5EB4	庴 (<CJK Ideograph>)";
"13197	0x5EB9	庹 (<CJK Ideograph>)";
"13198	0x5EB2	庲 (<CJK Ideograph>)";
"13199	0x5EB3	庳 (<CJK Ideograph>)";
"13200	0x5F36	弶 (<CJK Ideograph>)";
"13201	0x5F38	弸 (<CJK Ideograph>)";
"13202	0x5F9B	徛 (<CJK Ideograph>)";
"13203	0x5F96	徖 (<CJK Ideograph>)";
"13204	0x5F9F	徟 (<CJK Ideograph>)";
"13205	0x608A	悊 (<CJK Ideograph>)";
"13206	0x6090	悐 (<CJK Ideograph>)";
"13207	0x6086	悆 (<CJK Ideograph>)";
"13208	0x60BE	悾 (<CJK Ideograph>)";
"13209	0x60B0	悰 (<CJK Ideograph>)";
"13210	0x60BA	悺 (<CJK Ideograph>)";
"13211	0x60D3	惓 (<CJK Ideograph>)";
"13212	0x60D4	惔 (<CJK Ideograph>)";
"13213	0x60CF	惏 (<CJK Ideograph>)";
"13214	0x60E4	惤 (<CJK Ideograph>)";
"13215	0x60D9	惙 (<CJK Ideograph>)";
"13216	0x60DD	惝 (<CJK Ideograph>)";
"13217	0x60C8	惈 (<CJK Ideograph>)"
].
(* /repo/encoding_tables/whatwg/index-big5.txt:12033-12288 *)
Definition index_big5_txt_47 : list line := [
"13218	0x60B1	悱 (<CJK Ideograph>)";
"13219	0x60DB	惛 (<CJK Ideograph>)";
"13220	0x60B7	悷 (<CJK Ideograph>)";
"13221	0x60CA	惊 (<CJK Ideograph>)";
"13222	0x60BF	悿 (<CJK Ideograph>)";
"13223	0x60C3	惃 (<CJK Ideograph>)";
"13224	0x60CD	惍 (<CJK Ideograph>)";
"13225	0x60C0	惀 (<CJK Ideograph>)";
"13226	0x6332	挲 (<CJK Ideograph>)";
"13227	0x6365	捥 (<CJK Ideograph>)";
"13228	0x638A	掊 (<CJK Ideograph>)";
"13229	0x6382	掂 (<CJK Ideograph>)";
"13230	0x637D	捽 (<CJK Ideograph>)";
"13231	0x63BD	掽 (<CJK Ideograph>)";
"13232	0x639E	掞 (<CJK Ideograph>)";
"13233	0x63AD	掭 (<CJK Ideograph>)";
"13234	0x639D	掝 (<CJK Ideograph>)";
"13235	0x6397	掗 (<CJK Ideograph>)";
"13236	0x63AB	掫 (<CJK Ideograph>)";
"13237	0x638E	掎 (<CJK Ideograph>)";
"13238	0x636F	捯 (<CJK Ideograph>)";
"13239	0x6387	掇 (<CJK Ideograph>)";
"13240	0x6390	掐 (<CJK Ideograph>)";
"13241	0x636E	据 (<CJK Ideograph>)";
"13242	0x63AF	掯 (<CJK Ideograph>)";
"13243	0x6375	捵 (<CJK Ideograph>)";
"13244	0x639C	掜 (<CJK Ideograph>)";
"13245	0x636D	捭 (<CJK Ideograph>)";
"13246	0x63AE	掮 (<CJK Ideograph>)";
"13247	0x637C	捼 (<CJK Ideograph>)";
"13248	0x63A4	掤 (<CJK Ideograph>)";
"13249	0x633B	挻 (<CJK Ideograph>)";
"13250	0x639F	掟 (<CJK Ideograph>)";
"13251	0x6378	捸 (<CJK Ideograph>)";
"13252	0x6385	掅 (<CJK Ideograph>)";
"13253	0x6381	掁 (<CJK Ideograph>)";
"13254	0x6391	掑 (<CJK Ideograph>)";
"13255	0x638D	掍 (<CJK Ideograph>)";
"13256	0x6370	捰 (<CJK Ideograph>)";
"13257	0x6553	敓 (<CJK Ideograph>)";
"13258	0x65CD	旍 (<CJK Ideograph>)";
"13259	0x6665	晥 (<CJK Ideograph>)";
"13260	0x6661	晡 (<CJK Ideograph>)";
"13261	0x665B	晛 (<CJK Ideograph>)";
"13262	0x6659	晙 (<CJK Ideograph>)";
"13263	0x665C	晜 (<CJK Ideograph>)";
"13264	0x6662	晢 (<CJK Ideograph>)";
"13265	0x6718	朘 (<CJK Ideograph>)";
"13266	0x6879	桹 (<CJK Ideograph>)";
"13267	0x6887	梇 (<CJK Ideograph>)";
"13268	0x6890	梐 (<CJK Ideograph>)";
"13269	0x689C	梜 (<CJK Ideograph>)";
"13270	0x686D	桭 (<CJK Ideograph>)";
"13271	0x686E	桮 (<CJK Ideograph>)";
"13272	0x68AE	梮 (<CJK Ideograph>)";
"13273	0x68AB	梫 (<CJK Ideograph>)";
"13274	0x6956	楖 (<CJK Ideograph>)";
"13275	0x686F	桯 (<CJK Ideograph>)";
"13276	0x68A3	梣 (<CJK Ideograph>)";
"13277	0x68AC	梬 (<CJK Ideograph>)";
"13278	0x68A9	梩 (<CJK Ideograph>)";
"13279	0x6875	桵 (<CJK Ideograph>)";
"13280	0x6874	桴 (<CJK Ideograph>)";
"13281	0x68B2	梲 (<CJK Ideograph>)";
"13282	0x688F	梏 (<CJK Ideograph>)";
"13283	0x6877	桷 (<CJK Ideograph>)";
"13284	0x6892	梒 (<CJK Ideograph>)";
"13285	0x687C	桼 (<CJK Ideograph>)";
"13286	0x686B	桫 (<CJK Ideograph>)";
"13287	0x6872	桲 (<CJK Ideograph>)";
"13288	0x68AA	梪 (<CJK Ideograph>)";
"13289	0x6880	梀 (<CJK Ideograph>)";
"13290	0x6871	桱 (<CJK Ideograph>)";
"13291	0x687E	桾 (<CJK Ideograph>)";
"13292	0x689B	梛 (<CJK Ideograph>)";
"13293	0x6896	梖 (<CJK Ideograph>)";
"13294	0x688B	梋 (<CJK Ideograph>)";
"13295	0x68A0	梠 (<CJK Ideograph>)";
"13296	0x6889	梉 (<CJK Ideograph>)";
"13297	0x68A4	梤 (<CJK Ideograph>)";
"13298	0x6878	桸 (<CJK Ideograph>)";
"13299	0x687B	桻 (<CJK Ideograph>)";
"13300	0x6891	梑 (<CJK Ideograph>)";
"13301	0x688C	梌 (<CJK Ideograph>)";
"13302	0x688A	梊 (<CJK Ideograph>)";
"13303	0x687D	桽 (<CJK Ideograph>)";
"13304	0x6B36	欶 (<CJK Ideograph>)";
"13305	0x6B33	欳 (<CJK Ideograph>)";
"13306	0x6B37	欷 (<CJK Ideograph>)";
"13307	0x6B38	欸 (<CJK Ideograph>)";
"13308	0x6B91	殑 (<CJK Ideograph>)";
"13309	0x6B8F	殏 (<CJK Ideograph>)";
"13310	0x6B8D	殍 (<CJK Ideograph>)";
"13311	0x6B8E	殎 (<CJK Ideograph>)";
"13312	0x6B8C	殌 (<CJK Ideograph>)";
"13313	0x6C2A	氪 (<CJK Ideograph>)";
"13314	0x6DC0	淀 (<CJK Ideograph>)";
"13315	0x6DAB	涫 (<CJK Ideograph>)";
"13316	0x6DB4	涴 (<CJK Ideograph>)";
"13317	0x6DB3	涳 (<CJK Ideograph>)";
"13318	0x6E74	湴 (<CJK Ideograph>)";
"13319	0x6DAC	涬 (<CJK Ideograph>)";
"13320	0x6DE9	淩 (<CJK Ideograph>)";
"13321	0x6DE2	淢 (<CJK Ideograph>)";
"13322	0x6DB7	涷 (<CJK Ideograph>)";
"13323	0x6DF6	淶 (<CJK Ideograph>)";
"13324	0x6DD4	淔 (<CJK Ideograph>)";
"13325	0x6E00	渀 (<CJK Ideograph>)";
"13326	0x6DC8	淈 (<CJK Ideograph>)";
"13327	0x6DE0	淠 (<CJK Ideograph>)";
"13328	0x6DDF	淟 (<CJK Ideograph>)";
"13329	0x6DD6	淖 (<CJK Ideograph>)";
"13330	0x6DBE	涾 (<CJK Ideograph>)";
"13331	0x6DE5	淥 (<CJK Ideograph>)";
"13332	0x6DDC	淜 (<CJK Ideograph>)";
"13333	0x6DDD	淝 (<CJK Ideograph>)";
"13334	0x6DDB	淛 (<CJK Ideograph>)";
"13335	0x6DF4	淴 (<CJK Ideograph>)";
"13336	0x6DCA	淊 (<CJK Ideograph>)";
"13337	0x6DBD	涽 (<CJK Ideograph>)";
"13338	0x6DED	淭 (<CJK Ideograph>)";
"13339	0x6DF0	淰 (<CJK Ideograph>)";
"13340	0x6DBA	涺 (<CJK Ideograph>)";
"13341	0x6DD5	淕 (<CJK Ideograph>)";
"13342	0x6DC2	淂 (<CJK Ideograph>)";
"13343	0x6DCF	淏 (<CJK Ideograph>)";
"13344	0x6DC9	淉 (<CJK Ideograph>)";
"13345	0x6DD0	淐 (<CJK Ideograph>)";
"13346	0x6DF2	淲 (<CJK Ideograph>)";
"13347	0x6DD3	淓 (<CJK Ideograph>)";
"13348	0x6DFD	淽 (<CJK Ideograph>)";
"13349	0x6DD7	淗 (<CJK Ideograph>)";
"13350	0x6DCD	淍 (<CJK Ideograph>)";
"13351	0x6DE3	淣 (<CJK Ideograph>)";
"13352	0x6DBB	涻 (<CJK Ideograph>)";
"13353	0x70FA	烺 (<CJK Ideograph>)";
"13354	0x710D	焍 (<CJK Ideograph>)";
"13355	0x70F7	烷 (<CJK Ideograph>)";
"13356	0x7117	焗 (<CJK Ideograph>)";
"13357	0x70F4	烴 (<CJK Ideograph>)";
"13358	0x710C	焌 (<CJK Ideograph>)";
"13359	0x70F0	烰 (<CJK Ideograph>)";
"13360	0x7104	焄 (<CJK Ideograph>)";
"13361	0x70F3	烳 (<CJK Ideograph>)";
"13362	0x7110	焐 (<CJK Ideograph>)";
"13363	0x70FC	烼 (<CJK Ideograph>)";
"13364	0x70FF	烿 (<CJK Ideograph>)";
"13365	0x7106	焆 (<CJK Ideograph>)";
"13366	0x7113	焓 (<CJK Ideograph>)";
"13367	0x7100	焀 (<CJK Ideograph>)";
"13368	0x70F8	烸 (<CJK Ideograph>)";
"13369	0x70F6	烶 (<CJK Ideograph>)";
"13370	0x710B	焋 (<CJK Ideograph>)";
"13371	0x7102	焂 (<CJK Ideograph>)";
"13372	0x710E	焎 (<CJK Ideograph>)";
"13373	0x727E	牾 (<CJK Ideograph>)";
"13374	0x727B	牻 (<CJK Ideograph>)";
"13375	0x727C	牼 (<CJK Ideograph>)";
"13376	0x727F	牿 (<CJK Ideograph>)";
"13377	0x731D	猝 (<CJK Ideograph>)";
"13378	0x7317	猗 (<CJK Ideograph>)";
"13379	0x7307	猇 (<CJK Ideograph>)";
"13380	0x7311	猑 (<CJK Ideograph>)";
"13381	0x7318	猘 (<CJK Ideograph>)";
"13382	0x730A	猊 (<CJK Ideograph>)";
"13383	0x7308	猈 (<CJK Ideograph>)";
"13384	0x72FF	狿 (<CJK Ideograph>)";
"13385	0x730F	猏 (<CJK Ideograph>)";
"13386	0x731E	猞 (<CJK Ideograph>)";
"13387	0x7388	玈 (<CJK Ideograph>)";
"13388	0x73F6	珶 (<CJK Ideograph>)";
"13389	0x73F8	珸 (<CJK Ideograph>)";
"13390	0x73F5	珵 (<CJK Ideograph>)";
"13391	0x7404	琄 (<CJK Ideograph>)";
"13392	0x7401	琁 (<CJK Ideograph>)";
"13393	0x73FD	珽 (<CJK Ideograph>)";
"13394	0x7407	琇 (<CJK Ideograph>)";
"13395	0x7400	琀 (<CJK Ideograph>)";
"13396	0x73FA	珺 (<CJK Ideograph>)";
"13397	0x73FC	珼 (<CJK Ideograph>)";
"13398	0x73FF	珿 (<CJK Ideograph>)";
"13399	0x740C	琌 (<CJK Ideograph>)";
"13400	0x740B	琋 (<CJK Ideograph>)";
"13401	0x73F4	珴 (<CJK Ideograph>)";
"13402	0x7408	琈 (<CJK Ideograph>)";
"13403	0x7564	畤 (<CJK Ideograph>)";
"13404	0x7563	畣 (<CJK Ideograph>)";
"13405	0x75CE	痎 (<CJK Ideograph>)";
"13406	0x75D2	痒 (<CJK Ideograph>)";
"13407	0x75CF	痏 (<CJK Ideograph>)";
"13408	0x75CB	痋 (<CJK Ideograph>)";
"13409	0x75CC	痌 (<CJK Ideograph>)";
"13410	0x75D1	痑 (<CJK Ideograph>)";
"13411	0x75D0	痐 (<CJK Ideograph>)";
"13412	0x768F	皏 (<CJK Ideograph>)";
"13413	0x7689	皉 (<CJK Ideograph>)";
"13414	0x76D3	盓 (<CJK Ideograph>)";
"13415	0x7739	眹 (<CJK Ideograph>)";
"13416	0x772F	眯 (<CJK Ideograph>)";
"13417	0x772D	眭 (<CJK Ideograph>)";
"13418	0x7731	眱 (<CJK Ideograph>)";
"13419	0x7732	眲 (<CJK Ideograph>)";
"13420	0x7734	眴 (<CJK Ideograph>)";
"13421	0x7733	眳 (<CJK Ideograph>)";
"13422	0x773D	眽 (<CJK Ideograph>)";
"13423	0x7725	眥 (<CJK Ideograph>)";
"13424	0x773B	眻 (<CJK Ideograph>)";
"13425	0x7735	眵 (<CJK Ideograph>)";
"13426	0x7848	硈 (<CJK Ideograph>)";
"13427	0x7852	硒 (<CJK Ideograph>)";
"13428	0x7849	硉 (<CJK Ideograph>)";
"13429	0x784D	硍 (<CJK Ideograph>)";
"13430	0x784A	硊 (<CJK Ideograph>)";
"13431	0x784C	硌 (<CJK Ideograph>)";
"13432	0x7826	砦 (<CJK Ideograph>)";
"13433	0x7845	硅 (<CJK Ideograph>)";
"13434	0x7850	硐 (<CJK Ideograph>)";
"13435	0x7964	祤 (<CJK Ideograph>)";
"13436	0x7967	祧 (<CJK Ideograph>)";
"13437	0x7969	祩 (<CJK Ideograph>)";
"13438	0x796A	祪 (<CJK Ideograph>)";
"13439	0x7963	祣 (<CJK Ideograph>)";
"13440	0x796B	祫 (<CJK Ideograph>)";
"13441	0x7961	祡 (<CJK Ideograph>)";
"13442	0x79BB	离 (<CJK Ideograph>)";
"13443	0x79FA	秺 (<CJK Ideograph>)";
"13444	0x79F8	秸 (<CJK Ideograph>)";
"13445	0x79F6	秶 (<CJK Ideograph>)";
"13446	0x79F7	秷 (<CJK Ideograph>)";
"13447	0x7A8F	窏 (<CJK Ideograph>)";
"13448	0x7A94	窔 (<CJK Ideograph>)";
"13449	0x7A90	窐 (<CJK Ideograph>)";
"13450	0x7B35	笵 (<CJK Ideograph>)";
"13451	0x7B47	筇 (<CJK Ideograph>)";
"13452	0x7B34	笴 (<CJK Ideograph>)";
"13453	0x7B25	笥 (<CJK Ideograph>)";
"13454	0x7B30	笰 (<CJK Ideograph>)";
"13455	0x7B22	笢 (<CJK Ideograph>)";
"13456	0x7B24	笤 (<CJK Ideograph>)";
"13457	0x7B33	笳 (<CJK Ideograph>)";
"13458	0x7B18	笘 (<CJK Ideograph>)";
"13459	0x7B2A	笪 (<CJK Ideograph>)";
"13460	0x7B1D	笝 (<CJK Ideograph>)";
"13461	0x7B31	笱 (<CJK Ideograph>)";
"13462	0x7B2B	笫 (<CJK Ideograph>)";
"13463	0x7B2D	笭 (<CJK Ideograph>)";
"13464	0x7B2F	笯 (<CJK Ideograph>)";
"13465	0x7B32	笲 (<CJK Ideograph>)";
"13466	0x7B38	笸 (<CJK Ideograph>)";
"13467	0x7B1A	笚 (<CJK Ideograph>)";
"13468	0x7B23	笣 (<CJK Ideograph>)";
"13469	0x7C94	粔 (<CJK Ideograph>)";
"13470	0x7C98	粘 (<CJK Ideograph>)";
"13471	0x7C96	粖 (<CJK Ideograph>)";
"13472	0x7CA3	粣 (<CJK Ideograph>)";
"13473	0x7D35	紵 (<CJK Ideograph>)"
].
(* /repo/encoding_tables/whatwg/index-big5.txt:12289-12544 *)
Definition index_big5_txt_48 : list line := [
"13474	0x7D3D	紽 (<CJK Ideograph>)";
"13475	0x7D38	紸 (<CJK Ideograph>)";
"13476	0x7D36	紶 (<CJK Ideograph>)";
"13477	0x7D3A	紺 (<CJK Ideograph>)";
"13478	0x7D45	絅 (<CJK Ideograph>)";
"13479	0x7D2C	紬 (<CJK Ideograph>)";
"13480	0x7D29	紩 (<CJK Ideograph>)";
"13481	0x7D41	絁 (<CJK Ideograph>)";
"13482	0x7D47	絇 (<CJK Ideograph>)";
"13483	0x7D3E	紾 (<CJK Ideograph>)";
"13484	0x7D3F	紿 (<CJK Ideograph>)";
"13485	0x7D4A	絊 (<CJK Ideograph>)";
"13486	0x7D3B	紻 (<CJK Ideograph>)";
"13487	0x7D28	紨 (<CJK Ideograph>)";
"13488	0x7F63	罣 (<CJK Ideograph>)";
"13489	0x7F95	羕 (<CJK Ideograph>)";
"13490	0x7F9C	羜 (<CJK Ideograph>)";
"13491	0x7F9D	羝 (<CJK Ideograph>)";
"13492	0x7F9B	羛 (<CJK Ideograph>)";
"13493	0x7FCA	翊 (<CJK Ideograph>)";
"13494	0x7FCB	翋 (<CJK Ideograph>)";
"13495	0x7FCD	翍 (<CJK Ideograph>)";
"13496	0x7FD0	翐 (<CJK Ideograph>)";
"13497	0x7FD1	翑 (<CJK Ideograph>)";
"13498	0x7FC7	翇 (<CJK Ideograph>)";
"13499	0x7FCF	翏 (<CJK Ideograph>)";
"13500	0x7FC9	翉 (<CJK Ideograph>)";
"13501	0x801F	耟 (<CJK Ideograph>)";
"13502	0x801E	耞 (<CJK Ideograph>)";
"13503	0x801B	耛 (<CJK Ideograph>)";
"13504	0x8047	聇 (<CJK Ideograph>)";
"13505	0x8043	聃 (<CJK Ideograph>)";
"13506	0x8048	聈 (<CJK Ideograph>)";
"13507	0x8118	脘 (<CJK Ideograph>)";
"13508	0x8125	脥 (<CJK Ideograph>)";
"13509	0x8119	脙 (<CJK Ideograph>)";
"13510	0x811B	脛 (<CJK Ideograph>)";
"13511	0x812D	脭 (<CJK Ideograph>)";
"13512	0x811F	脟 (<CJK Ideograph>)";
"13513	0x812C	脬 (<CJK Ideograph>)";
"13514	0x811E	脞 (<CJK Ideograph>)";
"13515	0x8121	脡 (<CJK Ideograph>)";
"13516	0x8115	脕 (<CJK Ideograph>)";
"13517	0x8127	脧 (<CJK Ideograph>)";
"13518	0x811D	脝 (<CJK Ideograph>)";
"13519	0x8122	脢 (<CJK Ideograph>)";
"13520	0x8211	舑 (<CJK Ideograph>)";
"13521	0x8238	舸 (<CJK Ideograph>)";
"13522	0x8233	舳 (<CJK Ideograph>)";
"13523	0x823A	舺 (<CJK Ideograph>)";
"13524	0x8234	舴 (<CJK Ideograph>)";
"13525	0x8232	舲 (<CJK Ideograph>)";
"13526	0x8274	艴 (<CJK Ideograph>)";
"13527	0x8390	莐 (<CJK Ideograph>)";
"13528	0x83A3	莣 (<CJK Ideograph>)";
"13529	0x83A8	莨 (<CJK Ideograph>)";
"13530	0x838D	莍 (<CJK Ideograph>)";
"13531	0x837A	荺 (<CJK Ideograph>)";
"13532	0x8373	荳 (<CJK Ideograph>)";
"13533	0x83A4	莤 (<CJK Ideograph>)";
"13534	0x8374	荴 (<CJK Ideograph>)";
"13535	0x838F	莏 (<CJK Ideograph>)";
"13536	0x8381	莁 (<CJK Ideograph>)";
"13537	0x8395	莕 (<CJK Ideograph>)";
"13538	0x8399	莙 (<CJK Ideograph>)";
"13539	0x8375	荵 (<CJK Ideograph>)";
"13540	0x8394	莔 (<CJK Ideograph>)";
"13541	0x83A9	莩 (<CJK Ideograph>)";
"13542	0x837D	荽 (<CJK Ideograph>)";
"13543	0x8383	莃 (<CJK Ideograph>)";
"13544	0x838C	莌 (<CJK Ideograph>)";
"13545	0x839D	莝 (<CJK Ideograph>)";
"13546	0x839B	莛 (<CJK Ideograph>)";
"13547	0x83AA	莪 (<CJK Ideograph>)";
"13548	0x838B	莋 (<CJK Ideograph>)";
"13549	0x837E	荾 (<CJK Ideograph>)";
"13550	0x83A5	莥 (<CJK Ideograph>)";
"13551	0x83AF	莯 (<CJK Ideograph>)";
"13552	0x8388	莈 (<CJK Ideograph>)";
"13553	0x8397	莗 (<CJK Ideograph>)";
"13554	0x83B0	莰 (<CJK Ideograph>)";
"13555	0x837F	荿 (<CJK Ideograph>)";
"13556	0x83A6	莦 (<CJK Ideograph>)";
"13557	0x8387	莇 (<CJK Ideograph>)";
"13558	0x83AE	莮 (<CJK Ideograph>)";
"13559	0x8376	荶 (<CJK Ideograph>)";
"13560	0x839A	莚 (<CJK Ideograph>)";
"13561	0x8659	虙 (<CJK Ideograph>)";
"13562	0x8656	虖 (<CJK Ideograph>)";
"13563	0x86BF	蚿 (<CJK Ideograph>)";
"13564	0x86B7	蚷 (<CJK Ideograph>)";
"13565	0x86C2	蛂 (<CJK Ideograph>)";
"13566	0x86C1	蛁 (<CJK Ideograph>)";
"13567	0x86C5	蛅 (<CJK Ideograph>)";
"13568	0x86BA	蚺 (<CJK Ideograph>)";
"13569	0x86B0	蚰 (<CJK Ideograph>)";
"13570	0x86C8	蛈 (<CJK Ideograph>)";
"13571	0x86B9	蚹 (<CJK Ideograph>)";
"13572	0x86B3	蚳 (<CJK Ideograph>)";
"13573	0x86B8	蚸 (<CJK Ideograph>)";
"13574	0x86CC	蛌 (<CJK Ideograph>)";
"13575	0x86B4	蚴 (<CJK Ideograph>)";
"13576	0x86BB	蚻 (<CJK Ideograph>)";
"13577	0x86BC	蚼 (<CJK Ideograph>)";
"13578	0x86C3	蛃 (<CJK Ideograph>)";
"13579	0x86BD	蚽 (<CJK Ideograph>)";
"13580	0x86BE	蚾 (<CJK Ideograph>)";
"13581	0x8852	衒 (<CJK Ideograph>)";
"13582	0x8889	袉 (<CJK Ideograph>)";
"13583	0x8895	袕 (<CJK Ideograph>)";
"13584	0x88A8	袨 (<CJK Ideograph>)";
"13585	0x88A2	袢 (<CJK Ideograph>)";
"13586	0x88AA	袪 (<CJK Ideograph>)";
"13587	0x889A	袚 (<CJK Ideograph>)";
"13588	0x8891	袑 (<CJK Ideograph>)";
"13589	0x88A1	袡 (<CJK Ideograph>)";
"13590	0x889F	袟 (<CJK Ideograph>)";
"13591	0x8898	袘 (<CJK Ideograph>)";
"13592	0x88A7	袧 (<CJK Ideograph>)";
"13593	0x8899	袙 (<CJK Ideograph>)";
"13594	0x889B	袛 (<CJK Ideograph>)";
"13595	0x8897	袗 (<CJK Ideograph>)";
"13596	0x88A4	袤 (<CJK Ideograph>)";
"13597	0x88AC	袬 (<CJK Ideograph>)";
"13598	0x888C	袌 (<CJK Ideograph>)";
"13599	0x8893	袓 (<CJK Ideograph>)";
"13600	0x888E	袎 (<CJK Ideograph>)";
"13601	0x8982	覂 (<CJK Ideograph>)";
"13602	0x89D6	觖 (<CJK Ideograph>)";
"13603	0x89D9	觙 (<CJK Ideograph>)";
"13604	0x89D5	觕 (<CJK Ideograph>)";
"13605	0x8A30	訰 (<CJK Ideograph>)";
"13606	0x8A27	訧 (<CJK Ideograph>)";
"13607	0x8A2C	訬 (<CJK Ideograph>)";
"13608	0x8A1E	訞 (<CJK Ideograph>)";
"13609	0x8C39	谹 (<CJK Ideograph>)";
"13610	0x8C3B	谻 (<CJK Ideograph>)";
"13611	0x8C5C	豜 (<CJK Ideograph>)";
"13612	0x8C5D	豝 (<CJK Ideograph>)";
"13613	0x8C7D	豽 (<CJK Ideograph>)";
"13614	0x8CA5	貥 (<CJK Ideograph>)";
"13615	0x8D7D	赽 (<CJK Ideograph>)";
"13616	0x8D7B	赻 (<CJK Ideograph>)";
"13617	0x8D79	赹 (<CJK Ideograph>)";
"13618	0x8DBC	趼 (<CJK Ideograph>)";
"13619	0x8DC2	跂 (<CJK Ideograph>)";
"13620	0x8DB9	趹 (<CJK Ideograph>)";
"13621	0x8DBF	趿 (<CJK Ideograph>)";
"13622	0x8DC1	跁 (<CJK Ideograph>)";
"13623	0x8ED8	軘 (<CJK Ideograph>)";
"13624	0x8EDE	軞 (<CJK Ideograph>)";
"13625	0x8EDD	軝 (<CJK Ideograph>)";
"13626	0x8EDC	軜 (<CJK Ideograph>)";
"13627	0x8ED7	軗 (<CJK Ideograph>)";
"13628	0x8EE0	軠 (<CJK Ideograph>)";
"13629	0x8EE1	軡 (<CJK Ideograph>)";
"13630	0x9024	逤 (<CJK Ideograph>)";
"13631	0x900B	逋 (<CJK Ideograph>)";
"13632	0x9011	逑 (<CJK Ideograph>)";
"13633	0x901C	逜 (<CJK Ideograph>)";
"13634	0x900C	逌 (<CJK Ideograph>)";
"13635	0x9021	逡 (<CJK Ideograph>)";
"13636	0x90EF	郯 (<CJK Ideograph>)";
"13637	0x90EA	郪 (<CJK Ideograph>)";
"13638	0x90F0	郰 (<CJK Ideograph>)";
"13639	0x90F4	郴 (<CJK Ideograph>)";
"13640	0x90F2	郲 (<CJK Ideograph>)";
"13641	0x90F3	郳 (<CJK Ideograph>)";
"13642	0x90D4	郔 (<CJK Ideograph>)";
"13643	0x90EB	郫 (<CJK Ideograph>)";
"13644	0x90EC	郬 (<CJK Ideograph>)";
"13645	0x90E9	郩 (<CJK Ideograph>)";
"13646	0x9156	酖 (<CJK Ideograph>)";
"13647	0x9158	酘 (<CJK Ideograph>)";
"13648	0x915A	酚 (<CJK Ideograph>)";
"13649	0x9153	酓 (<CJK Ideograph>)";
"13650	0x9155	酕 (<CJK Ideograph>)";
"13651	0x91EC	釬 (<CJK Ideograph>)";
"13652	0x91F4	釴 (<CJK Ideograph>)";
"13653	0x91F1	釱 (<CJK Ideograph>)";
"13654	0x91F3	釳 (<CJK Ideograph>)";
"13655	0x91F8	釸 (<CJK Ideograph>)";
"13656	0x91E4	釤 (<CJK Ideograph>)";
"13657	0x91F9	釹 (<CJK Ideograph>)";
"13658	0x91EA	釪 (<CJK Ideograph>)";
"13659	0x91EB	釫 (<CJK Ideograph>)";
"13660	0x91F7	釷 (<CJK Ideograph>)";
"13661	0x91E8	釨 (<CJK Ideograph>)";
"13662	0x91EE	釮 (<CJK Ideograph>)";
"13663	0x957A	镺 (<CJK Ideograph>)";
"13664	0x9586	閆 (<CJK Ideograph>)";
"13665	0x9588	閈 (<CJK Ideograph>)";
"13666	0x967C	陼 (<CJK Ideograph>)";
"13667	0x966D	陭 (<CJK Ideograph>)";
"13668	0x966B	陫 (<CJK Ideograph>)";
"13669	0x9671	陱 (<CJK Ideograph>)";
"13670	0x966F	陯 (<CJK Ideograph>)";
"13671	0x96BF	隿 (<CJK Ideograph>)";
"13672	0x976A	靪 (<CJK Ideograph>)";
"13673	0x9804	頄 (<CJK Ideograph>)";
"13674	0x98E5	飥 (<CJK Ideograph>)";
"13675	0x9997	馗 (<CJK Ideograph>)";
"13676	0x509B	傛 (<CJK Ideograph>)";
"13677	0x5095	傕 (<CJK Ideograph>)";
"13678	0x5094	傔 (<CJK Ideograph>)";
"13679	0x509E	傞 (<CJK Ideograph>)";
"13680	0x508B	傋 (<CJK Ideograph>)";
"13681	0x50A3	傣 (<CJK Ideograph>)";
"13682	0x5083	傃 (<CJK Ideograph>)";
"13683	0x508C	傌 (<CJK Ideograph>)";
"13684	0x508E	傎 (<CJK Ideograph>)";
"13685	0x509D	傝 (<CJK Ideograph>)";
"13686	0x5068	偨 (<CJK Ideograph>)";
"13687	0x509C	傜 (<CJK Ideograph>)";
"13688	0x5092	傒 (<CJK Ideograph>)";
"13689	0x5082	傂 (<CJK Ideograph>)";
"13690	0x5087	傇 (<CJK Ideograph>)";
"13691	0x515F	兟 (<CJK Ideograph>)";
"13692	0x51D4	凔 (<CJK Ideograph>)";
"13693	0x5312	匒 (<CJK Ideograph>)";
"13694	0x5311	匑 (<CJK Ideograph>)";
"13695	0x53A4	厤 (<CJK Ideograph>)";
"13696	0x53A7	厧 (<CJK Ideograph>)";
"13697	0x5591	喑 (<CJK Ideograph>)";
"13698	0x55A8	喨 (<CJK Ideograph>)";
"13699	0x55A5	喥 (<CJK Ideograph>)";
"13700	0x55AD	喭 (<CJK Ideograph>)";
"13701	0x5577	啷 (<CJK Ideograph>)";
"13702	0x5645	噅 (<CJK Ideograph>)";
"13703	0x55A2	喢 (<CJK Ideograph>)";
"13704	0x5593	喓 (<CJK Ideograph>)";
"13705	0x5588	喈 (<CJK Ideograph>)";
"13706	0x558F	喏 (<CJK Ideograph>)";
"13707	0x55B5	喵 (<CJK Ideograph>)";
"13708	0x5581	喁 (<CJK Ideograph>)";
"13709	0x55A3	喣 (<CJK Ideograph>)";
"13710	0x5592	喒 (<CJK Ideograph>)";
"13711	0x55A4	喤 (<CJK Ideograph>)";
"13712	0x557D	啽 (<CJK Ideograph>)";
"13713	0x558C	喌 (<CJK Ideograph>)";
"13714	0x55A6	喦 (<CJK Ideograph>)";
"13715	0x557F	啿 (<CJK Ideograph>)";
"13716	0x5595	喕 (<CJK Ideograph>)";
"13717	0x55A1	喡 (<CJK Ideograph>)";
"13718	0x558E	喎 (<CJK Ideograph>)";
"13719	0x570C	圌 (<CJK Ideograph>)";
"13720	0x5829	堩 (<CJK Ideograph>)";
"13721	0x5837	堷 (<CJK Ideograph>)";
"13722	0x5819	堙 (<CJK Ideograph>)";
"13723	0x581E	堞 (<CJK Ideograph>)";
"13724	0x5827	堧 (<CJK Ideograph>)";
"13725	0x5823	堣 (<CJK Ideograph>)";
"13726	0x5828	堨 (<CJK Ideograph>)";
"13727	0x57F5	埵 (<CJK Ideograph>)";
"13728	0x5848	塈 (<CJK Ideograph>)";
"13729	0x5825	堥 (<CJK Ideograph>)"
].
(* /repo/encoding_tables/whatwg/index-big5.txt:12545-12800 *)
Definition index_big5_txt_49 : list line := [
"13730	0x581C	堜 (<CJK Ideograph>)";
"13731	0x581B	堛 (<CJK Ideograph>)";
"13732	0x5833	堳 (<CJK Ideograph>)";
"13733	0x583F	堿 (<CJK Ideograph>)";
"13734	0x5836	堶 (<CJK Ideograph>)";
"13735	0x582E	堮 (<CJK Ideograph>)";
"13736	0x5839	堹 (<CJK Ideograph>)";
"13737	0x5838	堸 (<CJK Ideograph>)";
"13738	0x582D	堭 (<CJK Ideograph>)";
"13739	0x582C	堬 (<CJK Ideograph>)";
"13740	0x583B	堻 (<CJK Ideograph>)";
"13741	0x5961	奡 (<CJK Ideograph>)";
"13742	0x5AAF	媯 (<CJK Ideograph>)";
"13743	0x5A94	媔 (<CJK Ideograph>)";
"13744	0x5A9F	媟 (<CJK Ideograph>)";
"13745	0x5A7A	婺 (<CJK Ideograph>)";
"13746	0x5AA2	媢 (<CJK Ideograph>)";
"13747	0x5A9E	媞 (<CJK Ideograph>)";
"13748	0x5A78	婸 (<CJK Ideograph>)";
"13749	0x5AA6	媦 (<CJK Ideograph>)";
"13750	0x5A7C	婼 (<CJK Ideograph>)";
"13751	0x5AA5	媥 (<CJK Ideograph>)";
"13752	0x5AAC	媬 (<CJK Ideograph>)";
"13753	0x5A95	媕 (<CJK Ideograph>)";
"13754	0x5AAE	媮 (<CJK Ideograph>)";
"13755	0x5A37	娷 (<CJK Ideograph>)";
"13756	0x5A84	媄 (<CJK Ideograph>)";
"13757	0x5A8A	媊 (<CJK Ideograph>)";
"13758	0x5A97	媗 (<CJK Ideograph>)";
"13759	0x5A83	媃 (<CJK Ideograph>)";
"13760	0x5A8B	媋 (<CJK Ideograph>)";
"13761	0x5AA9	媩 (<CJK Ideograph>)";
"13762	0x5A7B	婻 (<CJK Ideograph>)";
"13763	0x5A7D	婽 (<CJK Ideograph>)";
"13764	0x5A8C	媌 (<CJK Ideograph>)";
"13765	0x5A9C	媜 (<CJK Ideograph>)";
"13766	0x5A8F	媏 (<CJK Ideograph>)";
"13767	0x5A93	媓 (<CJK Ideograph>)";
"13768	0x5A9D	媝 (<CJK Ideograph>)";
"13769	0x5BEA	寪 (<CJK Ideograph>)";
"13770	0x5BCD	寍 (<CJK Ideograph>)";
"13771	0x5BCB	寋 (<CJK Ideograph>)";
"13772	0x5BD4	寔 (<CJK Ideograph>)";
"13773	0x5BD1	寑 (<CJK Ideograph>)";
"13774	0x5BCA	寊 (<CJK Ideograph>)";
"13775	0x5BCE	寎 (<CJK Ideograph>)";
"13776	0x5C0C	尌 (<CJK Ideograph>)";
"13777	0x5C30	尰 (<CJK Ideograph>)";
"13778	0x5D37	崷 (<CJK Ideograph>)";
"13779	0x5D43	嵃 (<CJK Ideograph>)";
"13780	0x5D6B	嵫 (<CJK Ideograph>)";
"13781	0x5D41	嵁 (<CJK Ideograph>)";
"13782	0x5D4B	嵋 (<CJK Ideograph>)";
"13783	0x5D3F	崿 (<CJK Ideograph>)";
"13784	0x5D35	崵 (<CJK Ideograph>)";
"13785	0x5D51	嵑 (<CJK Ideograph>)";
"13786	0x5D4E	嵎 (<CJK Ideograph>)";
"13787	0x5D55	嵕 (<CJK Ideograph>)";
"13788	0x5D33	崳 (<CJK Ideograph>)";
"13789	0x5D3A	崺 (<CJK Ideograph>)";
"13790	0x5D52	嵒 (<CJK Ideograph>)";
"13791	0x5D3D	崽 (<CJK Ideograph>)";
"13792	0x5D31	崱 (<CJK Ideograph>)";
"13793	0x5D59	嵙 (<CJK Ideograph>)";
"13794	0x5D42	嵂 (<CJK Ideograph>)";
"13795	0x5D39	崹 (<CJK Ideograph>)";
"13796	0x5D49	嵉 (<CJK Ideograph>)";
"13797	0x5D38	崸 (<CJK Ideograph>)";
"13798	0x5D3C	崼 (<CJK Ideograph>)";
"13799	0x5D32	崲 (<CJK Ideograph>)";
"13800	0x5D36	崶 (<CJK Ideograph>)";
"13801	0x5D40	嵀 (<CJK Ideograph>)";
"13802	0x5D45	嵅 (<CJK Ideograph>)";
"13803	0x5E44	幄 (<CJK Ideograph>)";
"13804	0x5E41	幁 (<CJK Ideograph>)";
"13805	0x5F58	彘 (<CJK Ideograph>)";
"13806	0x5FA6	徦 (<CJK Ideograph>)";
"13807	0x5FA5	徥 (<CJK Ideograph>)";
"13808	0x5FAB	徫 (<CJK Ideograph>)";
"13809	0x60C9	惉 (<CJK Ideograph>)";
"13810	0x60B9	悹 (<CJK Ideograph>)";
"13811	0x60CC	惌 (<CJK Ideograph>)";
"13812	0x60E2	惢 (<CJK Ideograph>)";
"13813	0x60CE	惎 (<CJK Ideograph>)";
"13814	0x60C4	惄 (<CJK Ideograph>)";
"13815	0x6114	愔 (<CJK Ideograph>)";
"13816	0x60F2	惲 (<CJK Ideograph>)";
"13817	0x610A	愊 (<CJK Ideograph>)";
"13818	0x6116	愖 (<CJK Ideograph>)";
"13819	0x6105	愅 (<CJK Ideograph>)";
"13820	0x60F5	惵 (<CJK Ideograph>)";
"13821	0x6113	愓 (<CJK Ideograph>)";
"13822	0x60F8	惸 (<CJK Ideograph>)";
"13823	0x60FC	惼 (<CJK Ideograph>)";
"13824	0x60FE	惾 (<CJK Ideograph>)";
"13825	0x60C1	惁 (<CJK Ideograph>)";
"13826	0x6103	愃 (<CJK Ideograph>)";
"13827	0x6118	愘 (<CJK Ideograph>)";
"13828	0x611D	愝 (<CJK Ideograph>)";
"13829	0x6110	愐 (<CJK Ideograph>)";
"13830	0x60FF	惿 (<CJK Ideograph>)";
"13831	0x6104	愄 (<CJK Ideograph>)";
"13832	0x610B	愋 (<CJK Ideograph>)";
"13833	0x624A	扊 (<CJK Ideograph>)";
"13834	0x6394	掔 (<CJK Ideograph>)";
"13835	0x63B1	掱 (<CJK Ideograph>)";
"13836	0x63B0	掰 (<CJK Ideograph>)";
"13837	0x63CE	揎 (<CJK Ideograph>)";
"13838	0x63E5	揥 (<CJK Ideograph>)";
"13839	0x63E8	揨 (<CJK Ideograph>)";
"13840	0x63EF	揯 (<CJK Ideograph>)";
"13841	0x63C3	揃 (<CJK Ideograph>)";
"13842	0x649D	撝 (<CJK Ideograph>)";
"13843	0x63F3	揳 (<CJK Ideograph>)";
"13844	0x63CA	揊 (<CJK Ideograph>)";
"13845	0x63E0	揠 (<CJK Ideograph>)";
"13846	0x63F6	揶 (<CJK Ideograph>)";
"13847	0x63D5	揕 (<CJK Ideograph>)";
"13848	0x63F2	揲 (<CJK Ideograph>)";
"13849	0x63F5	揵 (<CJK Ideograph>)";
"13850	0x6461	摡 (<CJK Ideograph>)";
"13851	0x63DF	揟 (<CJK Ideograph>)";
"13852	0x63BE	掾 (<CJK Ideograph>)";
"13853	0x63DD	揝 (<CJK Ideograph>)";
"13854	0x63DC	揜 (<CJK Ideograph>)";
"13855	0x63C4	揄 (<CJK Ideograph>)";
"13856	0x63D8	揘 (<CJK Ideograph>)";
"13857	0x63D3	揓 (<CJK Ideograph>)";
"13858	0x63C2	揂 (<CJK Ideograph>)";
"13859	0x63C7	揇 (<CJK Ideograph>)";
"13860	0x63CC	揌 (<CJK Ideograph>)";
"13861	0x63CB	揋 (<CJK Ideograph>)";
"13862	0x63C8	揈 (<CJK Ideograph>)";
"13863	0x63F0	揰 (<CJK Ideograph>)";
"13864	0x63D7	揗 (<CJK Ideograph>)";
"13865	0x63D9	揙 (<CJK Ideograph>)";
"13866	0x6532	攲 (<CJK Ideograph>)";
"13867	0x6567	敧 (<CJK Ideograph>)";
"13868	0x656A	敪 (<CJK Ideograph>)";
"13869	0x6564	敤 (<CJK Ideograph>)";
"13870	0x655C	敜 (<CJK Ideograph>)";
"13871	0x6568	敨 (<CJK Ideograph>)";
"13872	0x6565	敥 (<CJK Ideograph>)";
"13873	0x658C	斌 (<CJK Ideograph>)";
"13874	0x659D	斝 (<CJK Ideograph>)";
"13875	0x659E	斞 (<CJK Ideograph>)";
"13876	0x65AE	斮 (<CJK Ideograph>)";
"13877	0x65D0	旐 (<CJK Ideograph>)";
"13878	0x65D2	旒 (<CJK Ideograph>)";
"13879	0x667C	晼 (<CJK Ideograph>)";
"13880	0x666C	晬 (<CJK Ideograph>)";
"13881	0x667B	晻 (<CJK Ideograph>)";
"13882	0x6680	暀 (<CJK Ideograph>)";
"13883	0x6671	晱 (<CJK Ideograph>)";
"13884	0x6679	晹 (<CJK Ideograph>)";
"13885	0x666A	晪 (<CJK Ideograph>)";
"13886	0x6672	晲 (<CJK Ideograph>)";
"13887	0x6701	朁 (<CJK Ideograph>)";
"13888	0x690C	椌 (<CJK Ideograph>)";
"13889	0x68D3	棓 (<CJK Ideograph>)";
"13890	0x6904	椄 (<CJK Ideograph>)";
"13891	0x68DC	棜 (<CJK Ideograph>)";
"13892	0x692A	椪 (<CJK Ideograph>)";
"13893	0x68EC	棬 (<CJK Ideograph>)";
"13894	0x68EA	棪 (<CJK Ideograph>)";
"13895	0x68F1	棱 (<CJK Ideograph>)";
"13896	0x690F	椏 (<CJK Ideograph>)";
"13897	0x68D6	棖 (<CJK Ideograph>)";
"13898	0x68F7	棷 (<CJK Ideograph>)";
"13899	0x68EB	棫 (<CJK Ideograph>)";
"13900	0x68E4	棤 (<CJK Ideograph>)";
"13901	0x68F6	棶 (<CJK Ideograph>)";
"13902	0x6913	椓 (<CJK Ideograph>)";
"13903	0x6910	椐 (<CJK Ideograph>)";
"13904	0x68F3	棳 (<CJK Ideograph>)";
"13905	0x68E1	棡 (<CJK Ideograph>)";
"13906	0x6907	椇 (<CJK Ideograph>)";
"13907	0x68CC	棌 (<CJK Ideograph>)";
"13908	0x6908	椈 (<CJK Ideograph>)";
"13909	0x6970	楰 (<CJK Ideograph>)";
"13910	0x68B4	梴 (<CJK Ideograph>)";
"13911	0x6911	椑 (<CJK Ideograph>)";
"13912	0x68EF	棯 (<CJK Ideograph>)";
"13913	0x68C6	棆 (<CJK Ideograph>)";
"13914	0x6914	椔 (<CJK Ideograph>)";
"13915	0x68F8	棸 (<CJK Ideograph>)";
"13916	0x68D0	棐 (<CJK Ideograph>)";
"13917	0x68FD	棽 (<CJK Ideograph>)";
"13918	0x68FC	棼 (<CJK Ideograph>)";
"13919	0x68E8	棨 (<CJK Ideograph>)";
"13920	0x690B	椋 (<CJK Ideograph>)";
"13921	0x690A	椊 (<CJK Ideograph>)";
"13922	0x6917	椗 (<CJK Ideograph>)";
"13923	0x68CE	棎 (<CJK Ideograph>)";
"13924	0x68C8	棈 (<CJK Ideograph>)";
"13925	0x68DD	棝 (<CJK Ideograph>)";
"13926	0x68DE	棞 (<CJK Ideograph>)";
"13927	0x68E6	棦 (<CJK Ideograph>)";
"13928	0x68F4	棴 (<CJK Ideograph>)";
"13929	0x68D1	棑 (<CJK Ideograph>)";
"13930	0x6906	椆 (<CJK Ideograph>)";
"13931	0x68D4	棔 (<CJK Ideograph>)";
"13932	0x68E9	棩 (<CJK Ideograph>)";
"13933	0x6915	椕 (<CJK Ideograph>)";
"13934	0x6925	椥 (<CJK Ideograph>)";
"13935	0x68C7	棇 (<CJK Ideograph>)";
"13936	0x6B39	欹 (<CJK Ideograph>)";
"13937	0x6B3B	欻 (<CJK Ideograph>)";
"13938	0x6B3F	欿 (<CJK Ideograph>)";
"13939	0x6B3C	欼 (<CJK Ideograph>)";
"13940	0x6B94	殔 (<CJK Ideograph>)";
"13941	0x6B97	殗 (<CJK Ideograph>)";
"13942	0x6B99	殙 (<CJK Ideograph>)";
"13943	0x6B95	殕 (<CJK Ideograph>)";
"13944	0x6BBD	殽 (<CJK Ideograph>)";
"13945	0x6BF0	毰 (<CJK Ideograph>)";
"13946	0x6BF2	毲 (<CJK Ideograph>)";
"13947	0x6BF3	毳 (<CJK Ideograph>)";
"13948	0x6C30	氰 (<CJK Ideograph>)";
"13949	0x6DFC	淼 (<CJK Ideograph>)";
"13950	0x6E46	湆 (<CJK Ideograph>)";
"13951	0x6E47	湇 (<CJK Ideograph>)";
"13952	0x6E1F	渟 (<CJK Ideograph>)";
"13953	0x6E49	湉 (<CJK Ideograph>)";
"13954	0x6E88	溈 (<CJK Ideograph>)";
"13955	0x6E3C	渼 (<CJK Ideograph>)";
"13956	0x6E3D	渽 (<CJK Ideograph>)";
"13957	0x6E45	湅 (<CJK Ideograph>)";
"13958	0x6E62	湢 (<CJK Ideograph>)";
"13959	0x6E2B	渫 (<CJK Ideograph>)";
"13960	0x6E3F	渿 (<CJK Ideograph>)";
"13961	0x6E41	湁 (<CJK Ideograph>)";
"13962	0x6E5D	湝 (<CJK Ideograph>)";
"13963	0x6E73	湳 (<CJK Ideograph>)";
"13964	0x6E1C	渜 (<CJK Ideograph>)";
"13965	0x6E33	渳 (<CJK Ideograph>)";
"13966	0x6E4B	湋 (<CJK Ideograph>)";
"13967	0x6E40	湀 (<CJK Ideograph>)";
"13968	0x6E51	湑 (<CJK Ideograph>)";
"13969	0x6E3B	渻 (<CJK Ideograph>)";
"13970	0x6E03	渃 (<CJK Ideograph>)";
"13971	0x6E2E	渮 (<CJK Ideograph>)";
"13972	0x6E5E	湞 (<CJK Ideograph>)";
"13973	0x6E68	湨 (<CJK Ideograph>)";
"13974	0x6E5C	湜 (<CJK Ideograph>)";
"13975	0x6E61	湡 (<CJK Ideograph>)";
"13976	0x6E31	渱 (<CJK Ideograph>)";
"13977	0x6E28	渨 (<CJK Ideograph>)";
"13978	0x6E60	湠 (<CJK Ideograph>)";
"13979	0x6E71	湱 (<CJK Ideograph>)";
"13980	0x6E6B	湫 (<CJK Ideograph>)";
"13981	0x6E39	渹 (<CJK Ideograph>)";
"13982	0x6E22	渢 (<CJK Ideograph>)";
"13983	0x6E30	渰 (<CJK Ideograph>)";
"13984	0x6E53	湓 (<CJK Ideograph>)";
"13985	0x6E65	湥 (<CJK Ideograph>)"
].
(* /repo/encoding_tables/whatwg/index-big5.txt:12801-13056 *)
Definition index_big5_txt_50 : list line := [
"13986	0x6E27	渧 (<CJK Ideograph>)";
"13987	0x6E78	湸 (<CJK Ideograph>)";
"13988	0x6E64	湤 (<CJK Ideograph>)";
"13989	0x6E77	湷 (<CJK Ideograph>)";
"13990	0x6E55	湕 (<CJK Ideograph>)";
"13991	0x6E79	湹 (<CJK Ideograph>)";
"13992	0x6E52	湒 (<CJK Ideograph>)";
"13993	0x6E66	湦 (<CJK Ideograph>)";
"13994	0x6E35	渵 (<CJK Ideograph>)";
"13995	0x6E36	渶 (<CJK Ideograph>)";
"13996	0x6E5A	湚 (<CJK Ideograph>)";
"13997	0x7120	焠 (<CJK Ideograph>)";
"13998	0x711E	焞 (<CJK Ideograph>)";
"13999	0x712F	焯 (<CJK Ideograph>)";
"14000	0x70FB	烻 (<CJK Ideograph>)";
"14001	0x712E	焮 (<CJK Ideograph>)";
"14002	0x7131	焱 (<CJK Ideograph>)";
"14003	0x7123	焣 (<CJK Ideograph>)";
"14004	0x7125	焥 (<CJK Ideograph>)";
"14005	0x7122	焢 (<CJK Ideograph>)";
"14006	0x7132	焲 (<CJK Ideograph>)";
"14007	0x711F	焟 (<CJK Ideograph>)";
"14008	0x7128	焨 (<CJK Ideograph>)";
"14009	0x713A	焺 (<CJK Ideograph>)";
"14010	0x711B	焛 (<CJK Ideograph>)";
"14011	0x724B	牋 (<CJK Ideograph>)";
"14012	0x725A	牚 (<CJK Ideograph>)";
"14013	0x7288	犈 (<CJK Ideograph>)";
"14014	0x7289	犉 (<CJK Ideograph>)";
"14015	0x7286	犆 (<CJK Ideograph>)";
"14016	0x7285	犅 (<CJK Ideograph>)";
"14017	0x728B	犋 (<CJK Ideograph>)";
"14018	0x7312	猒 (<CJK Ideograph>)";
"14019	0x730B	猋 (<CJK Ideograph>)";
"14020	0x7330	猰 (<CJK Ideograph>)";
"14021	0x7322	猢 (<CJK Ideograph>)";
"14022	0x7331	猱 (<CJK Ideograph>)";
"14023	0x7333	猳 (<CJK Ideograph>)";
"14024	0x7327	猧 (<CJK Ideograph>)";
"14025	0x7332	猲 (<CJK Ideograph>)";
"14026	0x732D	猭 (<CJK Ideograph>)";
"14027	0x7326	猦 (<CJK Ideograph>)";
"14028	0x7323	猣 (<CJK Ideograph>)";
"14029	0x7335	猵 (<CJK Ideograph>)";
"14030	0x730C	猌 (<CJK Ideograph>)";
"14031	0x742E	琮 (<CJK Ideograph>)";
"14032	0x742C	琬 (<CJK Ideograph>)";
"14033	0x7430	琰 (<CJK Ideograph>)";
"14034	0x742B	琫 (<CJK Ideograph>)";
"14035	0x7416	琖 (<CJK Ideograph>)";
"14036	0x741A	琚 (<CJK Ideograph>)";
"14037	0x7421	琡 (<CJK Ideograph>)";
"14038	0x742D	琭 (<CJK Ideograph>)";
"14039	0x7431	琱 (<CJK Ideograph>)";
"14040	0x7424	琤 (<CJK Ideograph>)";
"14041	0x7423	琣 (<CJK Ideograph>)";
"14042	0x741D	琝 (<CJK Ideograph>)";
"14043	0x7429	琩 (<CJK Ideograph>)";
"14044	0x7420	琠 (<CJK Ideograph>)";
"14045	0x7432	琲 (<CJK Ideograph>)";
"14046	0x74FB	瓻 (<CJK Ideograph>)";
"14047	0x752F	甯 (<CJK Ideograph>)";
"14048	0x756F	畯 (<CJK Ideograph>)";
"14049	0x756C	畬 (<CJK Ideograph>)";
"14050	0x75E7	痧 (<CJK Ideograph>)";
"14051	0x75DA	痚 (<CJK Ideograph>)";
"14052	0x75E1	痡 (<CJK Ideograph>)";
"14053	0x75E6	痦 (<CJK Ideograph>)";
"14054	0x75DD	痝 (<CJK Ideograph>)";
"14055	0x75DF	痟 (<CJK Ideograph>)";
"14056	0x75E4	痤 (<CJK Ideograph>)";
"14057	0x75D7	痗 (<CJK Ideograph>)";
"14058	0x7695	皕 (<CJK Ideograph>)";
"14059	0x7692	皒 (<CJK Ideograph>)";
"14060	0x76DA	盚 (<CJK Ideograph>)";
"14061	0x7746	睆 (<CJK Ideograph>)";
"14062	0x7747	睇 (<CJK Ideograph>)";
"14063	0x7744	睄 (<CJK Ideograph>)";
"14064	0x774D	睍 (<CJK Ideograph>)";
"14065	0x7745	睅 (<CJK Ideograph>)";
"14066	0x774A	睊 (<CJK Ideograph>)";
"14067	0x774E	睎 (<CJK Ideograph>)";
"14068	0x774B	睋 (<CJK Ideograph>)";
"14069	0x774C	睌 (<CJK Ideograph>)";
"14070	0x77DE	矞 (<CJK Ideograph>)";
"14071	0x77EC	矬 (<CJK Ideograph>)";
"14072	0x7860	硠 (<CJK Ideograph>)";
"14073	0x7864	硤 (<CJK Ideograph>)";
"14074	0x7865	硥 (<CJK Ideograph>)";
"14075	0x785C	硜 (<CJK Ideograph>)";
"14076	0x786D	硭 (<CJK Ideograph>)";
"14077	0x7871	硱 (<CJK Ideograph>)";
"14078	0x786A	硪 (<CJK Ideograph>)";
"14079	0x786E	确 (<CJK Ideograph>)";
"14080	0x7870	硰 (<CJK Ideograph>)";
"14081	0x7869	硩 (<CJK Ideograph>)";
"14082	0x7868	硨 (<CJK Ideograph>)";
"14083	0x785E	硞 (<CJK Ideograph>)";
"14084	0x7862	硢 (<CJK Ideograph>)";
"14085	0x7974	祴 (<CJK Ideograph>)";
"14086	0x7973	祳 (<CJK Ideograph>)";
"14087	0x7972	祲 (<CJK Ideograph>)";
"14088	0x7970	祰 (<CJK Ideograph>)";
"14089	0x7A02	稂 (<CJK Ideograph>)";
"14090	0x7A0A	稊 (<CJK Ideograph>)";
"14091	0x7A03	稃 (<CJK Ideograph>)";
"14092	0x7A0C	稌 (<CJK Ideograph>)";
"14093	0x7A04	稄 (<CJK Ideograph>)";
"14094	0x7A99	窙 (<CJK Ideograph>)";
"14095	0x7AE6	竦 (<CJK Ideograph>)";
"14096	0x7AE4	竤 (<CJK Ideograph>)";
"14097	0x7B4A	筊 (<CJK Ideograph>)";
"14098	0x7B3B	笻 (<CJK Ideograph>)";
"14099	0x7B44	筄 (<CJK Ideograph>)";
"14100	0x7B48	筈 (<CJK Ideograph>)";
"14101	0x7B4C	筌 (<CJK Ideograph>)";
"14102	0x7B4E	筎 (<CJK Ideograph>)";
"14103	0x7B40	筀 (<CJK Ideograph>)";
"14104	0x7B58	筘 (<CJK Ideograph>)";
"14105	0x7B45	筅 (<CJK Ideograph>)";
"14106	0x7CA2	粢 (<CJK Ideograph>)";
"14107	0x7C9E	粞 (<CJK Ideograph>)";
"14108	0x7CA8	粨 (<CJK Ideograph>)";
"14109	0x7CA1	粡 (<CJK Ideograph>)";
"14110	0x7D58	絘 (<CJK Ideograph>)";
"14111	0x7D6F	絯 (<CJK Ideograph>)";
"14112	0x7D63	絣 (<CJK Ideograph>)";
"14113	0x7D53	絓 (<CJK Ideograph>)";
"14114	0x7D56	絖 (<CJK Ideograph>)";
"14115	0x7D67	絧 (<CJK Ideograph>)";
"14116	0x7D6A	絪 (<CJK Ideograph>)";
"14117	0x7D4F	絏 (<CJK Ideograph>)";
"14118	0x7D6D	絭 (<CJK Ideograph>)";
"14119	0x7D5C	絜 (<CJK Ideograph>)";
"14120	0x7D6B	絫 (<CJK Ideograph>)";
"14121	0x7D52	絒 (<CJK Ideograph>)";
"14122	0x7D54	絔 (<CJK Ideograph>)";
"14123	0x7D69	絩 (<CJK Ideograph>)";
"14124	0x7D51	絑 (<CJK Ideograph>)";
"14125	0x7D5F	絟 (<CJK Ideograph>)";
"14126	0x7D4E	絎 (<CJK Ideograph>)";
"14127	0x7F3E	缾 (<CJK Ideograph>)";
"14128	0x7F3F	缿 (<CJK Ideograph>)";
"14129	0x7F65	罥 (<CJK Ideograph>)";
"14130	0x7F66	罦 (<CJK Ideograph>)";
"14131	0x7FA2	羢 (<CJK Ideograph>)";
"14132	0x7FA0	羠 (<CJK Ideograph>)";
"14133	0x7FA1	羡 (<CJK Ideograph>)";
"14134	0x7FD7	翗 (<CJK Ideograph>)";
"14135	0x8051	聑 (<CJK Ideograph>)";
"14136	0x804F	聏 (<CJK Ideograph>)";
"14137	0x8050	聐 (<CJK Ideograph>)";
"14138	0x80FE	胾 (<CJK Ideograph>)";
"14139	0x80D4	胔 (<CJK Ideograph>)";
"14140	0x8143	腃 (<CJK Ideograph>)";
"14141	0x814A	腊 (<CJK Ideograph>)";
"14142	0x8152	腒 (<CJK Ideograph>)";
"14143	0x814F	腏 (<CJK Ideograph>)";
"14144	0x8147	腇 (<CJK Ideograph>)";
"14145	0x813D	脽 (<CJK Ideograph>)";
"14146	0x814D	腍 (<CJK Ideograph>)";
"14147	0x813A	脺 (<CJK Ideograph>)";
"14148	0x81E6	臦 (<CJK Ideograph>)";
"14149	0x81EE	臮 (<CJK Ideograph>)";
"14150	0x81F7	臷 (<CJK Ideograph>)";
"14151	0x81F8	臸 (<CJK Ideograph>)";
"14152	0x81F9	臹 (<CJK Ideograph>)";
"14153	0x8204	舄 (<CJK Ideograph>)";
"14154	0x823C	舼 (<CJK Ideograph>)";
"14155	0x823D	舽 (<CJK Ideograph>)";
"14156	0x823F	舿 (<CJK Ideograph>)";
"14157	0x8275	艵 (<CJK Ideograph>)";
"14158	0x833B	茻 (<CJK Ideograph>)";
"14159	0x83CF	菏 (<CJK Ideograph>)";
"14160	0x83F9	菹 (<CJK Ideograph>)";
"14161	0x8423	萣 (<CJK Ideograph>)";
"14162	0x83C0	菀 (<CJK Ideograph>)";
"14163	0x83E8	菨 (<CJK Ideograph>)";
"14164	0x8412	萒 (<CJK Ideograph>)";
"14165	0x83E7	菧 (<CJK Ideograph>)";
"14166	0x83E4	菤 (<CJK Ideograph>)";
"14167	0x83FC	菼 (<CJK Ideograph>)";
"14168	0x83F6	菶 (<CJK Ideograph>)";
"14169	0x8410	萐 (<CJK Ideograph>)";
"14170	0x83C6	菆 (<CJK Ideograph>)";
"14171	0x83C8	菈 (<CJK Ideograph>)";
"14172	0x83EB	菫 (<CJK Ideograph>)";
"14173	0x83E3	菣 (<CJK Ideograph>)";
"14174	0x83BF	莿 (<CJK Ideograph>)";
"14175	0x8401	萁 (<CJK Ideograph>)";
"14176	0x83DD	菝 (<CJK Ideograph>)";
"14177	0x83E5	菥 (<CJK Ideograph>)";
"14178	0x83D8	菘 (<CJK Ideograph>)";
"14179	0x83FF	菿 (<CJK Ideograph>)";
"14180	0x83E1	菡 (<CJK Ideograph>)";
"14181	0x83CB	菋 (<CJK Ideograph>)";
"14182	0x83CE	菎 (<CJK Ideograph>)";
"14183	0x83D6	菖 (<CJK Ideograph>)";
"14184	0x83F5	菵 (<CJK Ideograph>)";
"14185	0x83C9	菉 (<CJK Ideograph>)";
"14186	0x8409	萉 (<CJK Ideograph>)";
"14187	0x840F	萏 (<CJK Ideograph>)";
"14188	0x83DE	菞 (<CJK Ideograph>)";
"14189	0x8411	萑 (<CJK Ideograph>)";
"14190	0x8406	萆 (<CJK Ideograph>)";
"14191	0x83C2	菂 (<CJK Ideograph>)";
"14192	0x83F3	菳 (<CJK Ideograph>)";
"14193	0x83D5	菕 (<CJK Ideograph>)";
"14194	0x83FA	菺 (<CJK Ideograph>)";
"14195	0x83C7	菇 (<CJK Ideograph>)";
"14196	0x83D1	菑 (<CJK Ideograph>)";
"14197	0x83EA	菪 (<CJK Ideograph>)";
"14198	0x8413	萓 (<CJK Ideograph>)";
"14199	0x83C3	菃 (<CJK Ideograph>)";
"14200	0x83EC	菬 (<CJK Ideograph>)";
"14201	0x83EE	菮 (<CJK Ideograph>)";
"14202	0x83C4	菄 (<CJK Ideograph>)";
"14203	0x83FB	菻 (<CJK Ideograph>)";
"14204	0x83D7	菗 (<CJK Ideograph>)";
"14205	0x83E2	菢 (<CJK Ideograph>)";
"14206	0x841B	萛 (<CJK Ideograph>)";
"14207	0x83DB	菛 (<CJK Ideograph>)";
"14208	0x83FE	菾 (<CJK Ideograph>)";
"14209	0x86D8	蛘 (<CJK Ideograph>)";
"14210	0x86E2	蛢 (<CJK Ideograph>)";
"14211	0x86E6	蛦 (<CJK Ideograph>)";
"14212	0x86D3	蛓 (<CJK Ideograph>)";
"14213	0x86E3	蛣 (<CJK Ideograph>)";
"14214	0x86DA	蛚 (<CJK Ideograph>)";
"14215	0x86EA	蛪 (<CJK Ideograph>)";
"14216	0x86DD	蛝 (<CJK Ideograph>)";
"14217	0x86EB	蛫 (<CJK Ideograph>)";
"14218	0x86DC	蛜 (<CJK Ideograph>)";
"14219	0x86EC	蛬 (<CJK Ideograph>)";
"14220	0x86E9	蛩 (<CJK Ideograph>)";
"14221	0x86D7	蛗 (<CJK Ideograph>)";
"14222	0x86E8	蛨 (<CJK Ideograph>)";
"14223	0x86D1	蛑 (<CJK Ideograph>)";
"14224	0x8848	衈 (<CJK Ideograph>)";
"14225	0x8856	衖 (<CJK Ideograph>)";
"14226	0x8855	衕 (<CJK Ideograph>)";
"14227	0x88BA	袺 (<CJK Ideograph>)";
"14228	0x88D7	裗 (<CJK Ideograph>)";
"14229	0x88B9	袹 (<CJK Ideograph>)";
"14230	0x88B8	袸 (<CJK Ideograph>)";
"14231	0x88C0	裀 (<CJK Ideograph>)";
"14232	0x88BE	袾 (<CJK Ideograph>)";
"14233	0x88B6	袶 (<CJK Ideograph>)";
"14234	0x88BC	袼 (<CJK Ideograph>)";
"14235	0x88B7	袷 (<CJK Ideograph>)";
"14236	0x88BD	袽 (<CJK Ideograph>)";
"14237	0x88B2	袲 (<CJK Ideograph>)";
"14238	0x8901	褁 (<CJK Ideograph>)";
"14239	0x88C9	裉 (<CJK Ideograph>)";
"14240	0x8995	覕 (<CJK Ideograph>)";
"14241	0x8998	覘 (<CJK Ideograph>)"
].
(* /repo/encoding_tables/whatwg/index-big5.txt:13057-13312 *)
Definition index_big5_txt_51 : list line := [
"14242	0x8997	覗 (<CJK Ideograph>)";
"14243	0x89DD	觝 (<CJK Ideograph>)";
"14244	0x89DA	觚 (<CJK Ideograph>)";
"14245	0x89DB	觛 (<CJK Ideograph>)";
"14246	0x8A4E	詎 (<CJK Ideograph>)";
"14247	0x8A4D	詍 (<CJK Ideograph>)";
"14248	0x8A39	訹 (<CJK Ideograph>)";
"14249	0x8A59	詙 (<CJK Ideograph>)";
"14250	0x8A40	詀 (<CJK Ideograph>)";
"14251	0x8A57	詗 (<CJK Ideograph>)";
"14252	0x8A58	詘 (<CJK Ideograph>)";
"14253	0x8A44	詄 (<CJK Ideograph>)";
"14254	0x8A45	詅 (<CJK Ideograph>)";
"14255	0x8A52	詒 (<CJK Ideograph>)";
"14256	0x8A48	詈 (<CJK Ideograph>)";
"14257	0x8A51	詑 (<CJK Ideograph>)";
"14258	0x8A4A	詊 (<CJK Ideograph>)";
"14259	0x8A4C	詌 (<CJK Ideograph>)";
"14260	0x8A4F	詏 (<CJK Ideograph>)";
"14261	0x8C5F	豟 (<CJK Ideograph>)";
"14262	0x8C81	貁 (<CJK Ideograph>)";
"14263	0x8C80	貀 (<CJK Ideograph>)";
"14264	0x8CBA	貺 (<CJK Ideograph>)";
"14265	0x8CBE	貾 (<CJK Ideograph>)";
"14266	0x8CB0	貰 (<CJK Ideograph>)";
"14267	0x8CB9	貹 (<CJK Ideograph>)";
"14268	0x8CB5	貵 (<CJK Ideograph>)";
"14269	0x8D84	趄 (<CJK Ideograph>)";
"14270	0x8D80	趀 (<CJK Ideograph>)";
"14271	0x8D89	趉 (<CJK Ideograph>)";
"14272	0x8DD8	跘 (<CJK Ideograph>)";
"14273	0x8DD3	跓 (<CJK Ideograph>)";
"14274	0x8DCD	跍 (<CJK Ideograph>)";
"14275	0x8DC7	跇 (<CJK Ideograph>)";
"14276	0x8DD6	跖 (<CJK Ideograph>)";
"14277	0x8DDC	跜 (<CJK Ideograph>)";
"14278	0x8DCF	跏 (<CJK Ideograph>)";
"14279	0x8DD5	跕 (<CJK Ideograph>)";
"14280	0x8DD9	跙 (<CJK Ideograph>)";
"14281	0x8DC8	跈 (<CJK Ideograph>)";
"14282	0x8DD7	跗 (<CJK Ideograph>)";
"14283	0x8DC5	跅 (<CJK Ideograph>)";
"14284	0x8EEF	軯 (<CJK Ideograph>)";
"14285	0x8EF7	軷 (<CJK Ideograph>)";
"14286	0x8EFA	軺 (<CJK Ideograph>)";
"14287	0x8EF9	軹 (<CJK Ideograph>)";
"14288	0x8EE6	軦 (<CJK Ideograph>)";
"14289	0x8EEE	軮 (<CJK Ideograph>)";
"14290	0x8EE5	軥 (<CJK Ideograph>)";
"14291	0x8EF5	軵 (<CJK Ideograph>)";
"14292	0x8EE7	軧 (<CJK Ideograph>)";
"14293	0x8EE8	軨 (<CJK Ideograph>)";
"14294	0x8EF6	軶 (<CJK Ideograph>)";
"14295	0x8EEB	軫 (<CJK Ideograph>)";
"14296	0x8EF1	軱 (<CJK Ideograph>)";
"14297	0x8EEC	軬 (<CJK Ideograph>)";
"14298	0x8EF4	軴 (<CJK Ideograph>)";
"14299	0x8EE9	軩 (<CJK Ideograph>)";
"14300	0x902D	逭 (<CJK Ideograph>)";
"14301	0x9034	逴 (<CJK Ideograph>)";
"14302	0x902F	逯 (<CJK Ideograph>)";
"14303	0x9106	鄆 (<CJK Ideograph>)";
"14304	0x912C	鄬 (<CJK Ideograph>)";
"14305	0x9104	鄄 (<CJK Ideograph>)";
"14306	0x90FF	郿 (<CJK Ideograph>)";
"14307	0x90FC	郼 (<CJK Ideograph>)";
"14308	0x9108	鄈 (<CJK Ideograph>)";
"14309	0x90F9	郹 (<CJK Ideograph>)";
"14310	0x90FB	郻 (<CJK Ideograph>)";
"14311	0x9101	鄁 (<CJK Ideograph>)";
"14312	0x9100	鄀 (<CJK Ideograph>)";
"14313	0x9107	鄇 (<CJK Ideograph>)";
"14314	0x9105	鄅 (<CJK Ideograph>)";
"14315	0x9103	鄃 (<CJK Ideograph>)";
"14316	0x9161	酡 (<CJK Ideograph>)";
"14317	0x9164	酤 (<CJK Ideograph>)";
"14318	0x915F	酟 (<CJK Ideograph>)";
"14319	0x9162	酢 (<CJK Ideograph>)";
"14320	0x9160	酠 (<CJK Ideograph>)";
"14321	0x9201	鈁 (<CJK Ideograph>)";
"14322	0x920A	鈊 (<CJK Ideograph>)";
"14323	0x9225	鈥 (<CJK Ideograph>)";
"14324	0x9203	鈃 (<CJK Ideograph>)";
"14325	0x921A	鈚 (<CJK Ideograph>)";
"14326	0x9226	鈦 (<CJK Ideograph>)";
"14327	0x920F	鈏 (<CJK Ideograph>)";
"14328	0x920C	鈌 (<CJK Ideograph>)";
"14329	0x9200	鈀 (<CJK Ideograph>)";
"14330	0x9212	鈒 (<CJK Ideograph>)";
"14331	0x91FF	釿 (<CJK Ideograph>)";
"14332	0x91FD	釽 (<CJK Ideograph>)";
"14333	0x9206	鈆 (<CJK Ideograph>)";
"14334	0x9204	鈄 (<CJK Ideograph>)";
"14335	0x9227	鈧 (<CJK Ideograph>)";
"14336	0x9202	鈂 (<CJK Ideograph>)";
"14337	0x921C	鈜 (<CJK Ideograph>)";
"14338	0x9224	鈤 (<CJK Ideograph>)";
"14339	0x9219	鈙 (<CJK Ideograph>)";
"14340	0x9217	鈗 (<CJK Ideograph>)";
"14341	0x9205	鈅 (<CJK Ideograph>)";
"14342	0x9216	鈖 (<CJK Ideograph>)";
"14343	0x957B	镻 (<CJK Ideograph>)";
"14344	0x958D	閍 (<CJK Ideograph>)";
"14345	0x958C	閌 (<CJK Ideograph>)";
"14346	0x9590	閐 (<CJK Ideograph>)";
"14347	0x9687	隇 (<CJK Ideograph>)";
"14348	0x967E	陾 (<CJK Ideograph>)";
"14349	0x9688	隈 (<CJK Ideograph>)";
"14350	0x9689	隉 (<CJK Ideograph>)";
"14351	0x9683	隃 (<CJK Ideograph>)";
"14352	0x9680	隀 (<CJK Ideograph>)";
"14353	0x96C2	雂 (<CJK Ideograph>)";
"14354	0x96C8	雈 (<CJK Ideograph>)";
"14355	0x96C3	雃 (<CJK Ideograph>)";
"14356	0x96F1	雱 (<CJK Ideograph>)";
"14357	0x96F0	雰 (<CJK Ideograph>)";
"14358	0x976C	靬 (<CJK Ideograph>)";
"14359	0x9770	靰 (<CJK Ideograph>)";
"14360	0x976E	靮 (<CJK Ideograph>)";
"14361	0x9807	頇 (<CJK Ideograph>)";
"14362	0x98A9	颩 (<CJK Ideograph>)";
"14363	0x98EB	飫 (<CJK Ideograph>)";
"14364	0x9CE6	鳦 (<CJK Ideograph>)";
"14365	0x9EF9	黹 (<CJK Ideograph>)";
"14366	0x4E83	亃 (<CJK Ideograph>)";
"14367	0x4E84	亄 (<CJK Ideograph>)";
"14368	0x4EB6	亶 (<CJK Ideograph>)";
"14369	0x50BD	傽 (<CJK Ideograph>)";
"14370	0x50BF	傿 (<CJK Ideograph>)";
"14371	0x50C6	僆 (<CJK Ideograph>)";
"14372	0x50AE	傮 (<CJK Ideograph>)";
"14373	0x50C4	僄 (<CJK Ideograph>)";
"14374	0x50CA	僊 (<CJK Ideograph>)";
"14375	0x50B4	傴 (<CJK Ideograph>)";
"14376	0x50C8	僈 (<CJK Ideograph>)";
"14377	0x50C2	僂 (<CJK Ideograph>)";
"14378	0x50B0	傰 (<CJK Ideograph>)";
"14379	0x50C1	僁 (<CJK Ideograph>)";
"14380	0x50BA	傺 (<CJK Ideograph>)";
"14381	0x50B1	傱 (<CJK Ideograph>)";
"14382	0x50CB	僋 (<CJK Ideograph>)";
"14383	0x50C9	僉 (<CJK Ideograph>)";
"14384	0x50B6	傶 (<CJK Ideograph>)";
"14385	0x50B8	傸 (<CJK Ideograph>)";
"14386	0x51D7	凗 (<CJK Ideograph>)";
"14387	0x527A	剺 (<CJK Ideograph>)";
"14388	0x5278	剸 (<CJK Ideograph>)";
"14389	0x527B	剻 (<CJK Ideograph>)";
"14390	0x527C	剼 (<CJK Ideograph>)";
"14391	0x55C3	嗃 (<CJK Ideograph>)";
"14392	0x55DB	嗛 (<CJK Ideograph>)";
"14393	0x55CC	嗌 (<CJK Ideograph>)";
"14394	0x55D0	嗐 (<CJK Ideograph>)";
"14395	0x55CB	嗋 (<CJK Ideograph>)";
"14396	0x55CA	嗊 (<CJK Ideograph>)";
"14397	0x55DD	嗝 (<CJK Ideograph>)";
"14398	0x55C0	嗀 (<CJK Ideograph>)";
"14399	0x55D4	嗔 (<CJK Ideograph>)";
"14400	0x55C4	嗄 (<CJK Ideograph>)";
"14401	0x55E9	嗩 (<CJK Ideograph>)";
"14402	0x55BF	喿 (<CJK Ideograph>)";
"14403	0x55D2	嗒 (<CJK Ideograph>)";
"14404	0x558D	喍 (<CJK Ideograph>)";
"14405	0x55CF	嗏 (<CJK Ideograph>)";
"14406	0x55D5	嗕 (<CJK Ideograph>)";
"14407	0x55E2	嗢 (<CJK Ideograph>)";
"14408	0x55D6	嗖 (<CJK Ideograph>)";
"14409	0x55C8	嗈 (<CJK Ideograph>)";
"14410	0x55F2	嗲 (<CJK Ideograph>)";
"14411	0x55CD	嗍 (<CJK Ideograph>)";
"14412	0x55D9	嗙 (<CJK Ideograph>)";
"14413	0x55C2	嗂 (<CJK Ideograph>)";
"14414	0x5714	圔 (<CJK Ideograph>)";
"14415	0x5853	塓 (<CJK Ideograph>)";
"14416	0x5868	塨 (<CJK Ideograph>)";
"14417	0x5864	塤 (<CJK Ideograph>)";
"14418	0x584F	塏 (<CJK Ideograph>)";
"14419	0x584D	塍 (<CJK Ideograph>)";
"14420	0x5849	塉 (<CJK Ideograph>)";
"14421	0x586F	塯 (<CJK Ideograph>)";
"14422	0x5855	塕 (<CJK Ideograph>)";
"14423	0x584E	塎 (<CJK Ideograph>)";
"14424	0x585D	塝 (<CJK Ideograph>)";
"14425	0x5859	塙 (<CJK Ideograph>)";
"14426	0x5865	塥 (<CJK Ideograph>)";
"14427	0x585B	塛 (<CJK Ideograph>)";
"14428	0x583D	堽 (<CJK Ideograph>)";
"14429	0x5863	塣 (<CJK Ideograph>)";
"14430	0x5871	塱 (<CJK Ideograph>)";
"14431	0x58FC	壼 (<CJK Ideograph>)";
"14432	0x5AC7	嫇 (<CJK Ideograph>)";
"14433	0x5AC4	嫄 (<CJK Ideograph>)";
"14434	0x5ACB	嫋 (<CJK Ideograph>)";
"14435	0x5ABA	媺 (<CJK Ideograph>)";
"14436	0x5AB8	媸 (<CJK Ideograph>)";
"14437	0x5AB1	媱 (<CJK Ideograph>)";
"14438	0x5AB5	媵 (<CJK Ideograph>)";
"14439	0x5AB0	媰 (<CJK Ideograph>)";
"14440	0x5ABF	媿 (<CJK Ideograph>)";
"14441	0x5AC8	嫈 (<CJK Ideograph>)";
"14442	0x5ABB	媻 (<CJK Ideograph>)";
"14443	0x5AC6	嫆 (<CJK Ideograph>)";
"14444	0x5AB7	媷 (<CJK Ideograph>)";
"14445	0x5AC0	嫀 (<CJK Ideograph>)";
"14446	0x5ACA	嫊 (<CJK Ideograph>)";
"14447	0x5AB4	媴 (<CJK Ideograph>)";
"14448	0x5AB6	媶 (<CJK Ideograph>)";
"14449	0x5ACD	嫍 (<CJK Ideograph>)";
"14450	0x5AB9	媹 (<CJK Ideograph>)";
"14451	0x5A90	媐 (<CJK Ideograph>)";
"14452	0x5BD6	寖 (<CJK Ideograph>)";
"14453	0x5BD8	寘 (<CJK Ideograph>)";
"14454	0x5BD9	寙 (<CJK Ideograph>)";
"14455	0x5C1F	尟 (<CJK Ideograph>)";
"14456	0x5C33	尳 (<CJK Ideograph>)";
"14457	0x5D71	嵱 (<CJK Ideograph>)";
"14458	0x5D63	嵣 (<CJK Ideograph>)";
"14459	0x5D4A	嵊 (<CJK Ideograph>)";
"14460	0x5D65	嵥 (<CJK Ideograph>)";
"14461	0x5D72	嵲 (<CJK Ideograph>)";
"14462	0x5D6C	嵬 (<CJK Ideograph>)";
"14463	0x5D5E	嵞 (<CJK Ideograph>)";
"14464	0x5D68	嵨 (<CJK Ideograph>)";
"14465	0x5D67	嵧 (<CJK Ideograph>)";
"14466	0x5D62	嵢 (<CJK Ideograph>)";
"14467	0x5DF0	巰 (<CJK Ideograph>)";
"14468	0x5E4F	幏 (<CJK Ideograph>)";
"14469	0x5E4E	幎 (<CJK Ideograph>)";
"14470	0x5E4A	幊 (<CJK Ideograph>)";
"14471	0x5E4D	幍 (<CJK Ideograph>)";
"14472	0x5E4B	幋 (<CJK Ideograph>)";
"14473	0x5EC5	廅 (<CJK Ideograph>)";
"14474	0x5ECC	廌 (<CJK Ideograph>)";
"14475	0x5EC6	廆 (<CJK Ideograph>)";
"14476	0x5ECB	廋 (<CJK Ideograph>)";
"14477	0x5EC7	廇 (<CJK Ideograph>)";
"14478	0x5F40	彀 (<CJK Ideograph>)";
"14479	0x5FAF	徯 (<CJK Ideograph>)";
"14480	0x5FAD	徭 (<CJK Ideograph>)";
"14481	0x60F7	惷 (<CJK Ideograph>)";
"14482	0x6149	慉 (<CJK Ideograph>)";
"14483	0x614A	慊 (<CJK Ideograph>)";
"14484	0x612B	愫 (<CJK Ideograph>)";
"14485	0x6145	慅 (<CJK Ideograph>)";
"14486	0x6136	愶 (<CJK Ideograph>)";
"14487	0x6132	愲 (<CJK Ideograph>)";
"14488	0x612E	愮 (<CJK Ideograph>)";
"14489	0x6146	慆 (<CJK Ideograph>)";
"14490	0x612F	愯 (<CJK Ideograph>)";
"14491	0x614F	慏 (<CJK Ideograph>)";
"14492	0x6129	愩 (<CJK Ideograph>)";
"14493	0x6140	慀 (<CJK Ideograph>)";
"14494	0x6220	戠 (<CJK Ideograph>)";
"14495	0x9168	酨 (<CJK Ideograph>)";
"14496	0x6223	戣 (<CJK Ideograph>)";
"14497	0x6225	戥 (<CJK Ideograph>)"
].
(* /repo/encoding_tables/whatwg/index-big5.txt:13313-13568 *)
Definition index_big5_txt_52 : list line := [
"14498	0x6224	戤 (<CJK Ideograph>)";
"14499	0x63C5	揅 (<CJK Ideograph>)";
"14500	0x63F1	揱 (<CJK Ideograph>)";
"14501	0x63EB	揫 (<CJK Ideograph>)";
"14502	0x6410	搐 (<CJK Ideograph>)";
"14503	0x6412	搒 (<CJK Ideograph>)";
"14504	0x6409	搉 (<CJK Ideograph>)";
"14505	0x6420	搠 (<CJK Ideograph>)";
"14506	0x6424	搤 (<CJK Ideograph>)";
"14507	0x6433	搳 (<CJK Ideograph>)";
"14508	0x6443	摃 (<CJK Ideograph>)";
"14509	0x641F	搟 (<CJK Ideograph>)";
"14510	0x6415	搕 (<CJK Ideograph>)";
"14511	0x6418	搘 (<CJK Ideograph>)";
"14512	0x6439	搹 (<CJK Ideograph>)";
"14513	0x6437	搷 (<CJK Ideograph>)";
"14514	0x6422	搢 (<CJK Ideograph>)";
"14515	0x6423	搣 (<CJK Ideograph>)";
"14516	0x640C	搌 (<CJK Ideograph>)";
"14517	0x6426	搦 (<CJK Ideograph>)";
"14518	0x6430	搰 (<CJK Ideograph>)";
"14519	0x6428	搨 (<CJK Ideograph>)";
"14520	0x6441	摁 (<CJK Ideograph>)";
"14521	0x6435	搵 (<CJK Ideograph>)";
"14522	0x642F	搯 (<CJK Ideograph>)";
"14523	0x640A	搊 (<CJK Ideograph>)";
"14524	0x641A	搚 (<CJK Ideograph>)";
"14525	0x6440	摀 (<CJK Ideograph>)";
"14526	0x6425	搥 (<CJK Ideograph>)";
"14527	0x6427	搧 (<CJK Ideograph>)";
"14528	0x640B	搋 (<CJK Ideograph>)";
"14529	0x63E7	揧 (<CJK Ideograph>)";
"14530	0x641B	搛 (<CJK Ideograph>)";
"14531	0x642E	搮 (<CJK Ideograph>)";
"14532	0x6421	搡 (<CJK Ideograph>)";
"14533	0x640E	搎 (<CJK Ideograph>)";
"14534	0x656F	敯 (<CJK Ideograph>)";
"14535	0x6592	斒 (<CJK Ideograph>)";
"14536	0x65D3	旓 (<CJK Ideograph>)";
"14537	0x6686	暆 (<CJK Ideograph>)";
"14538	0x668C	暌 (<CJK Ideograph>)";
"14539	0x6695	暕 (<CJK Ideograph>)";
"14540	0x6690	暐 (<CJK Ideograph>)";
"14541	0x668B	暋 (<CJK Ideograph>)";
"14542	0x668A	暊 (<CJK Ideograph>)";
"14543	0x6699	暙 (<CJK Ideograph>)";
"14544	0x6694	暔 (<CJK Ideograph>)";
"14545	0x6678	晸 (<CJK Ideograph>)";
"14546	0x6720	朠 (<CJK Ideograph>)";
"14547	0x6966	楦 (<CJK Ideograph>)";
"14548	0x695F	楟 (<CJK Ideograph>)";
"14549	0x6938	椸 (<CJK Ideograph>)";
"14550	0x694E	楎 (<CJK Ideograph>)";
"14551	0x6962	楢 (<CJK Ideograph>)";
"14552	0x6971	楱 (<CJK Ideograph>)";
"14553	0x693F	椿 (<CJK Ideograph>)";
"14554	0x6945	楅 (<CJK Ideograph>)";
"14555	0x696A	楪 (<CJK Ideograph>)";
"14556	0x6939	椹 (<CJK Ideograph>)";
"14557	0x6942	楂 (<CJK Ideograph>)";
"14558	0x6957	楗 (<CJK Ideograph>)";
"14559	0x6959	楙 (<CJK Ideograph>)";
"14560	0x697A	楺 (<CJK Ideograph>)";
"14561	0x6948	楈 (<CJK Ideograph>)";
"14562	0x6949	楉 (<CJK Ideograph>)";
"14563	0x6935	椵 (<CJK Ideograph>)";
"14564	0x696C	楬 (<CJK Ideograph>)";
"14565	0x6933	椳 (<CJK Ideograph>)";
"14566	0x693D	椽 (<CJK Ideograph>)";
"14567	0x6965	楥 (<CJK Ideograph>)";
"14568	0x68F0	棰 (<CJK Ideograph>)";
"14569	0x6978	楸 (<CJK Ideograph>)";
"14570	0x6934	椴 (<CJK Ideograph>)";
"14571	0x6969	楩 (<CJK Ideograph>)";
"14572	0x6940	楀 (<CJK Ideograph>)";
"14573	0x696F	楯 (<CJK Ideograph>)";
"14574	0x6944	楄 (<CJK Ideograph>)";
"14575	0x6976	楶 (<CJK Ideograph>)";
"14576	0x6958	楘 (<CJK Ideograph>)";
"14577	0x6941	楁 (<CJK Ideograph>)";
"14578	0x6974	楴 (<CJK Ideograph>)";
"14579	0x694C	楌 (<CJK Ideograph>)";
"14580	0x693B	椻 (<CJK Ideograph>)";
"14581	0x694B	楋 (<CJK Ideograph>)";
"14582	0x6937	椷 (<CJK Ideograph>)";
"14583	0x695C	楜 (<CJK Ideograph>)";
"14584	0x694F	楏 (<CJK Ideograph>)";
"14585	0x6951	楑 (<CJK Ideograph>)";
"14586	0x6932	椲 (<CJK Ideograph>)";
"14587	0x6952	楒 (<CJK Ideograph>)";
"14588	0x692F	椯 (<CJK Ideograph>)";
"14589	0x697B	楻 (<CJK Ideograph>)";
"14590	0x693C	椼 (<CJK Ideograph>)";
"14591	0x6B46	歆 (<CJK Ideograph>)";
"14592	0x6B45	歅 (<CJK Ideograph>)";
"14593	0x6B43	歃 (<CJK Ideograph>)";
"14594	0x6B42	歂 (<CJK Ideograph>)";
"14595	0x6B48	歈 (<CJK Ideograph>)";
"14596	0x6B41	歁 (<CJK Ideograph>)";
"14597	0x6B9B	殛 (<CJK Ideograph>)";
"14598	0xFA0D	嗀 (CJK COMPATIBILITY IDEOGRAPH-FA0D)";
"14599	0x6BFB	毻 (<CJK Ideograph>)";
"14600	0x6BFC	毼 (<CJK Ideograph>)";
"14601	0x6BF9	毹 (<CJK Ideograph>)";
"14602	0x6BF7	毷 (<CJK Ideograph>)";
"14603	0x6BF8	毸 (<CJK Ideograph>)";
"14604	0x6E9B	溛 (<CJK Ideograph>)";
"14605	0x6ED6	滖 (<CJK Ideograph>)";
"14606	0x6EC8	滈 (<CJK Ideograph>)";
"14607	0x6E8F	溏 (<CJK Ideograph>)";
"14608	0x6EC0	滀 (<CJK Ideograph>)";
"14609	0x6E9F	溟 (<CJK Ideograph>)";
"14610	0x6E93	溓 (<CJK Ideograph>)";
"14611	0x6E94	溔 (<CJK Ideograph>)";
"14612	0x6EA0	溠 (<CJK Ideograph>)";
"14613	0x6EB1	溱 (<CJK Ideograph>)";
"14614	0x6EB9	溹 (<CJK Ideograph>)";
"14615	0x6EC6	滆 (<CJK Ideograph>)";
"14616	0x6ED2	滒 (<CJK Ideograph>)";
"14617	0x6EBD	溽 (<CJK Ideograph>)";
"14618	0x6EC1	滁 (<CJK Ideograph>)";
"14619	0x6E9E	溞 (<CJK Ideograph>)";
"14620	0x6EC9	滉 (<CJK Ideograph>)";
"14621	0x6EB7	溷 (<CJK Ideograph>)";
"14622	0x6EB0	溰 (<CJK Ideograph>)";
"14623	0x6ECD	滍 (<CJK Ideograph>)";
"14624	0x6EA6	溦 (<CJK Ideograph>)";
"14625	0x6ECF	滏 (<CJK Ideograph>)";
"14626	0x6EB2	溲 (<CJK Ideograph>)";
"14627	0x6EBE	溾 (<CJK Ideograph>)";
"14628	0x6EC3	滃 (<CJK Ideograph>)";
"14629	0x6EDC	滜 (<CJK Ideograph>)";
"14630	0x6ED8	滘 (<CJK Ideograph>)";
"14631	0x6E99	溙 (<CJK Ideograph>)";
"14632	0x6E92	溒 (<CJK Ideograph>)";
"14633	0x6E8E	溎 (<CJK Ideograph>)";
"14634	0x6E8D	溍 (<CJK Ideograph>)";
"14635	0x6EA4	溤 (<CJK Ideograph>)";
"14636	0x6EA1	溡 (<CJK Ideograph>)";
"14637	0x6EBF	溿 (<CJK Ideograph>)";
"14638	0x6EB3	溳 (<CJK Ideograph>)";
"14639	0x6ED0	滐 (<CJK Ideograph>)";
"14640	0x6ECA	滊 (<CJK Ideograph>)";
"14641	0x6E97	溗 (<CJK Ideograph>)";
"14642	0x6EAE	溮 (<CJK Ideograph>)";
"14643	0x6EA3	溣 (<CJK Ideograph>)";
"14644	0x7147	煇 (<CJK Ideograph>)";
"14645	0x7154	煔 (<CJK Ideograph>)";
"14646	0x7152	煒 (<CJK Ideograph>)";
"14647	0x7163	煣 (<CJK Ideograph>)";
"14648	0x7160	煠 (<CJK Ideograph>)";
"14649	0x7141	煁 (<CJK Ideograph>)";
"14650	0x715D	煝 (<CJK Ideograph>)";
"14651	0x7162	煢 (<CJK Ideograph>)";
"14652	0x7172	煲 (<CJK Ideograph>)";
"14653	0x7178	煸 (<CJK Ideograph>)";
"14654	0x716A	煪 (<CJK Ideograph>)";
"14655	0x7161	煡 (<CJK Ideograph>)";
"14656	0x7142	煂 (<CJK Ideograph>)";
"14657	0x7158	煘 (<CJK Ideograph>)";
"14658	0x7143	煃 (<CJK Ideograph>)";
"14659	0x714B	煋 (<CJK Ideograph>)";
"14660	0x7170	煰 (<CJK Ideograph>)";
"14661	0x715F	煟 (<CJK Ideograph>)";
"14662	0x7150	煐 (<CJK Ideograph>)";
"14663	0x7153	煓 (<CJK Ideograph>)";
"14664	0x7144	煄 (<CJK Ideograph>)";
"14665	0x714D	煍 (<CJK Ideograph>)";
"14666	0x715A	煚 (<CJK Ideograph>)";
"14667	0x724F	牏 (<CJK Ideograph>)";
"14668	0x728D	犍 (<CJK Ideograph>)";
"14669	0x728C	犌 (<CJK Ideograph>)";
"14670	0x7291	犑 (<CJK Ideograph>)";
"14671	0x7290	犐 (<CJK Ideograph>)";
"14672	0x728E	犎 (<CJK Ideograph>)";
"14673	0x733C	猼 (<CJK Ideograph>)";
"14674	0x7342	獂 (<CJK Ideograph>)";
"14675	0x733B	猻 (<CJK Ideograph>)";
"14676	0x733A	猺 (<CJK Ideograph>)";
"14677	0x7340	獀 (<CJK Ideograph>)";
"14678	0x734A	獊 (<CJK Ideograph>)";
"14679	0x7349	獉 (<CJK Ideograph>)";
"14680	0x7444	瑄 (<CJK Ideograph>)";
"14681	0x744A	瑊 (<CJK Ideograph>)";
"14682	0x744B	瑋 (<CJK Ideograph>)";
"14683	0x7452	瑒 (<CJK Ideograph>)";
"14684	0x7451	瑑 (<CJK Ideograph>)";
"14685	0x7457	瑗 (<CJK Ideograph>)";
"14686	0x7440	瑀 (<CJK Ideograph>)";
"14687	0x744F	瑏 (<CJK Ideograph>)";
"14688	0x7450	瑐 (<CJK Ideograph>)";
"14689	0x744E	瑎 (<CJK Ideograph>)";
"14690	0x7442	瑂 (<CJK Ideograph>)";
"14691	0x7446	瑆 (<CJK Ideograph>)";
"14692	0x744D	瑍 (<CJK Ideograph>)";
"14693	0x7454	瑔 (<CJK Ideograph>)";
"14694	0x74E1	瓡 (<CJK Ideograph>)";
"14695	0x74FF	瓿 (<CJK Ideograph>)";
"14696	0x74FE	瓾 (<CJK Ideograph>)";
"14697	0x74FD	瓽 (<CJK Ideograph>)";
"14698	0x751D	甝 (<CJK Ideograph>)";
"14699	0x7579	畹 (<CJK Ideograph>)";
"14700	0x7577	畷 (<CJK Ideograph>)";
"14701	0x6983	榃 (<CJK Ideograph>)";
"14702	0x75EF	痯 (<CJK Ideograph>)";
"14703	0x760F	瘏 (<CJK Ideograph>)";
"14704	0x7603	瘃 (<CJK Ideograph>)";
"14705	0x75F7	痷 (<CJK Ideograph>)";
"14706	0x75FE	痾 (<CJK Ideograph>)";
"14707	0x75FC	痼 (<CJK Ideograph>)";
"14708	0x75F9	痹 (<CJK Ideograph>)";
"14709	0x75F8	痸 (<CJK Ideograph>)";
"14710	0x7610	瘐 (<CJK Ideograph>)";
"14711	0x75FB	痻 (<CJK Ideograph>)";
"14712	0x75F6	痶 (<CJK Ideograph>)";
"14713	0x75ED	痭 (<CJK Ideograph>)";
"14714	0x75F5	痵 (<CJK Ideograph>)";
"14715	0x75FD	痽 (<CJK Ideograph>)";
"14716	0x7699	皙 (<CJK Ideograph>)";
"14717	0x76B5	皵 (<CJK Ideograph>)";
"14718	0x76DD	盝 (<CJK Ideograph>)";
"14719	0x7755	睕 (<CJK Ideograph>)";
"14720	0x775F	睟 (<CJK Ideograph>)";
"14721	0x7760	睠 (<CJK Ideograph>)";
"14722	0x7752	睒 (<CJK Ideograph>)";
"14723	0x7756	睖 (<CJK Ideograph>)";
"14724	0x775A	睚 (<CJK Ideograph>)";
"14725	0x7769	睩 (<CJK Ideograph>)";
"14726	0x7767	睧 (<CJK Ideograph>)";
"14727	0x7754	睔 (<CJK Ideograph>)";
"14728	0x7759	睙 (<CJK Ideograph>)";
"14729	0x776D	睭 (<CJK Ideograph>)";
"14730	0x77E0	矠 (<CJK Ideograph>)";
"14731	0x7887	碇 (<CJK Ideograph>)";
"14732	0x789A	碚 (<CJK Ideograph>)";
"14733	0x7894	碔 (<CJK Ideograph>)";
"14734	0x788F	碏 (<CJK Ideograph>)";
"14735	0x7884	碄 (<CJK Ideograph>)";
"14736	0x7895	碕 (<CJK Ideograph>)";
"14737	0x7885	碅 (<CJK Ideograph>)";
"14738	0x7886	碆 (<CJK Ideograph>)";
"14739	0x78A1	碡 (<CJK Ideograph>)";
"14740	0x7883	碃 (<CJK Ideograph>)";
"14741	0x7879	硹 (<CJK Ideograph>)";
"14742	0x7899	碙 (<CJK Ideograph>)";
"14743	0x7880	碀 (<CJK Ideograph>)";
"14744	0x7896	碖 (<CJK Ideograph>)";
"14745	0x787B	硻 (<CJK Ideograph>)";
"14746	0x797C	祼 (<CJK Ideograph>)";
"14747	0x7982	禂 (<CJK Ideograph>)";
"14748	0x797D	祽 (<CJK Ideograph>)";
"14749	0x7979	祹 (<CJK Ideograph>)";
"14750	0x7A11	稑 (<CJK Ideograph>)";
"14751	0x7A18	稘 (<CJK Ideograph>)";
"14752	0x7A19	稙 (<CJK Ideograph>)";
"14753	0x7A12	稒 (<CJK Ideograph>)"
].
(* /repo/encoding_tables/whatwg/index-big5.txt:13569-13824 *)
Definition index_big5_txt_53 : list line := [
"14754	0x7A17	稗 (<CJK Ideograph>)";
"14755	0x7A15	稕 (<CJK Ideograph>)";
"14756	0x7A22	稢 (<CJK Ideograph>)";
"14757	0x7A13	稓 (<CJK Ideograph>)";
"14758	0x7A1B	稛 (<CJK Ideograph>)";
"14759	0x7A10	稐 (<CJK Ideograph>)";
"14760	0x7AA3	窣 (<CJK Ideograph>)";
"14761	0x7AA2	窢 (<CJK Ideograph>)";
"14762	0x7A9E	窞 (<CJK Ideograph>)";
"14763	0x7AEB	竫 (<CJK Ideograph>)";
"14764	0x7B66	筦 (<CJK Ideograph>)";
"14765	0x7B64	筤 (<CJK Ideograph>)";
"14766	0x7B6D	筭 (<CJK Ideograph>)";
"14767	0x7B74	筴 (<CJK Ideograph>)";
"14768	0x7B69	筩 (<CJK Ideograph>)";
"14769	0x7B72	筲 (<CJK Ideograph>)";
"14770	0x7B65	筥 (<CJK Ideograph>)";
"14771	0x7B73	筳 (<CJK Ideograph>)";
"14772	0x7B71	筱 (<CJK Ideograph>)";
"14773	0x7B70	筰 (<CJK Ideograph>)";
"14774	0x7B61	筡 (<CJK Ideograph>)";
"14775	0x7B78	筸 (<CJK Ideograph>)";
"14776	0x7B76	筶 (<CJK Ideograph>)";
"14777	0x7B63	筣 (<CJK Ideograph>)";
"14778	0x7CB2	粲 (<CJK Ideograph>)";
"14779	0x7CB4	粴 (<CJK Ideograph>)";
"14780	0x7CAF	粯 (<CJK Ideograph>)";
"14781	0x7D88	綈 (<CJK Ideograph>)";
"14782	0x7D86	綆 (<CJK Ideograph>)";
"14783	0x7D80	綀 (<CJK Ideograph>)";
"14784	0x7D8D	綍 (<CJK Ideograph>)";
"14785	0x7D7F	絿 (<CJK Ideograph>)";
"14786	0x7D85	綅 (<CJK Ideograph>)";
"14787	0x7D7A	絺 (<CJK Ideograph>)";
"14788	0x7D8E	綎 (<CJK Ideograph>)";
"14789	0x7D7B	絻 (<CJK Ideograph>)";
"14790	0x7D83	綃 (<CJK Ideograph>)";
"14791	0x7D7C	絼 (<CJK Ideograph>)";
"14792	0x7D8C	綌 (<CJK Ideograph>)";
"14793	0x7D94	綔 (<CJK Ideograph>)";
"14794	0x7D84	綄 (<CJK Ideograph>)";
"14795	0x7D7D	絽 (<CJK Ideograph>)";
"14796	0x7D92	綒 (<CJK Ideograph>)";
"14797	0x7F6D	罭 (<CJK Ideograph>)";
"14798	0x7F6B	罫 (<CJK Ideograph>)";
"14799	0x7F67	罧 (<CJK Ideograph>)";
"14800	0x7F68	罨 (<CJK Ideograph>)";
"14801	0x7F6C	罬 (<CJK Ideograph>)";
"14802	0x7FA6	羦 (<CJK Ideograph>)";
"14803	0x7FA5	羥 (<CJK Ideograph>)";
"14804	0x7FA7	羧 (<CJK Ideograph>)";
"14805	0x7FDB	翛 (<CJK Ideograph>)";
"14806	0x7FDC	翜 (<CJK Ideograph>)";
"14807	0x8021	耡 (<CJK Ideograph>)";
"14808	0x8164	腤 (<CJK Ideograph>)";
"14809	0x8160	腠 (<CJK Ideograph>)";
"14810	0x8177	腷 (<CJK Ideograph>)";
"14811	0x815C	腜 (<CJK Ideograph>)";
"14812	0x8169	腩 (<CJK Ideograph>)";
"14813	0x815B	腛 (<CJK Ideograph>)";
"14814	0x8162	腢 (<CJK Ideograph>)";
"14815	0x8172	腲 (<CJK Ideograph>)";
"14816	0x6721	朡 (<CJK Ideograph>)";
"14817	0x815E	腞 (<CJK Ideograph>)";
"14818	0x8176	腶 (<CJK Ideograph>)";
"14819	0x8167	腧 (<CJK Ideograph>)";
"14820	0x816F	腯 (<CJK Ideograph>)";
"14821	0x8144	腄 (<CJK Ideograph>)";
"14822	0x8161	腡 (<CJK Ideograph>)";
"14823	0x821D	舝 (<CJK Ideograph>)";
"14824	0x8249	艉 (<CJK Ideograph>)";
"14825	0x8244	艄 (<CJK Ideograph>)";
"14826	0x8240	艀 (<CJK Ideograph>)";
"14827	0x8242	艂 (<CJK Ideograph>)";
"14828	0x8245	艅 (<CJK Ideograph>)";
"14829	0x84F1	蓱 (<CJK Ideograph>)";
"14830	0x843F	萿 (<CJK Ideograph>)";
"14831	0x8456	葖 (<CJK Ideograph>)";
"14832	0x8476	葶 (<CJK Ideograph>)";
"14833	0x8479	葹 (<CJK Ideograph>)";
"14834	0x848F	蒏 (<CJK Ideograph>)";
"14835	0x848D	蒍 (<CJK Ideograph>)";
"14836	0x8465	葥 (<CJK Ideograph>)";
"14837	0x8451	葑 (<CJK Ideograph>)";
"14838	0x8440	葀 (<CJK Ideograph>)";
"14839	0x8486	蒆 (<CJK Ideograph>)";
"14840	0x8467	葧 (<CJK Ideograph>)";
"14841	0x8430	萰 (<CJK Ideograph>)";
"14842	0x844D	葍 (<CJK Ideograph>)";
"14843	0x847D	葽 (<CJK Ideograph>)";
"14844	0x845A	葚 (<CJK Ideograph>)";
"14845	0x8459	葙 (<CJK Ideograph>)";
"14846	0x8474	葴 (<CJK Ideograph>)";
"14847	0x8473	葳 (<CJK Ideograph>)";
"14848	0x845D	葝 (<CJK Ideograph>)";
"14849	0x8507	蔇 (<CJK Ideograph>)";
"14850	0x845E	葞 (<CJK Ideograph>)";
"14851	0x8437	萷 (<CJK Ideograph>)";
"14852	0x843A	萺 (<CJK Ideograph>)";
"14853	0x8434	萴 (<CJK Ideograph>)";
"14854	0x847A	葺 (<CJK Ideograph>)";
"14855	0x8443	葃 (<CJK Ideograph>)";
"14856	0x8478	葸 (<CJK Ideograph>)";
"14857	0x8432	萲 (<CJK Ideograph>)";
"14858	0x8445	葅 (<CJK Ideograph>)";
"14859	0x8429	萩 (<CJK Ideograph>)";
"14860	0x83D9	菙 (<CJK Ideograph>)";
"14861	0x844B	葋 (<CJK Ideograph>)";
"14862	0x842F	萯 (<CJK Ideograph>)";
"14863	0x8442	葂 (<CJK Ideograph>)";
"14864	0x842D	萭 (<CJK Ideograph>)";
"14865	0x845F	葟 (<CJK Ideograph>)";
"14866	0x8470	葰 (<CJK Ideograph>)";
"14867	0x8439	萹 (<CJK Ideograph>)";
"14868	0x844E	葎 (<CJK Ideograph>)";
"14869	0x844C	葌 (<CJK Ideograph>)";
"14870	0x8452	葒 (<CJK Ideograph>)";
"14871	0x846F	葯 (<CJK Ideograph>)";
"14872	0x84C5	蓅 (<CJK Ideograph>)";
"14873	0x848E	蒎 (<CJK Ideograph>)";
"14874	0x843B	萻 (<CJK Ideograph>)";
"14875	0x8447	葇 (<CJK Ideograph>)";
"14876	0x8436	萶 (<CJK Ideograph>)";
"14877	0x8433	萳 (<CJK Ideograph>)";
"14878	0x8468	葨 (<CJK Ideograph>)";
"14879	0x847E	葾 (<CJK Ideograph>)";
"14880	0x8444	葄 (<CJK Ideograph>)";
"14881	0x842B	萫 (<CJK Ideograph>)";
"14882	0x8460	葠 (<CJK Ideograph>)";
"14883	0x8454	葔 (<CJK Ideograph>)";
"14884	0x846E	葮 (<CJK Ideograph>)";
"14885	0x8450	葐 (<CJK Ideograph>)";
"14886	0x870B	蜋 (<CJK Ideograph>)";
"14887	0x8704	蜄 (<CJK Ideograph>)";
"14888	0x86F7	蛷 (<CJK Ideograph>)";
"14889	0x870C	蜌 (<CJK Ideograph>)";
"14890	0x86FA	蛺 (<CJK Ideograph>)";
"14891	0x86D6	蛖 (<CJK Ideograph>)";
"14892	0x86F5	蛵 (<CJK Ideograph>)";
"14893	0x874D	蝍 (<CJK Ideograph>)";
"14894	0x86F8	蛸 (<CJK Ideograph>)";
"14895	0x870E	蜎 (<CJK Ideograph>)";
"14896	0x8709	蜉 (<CJK Ideograph>)";
"14897	0x8701	蜁 (<CJK Ideograph>)";
"14898	0x86F6	蛶 (<CJK Ideograph>)";
"14899	0x870D	蜍 (<CJK Ideograph>)";
"14900	0x8705	蜅 (<CJK Ideograph>)";
"14901	0x88D6	裖 (<CJK Ideograph>)";
"14902	0x88CB	裋 (<CJK Ideograph>)";
"14903	0x88CD	裍 (<CJK Ideograph>)";
"14904	0x88CE	裎 (<CJK Ideograph>)";
"14905	0x88DE	裞 (<CJK Ideograph>)";
"14906	0x88DB	裛 (<CJK Ideograph>)";
"14907	0x88DA	裚 (<CJK Ideograph>)";
"14908	0x88CC	裌 (<CJK Ideograph>)";
"14909	0x88D0	裐 (<CJK Ideograph>)";
"14910	0x8985	覅 (<CJK Ideograph>)";
"14911	0x899B	覛 (<CJK Ideograph>)";
"14912	0x89DF	觟 (<CJK Ideograph>)";
"14913	0x89E5	觥 (<CJK Ideograph>)";
"14914	0x89E4	觤 (<CJK Ideograph>)";
"14915	0x89E1	觡 (<CJK Ideograph>)";
"14916	0x89E0	觠 (<CJK Ideograph>)";
"14917	0x89E2	觢 (<CJK Ideograph>)";
"14918	0x89DC	觜 (<CJK Ideograph>)";
"14919	0x89E6	触 (<CJK Ideograph>)";
"14920	0x8A76	詶 (<CJK Ideograph>)";
"14921	0x8A86	誆 (<CJK Ideograph>)";
"14922	0x8A7F	詿 (<CJK Ideograph>)";
"14923	0x8A61	詡 (<CJK Ideograph>)";
"14924	0x8A3F	訿 (<CJK Ideograph>)";
"14925	0x8A77	詷 (<CJK Ideograph>)";
"14926	0x8A82	誂 (<CJK Ideograph>)";
"14927	0x8A84	誄 (<CJK Ideograph>)";
"14928	0x8A75	詵 (<CJK Ideograph>)";
"14929	0x8A83	誃 (<CJK Ideograph>)";
"14930	0x8A81	誁 (<CJK Ideograph>)";
"14931	0x8A74	詴 (<CJK Ideograph>)";
"14932	0x8A7A	詺 (<CJK Ideograph>)";
"14933	0x8C3C	谼 (<CJK Ideograph>)";
"14934	0x8C4B	豋 (<CJK Ideograph>)";
"14935	0x8C4A	豊 (<CJK Ideograph>)";
"14936	0x8C65	豥 (<CJK Ideograph>)";
"14937	0x8C64	豤 (<CJK Ideograph>)";
"14938	0x8C66	豦 (<CJK Ideograph>)";
"14939	0x8C86	貆 (<CJK Ideograph>)";
"14940	0x8C84	貄 (<CJK Ideograph>)";
"14941	0x8C85	貅 (<CJK Ideograph>)";
"14942	0x8CCC	賌 (<CJK Ideograph>)";
"14943	0x8D68	赨 (<CJK Ideograph>)";
"14944	0x8D69	赩 (<CJK Ideograph>)";
"14945	0x8D91	趑 (<CJK Ideograph>)";
"14946	0x8D8C	趌 (<CJK Ideograph>)";
"14947	0x8D8E	趎 (<CJK Ideograph>)";
"14948	0x8D8F	趏 (<CJK Ideograph>)";
"14949	0x8D8D	趍 (<CJK Ideograph>)";
"14950	0x8D93	趓 (<CJK Ideograph>)";
"14951	0x8D94	趔 (<CJK Ideograph>)";
"14952	0x8D90	趐 (<CJK Ideograph>)";
"14953	0x8D92	趒 (<CJK Ideograph>)";
"14954	0x8DF0	跰 (<CJK Ideograph>)";
"14955	0x8DE0	跠 (<CJK Ideograph>)";
"14956	0x8DEC	跬 (<CJK Ideograph>)";
"14957	0x8DF1	跱 (<CJK Ideograph>)";
"14958	0x8DEE	跮 (<CJK Ideograph>)";
"14959	0x8DD0	跐 (<CJK Ideograph>)";
"14960	0x8DE9	跩 (<CJK Ideograph>)";
"14961	0x8DE3	跣 (<CJK Ideograph>)";
"14962	0x8DE2	跢 (<CJK Ideograph>)";
"14963	0x8DE7	跧 (<CJK Ideograph>)";
"14964	0x8DF2	跲 (<CJK Ideograph>)";
"14965	0x8DEB	跫 (<CJK Ideograph>)";
"14966	0x8DF4	跴 (<CJK Ideograph>)";
"14967	0x8F06	輆 (<CJK Ideograph>)";
"14968	0x8EFF	軿 (<CJK Ideograph>)";
"14969	0x8F01	輁 (<CJK Ideograph>)";
"14970	0x8F00	輀 (<CJK Ideograph>)";
"14971	0x8F05	輅 (<CJK Ideograph>)";
"14972	0x8F07	輇 (<CJK Ideograph>)";
"14973	0x8F08	輈 (<CJK Ideograph>)";
"14974	0x8F02	輂 (<CJK Ideograph>)";
"14975	0x8F0B	輋 (<CJK Ideograph>)";
"14976	0x9052	遒 (<CJK Ideograph>)";
"14977	0x903F	逿 (<CJK Ideograph>)";
"14978	0x9044	遄 (<CJK Ideograph>)";
"14979	0x9049	遉 (<CJK Ideograph>)";
"14980	0x903D	逽 (<CJK Ideograph>)";
"14981	0x9110	鄐 (<CJK Ideograph>)";
"14982	0x910D	鄍 (<CJK Ideograph>)";
"14983	0x910F	鄏 (<CJK Ideograph>)";
"14984	0x9111	鄑 (<CJK Ideograph>)";
"14985	0x9116	鄖 (<CJK Ideograph>)";
"14986	0x9114	鄔 (<CJK Ideograph>)";
"14987	0x910B	鄋 (<CJK Ideograph>)";
"14988	0x910E	鄎 (<CJK Ideograph>)";
"14989	0x916E	酮 (<CJK Ideograph>)";
"14990	0x916F	酯 (<CJK Ideograph>)";
"14991	0x9248	鉈 (<CJK Ideograph>)";
"14992	0x9252	鉒 (<CJK Ideograph>)";
"14993	0x9230	鈰 (<CJK Ideograph>)";
"14994	0x923A	鈺 (<CJK Ideograph>)";
"14995	0x9266	鉦 (<CJK Ideograph>)";
"14996	0x9233	鈳 (<CJK Ideograph>)";
"14997	0x9265	鉥 (<CJK Ideograph>)";
"14998	0x925E	鉞 (<CJK Ideograph>)";
"14999	0x9283	銃 (<CJK Ideograph>)";
"15000	0x922E	鈮 (<CJK Ideograph>)";
"15001	0x924A	鉊 (<CJK Ideograph>)";
"15002	0x9246	鉆 (<CJK Ideograph>)";
"15003	0x926D	鉭 (<CJK Ideograph>)";
"15004	0x926C	鉬 (<CJK Ideograph>)";
"15005	0x924F	鉏 (<CJK Ideograph>)";
"15006	0x9260	鉠 (<CJK Ideograph>)";
"15007	0x9267	鉧 (<CJK Ideograph>)";
"15008	0x926F	鉯 (<CJK Ideograph>)";
"15009	0x9236	鈶 (<CJK Ideograph>)"
].
(* /repo/encoding_tables/whatwg/index-big5.txt:13825-14080 *)
Definition index_big5_txt_54 : list line := [
"15010	0x9261	鉡 (<CJK Ideograph>)";
"15011	0x9270	鉰 (<CJK Ideograph>)";
"15012	0x9231	鈱 (<CJK Ideograph>)";
"15013	0x9254	鉔 (<CJK Ideograph>)";
"15014	0x9263	鉣 (<CJK Ideograph>)";
"15015	0x9250	鉐 (<CJK Ideograph>)";
"15016	0x9272	鉲 (<CJK Ideograph>)";
"15017	0x924E	鉎 (<CJK Ideograph>)";
"15018	0x9253	鉓 (<CJK Ideograph>)";
"15019	0x924C	鉌 (<CJK Ideograph>)";
"15020	0x9256	鉖 (<CJK Ideograph>)";
"15021	0x9232	鈲 (<CJK Ideograph>)";
"15022	0x959F	閟 (<CJK Ideograph>)";
"15023	0x959C	閜 (<CJK Ideograph>)";
"15024	0x959E	閞 (<CJK Ideograph>)";
"15025	0x959B	閛 (<CJK Ideograph>)";
"15026	0x9692	隒 (<CJK Ideograph>)";
"15027	0x9693	隓 (<CJK Ideograph>)";
"15028	0x9691	隑 (<CJK Ideograph>)";
"15029	0x9697	隗 (<CJK Ideograph>)";
"15030	0x96CE	雎 (<CJK Ideograph>)";
"15031	0x96FA	雺 (<CJK Ideograph>)";
"15032	0x96FD	雽 (<CJK Ideograph>)";
"15033	0x96F8	雸 (<CJK Ideograph>)";
"15034	0x96F5	雵 (<CJK Ideograph>)";
"15035	0x9773	靳 (<CJK Ideograph>)";
"15036	0x9777	靷 (<CJK Ideograph>)";
"15037	0x9778	靸 (<CJK Ideograph>)";
"15038	0x9772	靲 (<CJK Ideograph>)";
"15039	0x980F	頏 (<CJK Ideograph>)";
"15040	0x980D	頍 (<CJK Ideograph>)";
"15041	0x980E	頎 (<CJK Ideograph>)";
"15042	0x98AC	颬 (<CJK Ideograph>)";
"15043	0x98F6	飶 (<CJK Ideograph>)";
"15044	0x98F9	飹 (<CJK Ideograph>)";
"15045	0x99AF	馯 (<CJK Ideograph>)";
"15046	0x99B2	馲 (<CJK Ideograph>)";
"15047	0x99B0	馰 (<CJK Ideograph>)";
"15048	0x99B5	馵 (<CJK Ideograph>)";
"15049	0x9AAD	骭 (<CJK Ideograph>)";
"15050	0x9AAB	骫 (<CJK Ideograph>)";
"15051	0x9B5B	魛 (<CJK Ideograph>)";
"15052	0x9CEA	鳪 (<CJK Ideograph>)";
"15053	0x9CED	鳭 (<CJK Ideograph>)";
"15054	0x9CE7	鳧 (<CJK Ideograph>)";
"15055	0x9E80	麀 (<CJK Ideograph>)";
"15056	0x9EFD	黽 (<CJK Ideograph>)";
"15057	0x50E6	僦 (<CJK Ideograph>)";
"15058	0x50D4	僔 (<CJK Ideograph>)";
"15059	0x50D7	僗 (<CJK Ideograph>)";
"15060	0x50E8	僨 (<CJK Ideograph>)";
"15061	0x50F3	僳 (<CJK Ideograph>)";
"15062	0x50DB	僛 (<CJK Ideograph>)";
"15063	0x50EA	僪 (<CJK Ideograph>)";
"15064	0x50DD	僝 (<CJK Ideograph>)";
"15065	0x50E4	僤 (<CJK Ideograph>)";
"15066	0x50D3	僓 (<CJK Ideograph>)";
"15067	0x50EC	僬 (<CJK Ideograph>)";
"15068	0x50F0	僰 (<CJK Ideograph>)";
"15069	0x50EF	僯 (<CJK Ideograph>)";
"15070	0x50E3	僣 (<CJK Ideograph>)";
"15071	0x50E0	僠 (<CJK Ideograph>)";
"15072	0x51D8	凘 (<CJK Ideograph>)";
"15073	0x5280	劀 (<CJK Ideograph>)";
"15074	0x5281	劁 (<CJK Ideograph>)";
"15075	0x52E9	勩 (<CJK Ideograph>)";
"15076	0x52EB	勫 (<CJK Ideograph>)";
"15077	0x5330	匰 (<CJK Ideograph>)";
"15078	0x53AC	厬 (<CJK Ideograph>)";
"15079	0x5627	嘧 (<CJK Ideograph>)";
"15080	0x5615	嘕 (<CJK Ideograph>)";
"15081	0x560C	嘌 (<CJK Ideograph>)";
"15082	0x5612	嘒 (<CJK Ideograph>)";
"15083	0x55FC	嗼 (<CJK Ideograph>)";
"15084	0x560F	嘏 (<CJK Ideograph>)";
"15085	0x561C	嘜 (<CJK Ideograph>)";
"15086	0x5601	嘁 (<CJK Ideograph>)";
"15087	0x5613	嘓 (<CJK Ideograph>)";
"15088	0x5602	嘂 (<CJK Ideograph>)";
"15089	0x55FA	嗺 (<CJK Ideograph>)";
"15090	0x561D	嘝 (<CJK Ideograph>)";
"15091	0x5604	嘄 (<CJK Ideograph>)";
"15092	0x55FF	嗿 (<CJK Ideograph>)";
"15093	0x55F9	嗹 (<CJK Ideograph>)";
"15094	0x5889	墉 (<CJK Ideograph>)";
"15095	0x587C	塼 (<CJK Ideograph>)";
"15096	0x5890	墐 (<CJK Ideograph>)";
"15097	0x5898	墘 (<CJK Ideograph>)";
"15098	0x5886	墆 (<CJK Ideograph>)";
"15099	0x5881	墁 (<CJK Ideograph>)";
"15100	0x587F	塿 (<CJK Ideograph>)";
"15101	0x5874	塴 (<CJK Ideograph>)";
"15102	0x588B	墋 (<CJK Ideograph>)";
"15103	0x587A	塺 (<CJK Ideograph>)";
"15104	0x5887	墇 (<CJK Ideograph>)";
"15105	0x5891	墑 (<CJK Ideograph>)";
"15106	0x588E	墎 (<CJK Ideograph>)";
"15107	0x5876	塶 (<CJK Ideograph>)";
"15108	0x5882	墂 (<CJK Ideograph>)";
"15109	0x5888	墈 (<CJK Ideograph>)";
"15110	0x587B	塻 (<CJK Ideograph>)";
"15111	0x5894	墔 (<CJK Ideograph>)";
"15112	0x588F	墏 (<CJK Ideograph>)";
"15113	0x58FE	壾 (<CJK Ideograph>)";
"15114	0x596B	奫 (<CJK Ideograph>)";
"15115	0x5ADC	嫜 (<CJK Ideograph>)";
"15116	0x5AEE	嫮 (<CJK Ideograph>)";
"15117	0x5AE5	嫥 (<CJK Ideograph>)";
"15118	0x5AD5	嫕 (<CJK Ideograph>)";
"15119	0x5AEA	嫪 (<CJK Ideograph>)";
"15120	0x5ADA	嫚 (<CJK Ideograph>)";
"15121	0x5AED	嫭 (<CJK Ideograph>)";
"15122	0x5AEB	嫫 (<CJK Ideograph>)";
"15123	0x5AF3	嫳 (<CJK Ideograph>)";
"15124	0x5AE2	嫢 (<CJK Ideograph>)";
"15125	0x5AE0	嫠 (<CJK Ideograph>)";
"15126	0x5ADB	嫛 (<CJK Ideograph>)";
"15127	0x5AEC	嫬 (<CJK Ideograph>)";
"15128	0x5ADE	嫞 (<CJK Ideograph>)";
"15129	0x5ADD	嫝 (<CJK Ideograph>)";
"15130	0x5AD9	嫙 (<CJK Ideograph>)";
"15131	0x5AE8	嫨 (<CJK Ideograph>)";
"15132	0x5ADF	嫟 (<CJK Ideograph>)";
"15133	0x5B77	孷 (<CJK Ideograph>)";
"15134	0x5BE0	寠 (<CJK Ideograph>)";
"15135	0x5BE3	寣 (<CJK Ideograph>)";
"15136	0x5C63	屣 (<CJK Ideograph>)";
"15137	0x5D82	嶂 (<CJK Ideograph>)";
"15138	0x5D80	嶀 (<CJK Ideograph>)";
"15139	0x5D7D	嵽 (<CJK Ideograph>)";
"15140	0x5D86	嶆 (<CJK Ideograph>)";
"15141	0x5D7A	嵺 (<CJK Ideograph>)";
"15142	0x5D81	嶁 (<CJK Ideograph>)";
"15143	0x5D77	嵷 (<CJK Ideograph>)";
"15144	0x5D8A	嶊 (<CJK Ideograph>)";
"15145	0x5D89	嶉 (<CJK Ideograph>)";
"15146	0x5D88	嶈 (<CJK Ideograph>)";
"15147	0x5D7E	嵾 (<CJK Ideograph>)";
"15148	0x5D7C	嵼 (<CJK Ideograph>)";
"15149	0x5D8D	嶍 (<CJK Ideograph>)";
"15150	0x5D79	嵹 (<CJK Ideograph>)";
"15151	0x5D7F	嵿 (<CJK Ideograph>)";
"15152	0x5E58	幘 (<CJK Ideograph>)";
"15153	0x5E59	幙 (<CJK Ideograph>)";
"15154	0x5E53	幓 (<CJK Ideograph>)";
"15155	0x5ED8	廘 (<CJK Ideograph>)";
"15156	0x5ED1	廑 (<CJK Ideograph>)";
"15157	0x5ED7	廗 (<CJK Ideograph>)";
"15158	0x5ECE	廎 (<CJK Ideograph>)";
"15159	0x5EDC	廜 (<CJK Ideograph>)";
"15160	0x5ED5	廕 (<CJK Ideograph>)";
"15161	0x5ED9	廙 (<CJK Ideograph>)";
"15162	0x5ED2	廒 (<CJK Ideograph>)";
"15163	0x5ED4	廔 (<CJK Ideograph>)";
"15164	0x5F44	彄 (<CJK Ideograph>)";
"15165	0x5F43	彃 (<CJK Ideograph>)";
"15166	0x5F6F	彯 (<CJK Ideograph>)";
"15167	0x5FB6	徶 (<CJK Ideograph>)";
"15168	0x612C	愬 (<CJK Ideograph>)";
"15169	0x6128	愨 (<CJK Ideograph>)";
"15170	0x6141	慁 (<CJK Ideograph>)";
"15171	0x615E	慞 (<CJK Ideograph>)";
"15172	0x6171	慱 (<CJK Ideograph>)";
"15173	0x6173	慳 (<CJK Ideograph>)";
"15174	0x6152	慒 (<CJK Ideograph>)";
"15175	0x6153	慓 (<CJK Ideograph>)";
"15176	0x6172	慲 (<CJK Ideograph>)";
"15177	0x616C	慬 (<CJK Ideograph>)";
"15178	0x6180	憀 (<CJK Ideograph>)";
"15179	0x6174	慴 (<CJK Ideograph>)";
"15180	0x6154	慔 (<CJK Ideograph>)";
"15181	0x617A	慺 (<CJK Ideograph>)";
"15182	0x615B	慛 (<CJK Ideograph>)";
"15183	0x6165	慥 (<CJK Ideograph>)";
"15184	0x613B	愻 (<CJK Ideograph>)";
"15185	0x616A	慪 (<CJK Ideograph>)";
"15186	0x6161	慡 (<CJK Ideograph>)";
"15187	0x6156	慖 (<CJK Ideograph>)";
"15188	0x6229	戩 (<CJK Ideograph>)";
"15189	0x6227	戧 (<CJK Ideograph>)";
"15190	0x622B	戫 (<CJK Ideograph>)";
"15191	0x642B	搫 (<CJK Ideograph>)";
"15192	0x644D	摍 (<CJK Ideograph>)";
"15193	0x645B	摛 (<CJK Ideograph>)";
"15194	0x645D	摝 (<CJK Ideograph>)";
"15195	0x6474	摴 (<CJK Ideograph>)";
"15196	0x6476	摶 (<CJK Ideograph>)";
"15197	0x6472	摲 (<CJK Ideograph>)";
"15198	0x6473	摳 (<CJK Ideograph>)";
"15199	0x647D	摽 (<CJK Ideograph>)";
"15200	0x6475	摵 (<CJK Ideograph>)";
"15201	0x6466	摦 (<CJK Ideograph>)";
"15202	0x64A6	撦 (<CJK Ideograph>)";
"15203	0x644E	摎 (<CJK Ideograph>)";
"15204	0x6482	撂 (<CJK Ideograph>)";
"15205	0x645E	摞 (<CJK Ideograph>)";
"15206	0x645C	摜 (<CJK Ideograph>)";
"15207	0x644B	摋 (<CJK Ideograph>)";
"15208	0x6453	摓 (<CJK Ideograph>)";
"15209	0x6460	摠 (<CJK Ideograph>)";
"15210	0x6450	摐 (<CJK Ideograph>)";
"15211	0x647F	摿 (<CJK Ideograph>)";
"15212	0x643F	搿 (<CJK Ideograph>)";
"15213	0x646C	摬 (<CJK Ideograph>)";
"15214	0x646B	摫 (<CJK Ideograph>)";
"15215	0x6459	摙 (<CJK Ideograph>)";
"15216	0x6465	摥 (<CJK Ideograph>)";
"15217	0x6477	摷 (<CJK Ideograph>)";
"15218	0x6573	敳 (<CJK Ideograph>)";
"15219	0x65A0	斠 (<CJK Ideograph>)";
"15220	0x66A1	暡 (<CJK Ideograph>)";
"15221	0x66A0	暠 (<CJK Ideograph>)";
"15222	0x669F	暟 (<CJK Ideograph>)";
"15223	0x6705	朅 (<CJK Ideograph>)";
"15224	0x6704	朄 (<CJK Ideograph>)";
"15225	0x6722	朢 (<CJK Ideograph>)";
"15226	0x69B1	榱 (<CJK Ideograph>)";
"15227	0x69B6	榶 (<CJK Ideograph>)";
"15228	0x69C9	槉 (<CJK Ideograph>)";
"15229	0x69A0	榠 (<CJK Ideograph>)";
"15230	0x69CE	槎 (<CJK Ideograph>)";
"15231	0x6996	榖 (<CJK Ideograph>)";
"15232	0x69B0	榰 (<CJK Ideograph>)";
"15233	0x69AC	榬 (<CJK Ideograph>)";
"15234	0x69BC	榼 (<CJK Ideograph>)";
"15235	0x6991	榑 (<CJK Ideograph>)";
"15236	0x6999	榙 (<CJK Ideograph>)";
"15237	0x698E	榎 (<CJK Ideograph>)";
"15238	0x69A7	榧 (<CJK Ideograph>)";
"15239	0x698D	榍 (<CJK Ideograph>)";
"15240	0x69A9	榩 (<CJK Ideograph>)";
"15241	0x69BE	榾 (<CJK Ideograph>)";
"15242	0x69AF	榯 (<CJK Ideograph>)";
"15243	0x69BF	榿 (<CJK Ideograph>)";
"15244	0x69C4	槄 (<CJK Ideograph>)";
"15245	0x69BD	榽 (<CJK Ideograph>)";
"15246	0x69A4	榤 (<CJK Ideograph>)";
"15247	0x69D4	槔 (<CJK Ideograph>)";
"15248	0x69B9	榹 (<CJK Ideograph>)";
"15249	0x69CA	槊 (<CJK Ideograph>)";
"15250	0x699A	榚 (<CJK Ideograph>)";
"15251	0x69CF	槏 (<CJK Ideograph>)";
"15252	0x69B3	榳 (<CJK Ideograph>)";
"15253	0x6993	榓 (<CJK Ideograph>)";
"15254	0x69AA	榪 (<CJK Ideograph>)";
"15255	0x69A1	榡 (<CJK Ideograph>)";
"15256	0x699E	榞 (<CJK Ideograph>)";
"15257	0x69D9	槙 (<CJK Ideograph>)";
"15258	0x6997	榗 (<CJK Ideograph>)";
"15259	0x6990	榐 (<CJK Ideograph>)";
"15260	0x69C2	槂 (<CJK Ideograph>)";
"15261	0x69B5	榵 (<CJK Ideograph>)";
"15262	0x69A5	榥 (<CJK Ideograph>)";
"15263	0x69C6	槆 (<CJK Ideograph>)";
"15264	0x6B4A	歊 (<CJK Ideograph>)";
"15265	0x6B4D	歍 (<CJK Ideograph>)"
].
(* /repo/encoding_tables/whatwg/index-big5.txt:14081-14336 *)
Definition index_big5_txt_55 : list line := [
"15266	0x6B4B	歋 (<CJK Ideograph>)";
"15267	0x6B9E	殞 (<CJK Ideograph>)";
"15268	0x6B9F	殟 (<CJK Ideograph>)";
"15269	0x6BA0	殠 (<CJK Ideograph>)";
"15270	0x6BC3	毃 (<CJK Ideograph>)";
"15271	0x6BC4	毄 (<CJK Ideograph>)";
"15272	0x6BFE	毾 (<CJK Ideograph>)";
"15273	0x6ECE	滎 (<CJK Ideograph>)";
"15274	0x6EF5	滵 (<CJK Ideograph>)";
"15275	0x6EF1	滱 (<CJK Ideograph>)";
"15276	0x6F03	漃 (<CJK Ideograph>)";
"15277	0x6F25	漥 (<CJK Ideograph>)";
"15278	0x6EF8	滸 (<CJK Ideograph>)";
"15279	0x6F37	漷 (<CJK Ideograph>)";
"15280	0x6EFB	滻 (<CJK Ideograph>)";
"15281	0x6F2E	漮 (<CJK Ideograph>)";
"15282	0x6F09	漉 (<CJK Ideograph>)";
"15283	0x6F4E	潎 (<CJK Ideograph>)";
"15284	0x6F19	漙 (<CJK Ideograph>)";
"15285	0x6F1A	漚 (<CJK Ideograph>)";
"15286	0x6F27	漧 (<CJK Ideograph>)";
"15287	0x6F18	漘 (<CJK Ideograph>)";
"15288	0x6F3B	漻 (<CJK Ideograph>)";
"15289	0x6F12	漒 (<CJK Ideograph>)";
"15290	0x6EED	滭 (<CJK Ideograph>)";
"15291	0x6F0A	漊 (<CJK Ideograph>)";
"15292	0x6F36	漶 (<CJK Ideograph>)";
"15293	0x6F73	潳 (<CJK Ideograph>)";
"15294	0x6EF9	滹 (<CJK Ideograph>)";
"15295	0x6EEE	滮 (<CJK Ideograph>)";
"15296	0x6F2D	漭 (<CJK Ideograph>)";
"15297	0x6F40	潀 (<CJK Ideograph>)";
"15298	0x6F30	漰 (<CJK Ideograph>)";
"15299	0x6F3C	漼 (<CJK Ideograph>)";
"15300	0x6F35	漵 (<CJK Ideograph>)";
"15301	0x6EEB	滫 (<CJK Ideograph>)";
"15302	0x6F07	漇 (<CJK Ideograph>)";
"15303	0x6F0E	漎 (<CJK Ideograph>)";
"15304	0x6F43	潃 (<CJK Ideograph>)";
"15305	0x6F05	漅 (<CJK Ideograph>)";
"15306	0x6EFD	滽 (<CJK Ideograph>)";
"15307	0x6EF6	滶 (<CJK Ideograph>)";
"15308	0x6F39	漹 (<CJK Ideograph>)";
"15309	0x6F1C	漜 (<CJK Ideograph>)";
"15310	0x6EFC	滼 (<CJK Ideograph>)";
"15311	0x6F3A	漺 (<CJK Ideograph>)";
"15312	0x6F1F	漟 (<CJK Ideograph>)";
"15313	0x6F0D	漍 (<CJK Ideograph>)";
"15314	0x6F1E	漞 (<CJK Ideograph>)";
"15315	0x6F08	漈 (<CJK Ideograph>)";
"15316	0x6F21	漡 (<CJK Ideograph>)";
"15317	0x7187	熇 (<CJK Ideograph>)";
"15318	0x7190	熐 (<CJK Ideograph>)";
"15319	0x7189	熉 (<CJK Ideograph>)";
"15320	0x7180	熀 (<CJK Ideograph>)";
"15321	0x7185	熅 (<CJK Ideograph>)";
"15322	0x7182	熂 (<CJK Ideograph>)";
"15323	0x718F	熏 (<CJK Ideograph>)";
"15324	0x717B	煻 (<CJK Ideograph>)";
"15325	0x7186	熆 (<CJK Ideograph>)";
"15326	0x7181	熁 (<CJK Ideograph>)";
"15327	0x7197	熗 (<CJK Ideograph>)";
"15328	0x7244	牄 (<CJK Ideograph>)";
"15329	0x7253	牓 (<CJK Ideograph>)";
"15330	0x7297	犗 (<CJK Ideograph>)";
"15331	0x7295	犕 (<CJK Ideograph>)";
"15332	0x7293	犓 (<CJK Ideograph>)";
"15333	0x7343	獃 (<CJK Ideograph>)";
"15334	0x734D	獍 (<CJK Ideograph>)";
"15335	0x7351	獑 (<CJK Ideograph>)";
"15336	0x734C	獌 (<CJK Ideograph>)";
"15337	0x7462	瑢 (<CJK Ideograph>)";
"15338	0x7473	瑳 (<CJK Ideograph>)";
"15339	0x7471	瑱 (<CJK Ideograph>)";
"15340	0x7475	瑵 (<CJK Ideograph>)";
"15341	0x7472	瑲 (<CJK Ideograph>)";
"15342	0x7467	瑧 (<CJK Ideograph>)";
"15343	0x746E	瑮 (<CJK Ideograph>)";
"15344	0x7500	甀 (<CJK Ideograph>)";
"15345	0x7502	甂 (<CJK Ideograph>)";
"15346	0x7503	甃 (<CJK Ideograph>)";
"15347	0x757D	畽 (<CJK Ideograph>)";
"15348	0x7590	疐 (<CJK Ideograph>)";
"15349	0x7616	瘖 (<CJK Ideograph>)";
"15350	0x7608	瘈 (<CJK Ideograph>)";
"15351	0x760C	瘌 (<CJK Ideograph>)";
"15352	0x7615	瘕 (<CJK Ideograph>)";
"15353	0x7611	瘑 (<CJK Ideograph>)";
"15354	0x760A	瘊 (<CJK Ideograph>)";
"15355	0x7614	瘔 (<CJK Ideograph>)";
"15356	0x76B8	皸 (<CJK Ideograph>)";
"15357	0x7781	瞁 (<CJK Ideograph>)";
"15358	0x777C	睼 (<CJK Ideograph>)";
"15359	0x7785	瞅 (<CJK Ideograph>)";
"15360	0x7782	瞂 (<CJK Ideograph>)";
"15361	0x776E	睮 (<CJK Ideograph>)";
"15362	0x7780	瞀 (<CJK Ideograph>)";
"15363	0x776F	睯 (<CJK Ideograph>)";
"15364	0x777E	睾 (<CJK Ideograph>)";
"15365	0x7783	瞃 (<CJK Ideograph>)";
"15366	0x78B2	碲 (<CJK Ideograph>)";
"15367	0x78AA	碪 (<CJK Ideograph>)";
"15368	0x78B4	碴 (<CJK Ideograph>)";
"15369	0x78AD	碭 (<CJK Ideograph>)";
"15370	0x78A8	碨 (<CJK Ideograph>)";
"15371	0x787E	硾 (<CJK Ideograph>)";
"15372	0x78AB	碫 (<CJK Ideograph>)";
"15373	0x789E	碞 (<CJK Ideograph>)";
"15374	0x78A5	碥 (<CJK Ideograph>)";
"15375	0x78A0	碠 (<CJK Ideograph>)";
"15376	0x78AC	碬 (<CJK Ideograph>)";
"15377	0x78A2	碢 (<CJK Ideograph>)";
"15378	0x78A4	碤 (<CJK Ideograph>)";
"15379	0x7998	禘 (<CJK Ideograph>)";
"15380	0x798A	禊 (<CJK Ideograph>)";
"15381	0x798B	禋 (<CJK Ideograph>)";
"15382	0x7996	禖 (<CJK Ideograph>)";
"15383	0x7995	禕 (<CJK Ideograph>)";
"15384	0x7994	禔 (<CJK Ideograph>)";
"15385	0x7993	禓 (<CJK Ideograph>)";
"15386	0x7997	禗 (<CJK Ideograph>)";
"15387	0x7988	禈 (<CJK Ideograph>)";
"15388	0x7992	禒 (<CJK Ideograph>)";
"15389	0x7990	禐 (<CJK Ideograph>)";
"15390	0x7A2B	稫 (<CJK Ideograph>)";
"15391	0x7A4A	穊 (<CJK Ideograph>)";
"15392	0x7A30	稰 (<CJK Ideograph>)";
"15393	0x7A2F	稯 (<CJK Ideograph>)";
"15394	0x7A28	稨 (<CJK Ideograph>)";
"15395	0x7A26	稦 (<CJK Ideograph>)";
"15396	0x7AA8	窨 (<CJK Ideograph>)";
"15397	0x7AAB	窫 (<CJK Ideograph>)";
"15398	0x7AAC	窬 (<CJK Ideograph>)";
"15399	0x7AEE	竮 (<CJK Ideograph>)";
"15400	0x7B88	箈 (<CJK Ideograph>)";
"15401	0x7B9C	箜 (<CJK Ideograph>)";
"15402	0x7B8A	箊 (<CJK Ideograph>)";
"15403	0x7B91	箑 (<CJK Ideograph>)";
"15404	0x7B90	箐 (<CJK Ideograph>)";
"15405	0x7B96	箖 (<CJK Ideograph>)";
"15406	0x7B8D	箍 (<CJK Ideograph>)";
"15407	0x7B8C	箌 (<CJK Ideograph>)";
"15408	0x7B9B	箛 (<CJK Ideograph>)";
"15409	0x7B8E	箎 (<CJK Ideograph>)";
"15410	0x7B85	箅 (<CJK Ideograph>)";
"15411	0x7B98	箘 (<CJK Ideograph>)";
"15412	0x5284	劄 (<CJK Ideograph>)";
"15413	0x7B99	箙 (<CJK Ideograph>)";
"15414	0x7BA4	箤 (<CJK Ideograph>)";
"15415	0x7B82	箂 (<CJK Ideograph>)";
"15416	0x7CBB	粻 (<CJK Ideograph>)";
"15417	0x7CBF	粿 (<CJK Ideograph>)";
"15418	0x7CBC	粼 (<CJK Ideograph>)";
"15419	0x7CBA	粺 (<CJK Ideograph>)";
"15420	0x7DA7	綧 (<CJK Ideograph>)";
"15421	0x7DB7	綷 (<CJK Ideograph>)";
"15422	0x7DC2	緂 (<CJK Ideograph>)";
"15423	0x7DA3	綣 (<CJK Ideograph>)";
"15424	0x7DAA	綪 (<CJK Ideograph>)";
"15425	0x7DC1	緁 (<CJK Ideograph>)";
"15426	0x7DC0	緀 (<CJK Ideograph>)";
"15427	0x7DC5	緅 (<CJK Ideograph>)";
"15428	0x7D9D	綝 (<CJK Ideograph>)";
"15429	0x7DCE	緎 (<CJK Ideograph>)";
"15430	0x7DC4	緄 (<CJK Ideograph>)";
"15431	0x7DC6	緆 (<CJK Ideograph>)";
"15432	0x7DCB	緋 (<CJK Ideograph>)";
"15433	0x7DCC	緌 (<CJK Ideograph>)";
"15434	0x7DAF	綯 (<CJK Ideograph>)";
"15435	0x7DB9	綹 (<CJK Ideograph>)";
"15436	0x7D96	綖 (<CJK Ideograph>)";
"15437	0x7DBC	綼 (<CJK Ideograph>)";
"15438	0x7D9F	綟 (<CJK Ideograph>)";
"15439	0x7DA6	綦 (<CJK Ideograph>)";
"15440	0x7DAE	綮 (<CJK Ideograph>)";
"15441	0x7DA9	綩 (<CJK Ideograph>)";
"15442	0x7DA1	綡 (<CJK Ideograph>)";
"15443	0x7DC9	緉 (<CJK Ideograph>)";
"15444	0x7F73	罳 (<CJK Ideograph>)";
"15445	0x7FE2	翢 (<CJK Ideograph>)";
"15446	0x7FE3	翣 (<CJK Ideograph>)";
"15447	0x7FE5	翥 (<CJK Ideograph>)";
"15448	0x7FDE	翞 (<CJK Ideograph>)";
"15449	0x8024	耤 (<CJK Ideograph>)";
"15450	0x805D	聝 (<CJK Ideograph>)";
"15451	0x805C	聜 (<CJK Ideograph>)";
"15452	0x8189	膉 (<CJK Ideograph>)";
"15453	0x8186	膆 (<CJK Ideograph>)";
"15454	0x8183	膃 (<CJK Ideograph>)";
"15455	0x8187	膇 (<CJK Ideograph>)";
"15456	0x818D	膍 (<CJK Ideograph>)";
"15457	0x818C	膌 (<CJK Ideograph>)";
"15458	0x818B	膋 (<CJK Ideograph>)";
"15459	0x8215	舕 (<CJK Ideograph>)";
"15460	0x8497	蒗 (<CJK Ideograph>)";
"15461	0x84A4	蒤 (<CJK Ideograph>)";
"15462	0x84A1	蒡 (<CJK Ideograph>)";
"15463	0x849F	蒟 (<CJK Ideograph>)";
"15464	0x84BA	蒺 (<CJK Ideograph>)";
"15465	0x84CE	蓎 (<CJK Ideograph>)";
"15466	0x84C2	蓂 (<CJK Ideograph>)";
"15467	0x84AC	蒬 (<CJK Ideograph>)";
"15468	0x84AE	蒮 (<CJK Ideograph>)";
"15469	0x84AB	蒫 (<CJK Ideograph>)";
"15470	0x84B9	蒹 (<CJK Ideograph>)";
"15471	0x84B4	蒴 (<CJK Ideograph>)";
"15472	0x84C1	蓁 (<CJK Ideograph>)";
"15473	0x84CD	蓍 (<CJK Ideograph>)";
"15474	0x84AA	蒪 (<CJK Ideograph>)";
"15475	0x849A	蒚 (<CJK Ideograph>)";
"15476	0x84B1	蒱 (<CJK Ideograph>)";
"15477	0x84D0	蓐 (<CJK Ideograph>)";
"15478	0x849D	蒝 (<CJK Ideograph>)";
"15479	0x84A7	蒧 (<CJK Ideograph>)";
"15480	0x84BB	蒻 (<CJK Ideograph>)";
"15481	0x84A2	蒢 (<CJK Ideograph>)";
"15482	0x8494	蒔 (<CJK Ideograph>)";
"15483	0x84C7	蓇 (<CJK Ideograph>)";
"15484	0x84CC	蓌 (<CJK Ideograph>)";
"15485	0x849B	蒛 (<CJK Ideograph>)";
"15486	0x84A9	蒩 (<CJK Ideograph>)";
"15487	0x84AF	蒯 (<CJK Ideograph>)";
"15488	0x84A8	蒨 (<CJK Ideograph>)";
"15489	0x84D6	蓖 (<CJK Ideograph>)";
"15490	0x8498	蒘 (<CJK Ideograph>)";
"15491	0x84B6	蒶 (<CJK Ideograph>)";
"15492	0x84CF	蓏 (<CJK Ideograph>)";
"15493	0x84A0	蒠 (<CJK Ideograph>)";
"15494	0x84D7	蓗 (<CJK Ideograph>)";
"15495	0x84D4	蓔 (<CJK Ideograph>)";
"15496	0x84D2	蓒 (<CJK Ideograph>)";
"15497	0x84DB	蓛 (<CJK Ideograph>)";
"15498	0x84B0	蒰 (<CJK Ideograph>)";
"15499	0x8491	蒑 (<CJK Ideograph>)";
"15500	0x8661	虡 (<CJK Ideograph>)";
"15501	0x8733	蜳 (<CJK Ideograph>)";
"15502	0x8723	蜣 (<CJK Ideograph>)";
"15503	0x8728	蜨 (<CJK Ideograph>)";
"15504	0x876B	蝫 (<CJK Ideograph>)";
"15505	0x8740	蝀 (<CJK Ideograph>)";
"15506	0x872E	蜮 (<CJK Ideograph>)";
"15507	0x871E	蜞 (<CJK Ideograph>)";
"15508	0x8721	蜡 (<CJK Ideograph>)";
"15509	0x8719	蜙 (<CJK Ideograph>)";
"15510	0x871B	蜛 (<CJK Ideograph>)";
"15511	0x8743	蝃 (<CJK Ideograph>)";
"15512	0x872C	蜬 (<CJK Ideograph>)";
"15513	0x8741	蝁 (<CJK Ideograph>)";
"15514	0x873E	蜾 (<CJK Ideograph>)";
"15515	0x8746	蝆 (<CJK Ideograph>)";
"15516	0x8720	蜠 (<CJK Ideograph>)";
"15517	0x8732	蜲 (<CJK Ideograph>)";
"15518	0x872A	蜪 (<CJK Ideograph>)";
"15519	0x872D	蜭 (<CJK Ideograph>)";
"15520	0x873C	蜼 (<CJK Ideograph>)";
"15521	0x8712	蜒 (<CJK Ideograph>)"
].
(* /repo/encoding_tables/whatwg/index-big5.txt:14337-14592 *)
Definition index_big5_txt_56 : list line := [
"15522	0x873A	蜺 (<CJK Ideograph>)";
"15523	0x8731	蜱 (<CJK Ideograph>)";
"15524	0x8735	蜵 (<CJK Ideograph>)";
"15525	0x8742	蝂 (<CJK Ideograph>)";
"15526	0x8726	蜦 (<CJK Ideograph>)";
"15527	0x8727	蜧 (<CJK Ideograph>)";
"15528	0x8738	蜸 (<CJK Ideograph>)";
"15529	0x8724	蜤 (<CJK Ideograph>)";
"15530	0x871A	蜚 (<CJK Ideograph>)";
"15531	0x8730	蜰 (<CJK Ideograph>)";
"15532	0x8711	蜑 (<CJK Ideograph>)";
"15533	0x88F7	裷 (<CJK Ideograph>)";
"15534	0x88E7	裧 (<CJK Ideograph>)";
"15535	0x88F1	裱 (<CJK Ideograph>)";
"15536	0x88F2	裲 (<CJK Ideograph>)";
"15537	0x88FA	裺 (<CJK Ideograph>)";
"15538	0x88FE	裾 (<CJK Ideograph>)";
"15539	0x88EE	裮 (<CJK Ideograph>)";
"15540	0x88FC	裼 (<CJK Ideograph>)";
"15541	0x88F6	裶 (<CJK Ideograph>)";
"15542	0x88FB	裻 (<CJK Ideograph>)";
"15543	0x88F0	裰 (<CJK Ideograph>)";
"15544	0x88EC	裬 (<CJK Ideograph>)";
"15545	0x88EB	裫 (<CJK Ideograph>)";
"15546	0x899D	覝 (<CJK Ideograph>)";
"15547	0x89A1	覡 (<CJK Ideograph>)";
"15548	0x899F	覟 (<CJK Ideograph>)";
"15549	0x899E	覞 (<CJK Ideograph>)";
"15550	0x89E9	觩 (<CJK Ideograph>)";
"15551	0x89EB	觫 (<CJK Ideograph>)";
"15552	0x89E8	觨 (<CJK Ideograph>)";
"15553	0x8AAB	誫 (<CJK Ideograph>)";
"15554	0x8A99	誙 (<CJK Ideograph>)";
"15555	0x8A8B	誋 (<CJK Ideograph>)";
"15556	0x8A92	誒 (<CJK Ideograph>)";
"15557	0x8A8F	誏 (<CJK Ideograph>)";
"15558	0x8A96	誖 (<CJK Ideograph>)";
"15559	0x8C3D	谽 (<CJK Ideograph>)";
"15560	0x8C68	豨 (<CJK Ideograph>)";
"15561	0x8C69	豩 (<CJK Ideograph>)";
"15562	0x8CD5	賕 (<CJK Ideograph>)";
"15563	0x8CCF	賏 (<CJK Ideograph>)";
"15564	0x8CD7	賗 (<CJK Ideograph>)";
"15565	0x8D96	趖 (<CJK Ideograph>)";
"15566	0x8E09	踉 (<CJK Ideograph>)";
"15567	0x8E02	踂 (<CJK Ideograph>)";
"15568	0x8DFF	跿 (<CJK Ideograph>)";
"15569	0x8E0D	踍 (<CJK Ideograph>)";
"15570	0x8DFD	跽 (<CJK Ideograph>)";
"15571	0x8E0A	踊 (<CJK Ideograph>)";
"15572	0x8E03	踃 (<CJK Ideograph>)";
"15573	0x8E07	踇 (<CJK Ideograph>)";
"15574	0x8E06	踆 (<CJK Ideograph>)";
"15575	0x8E05	踅 (<CJK Ideograph>)";
"15576	0x8DFE	跾 (<CJK Ideograph>)";
"15577	0x8E00	踀 (<CJK Ideograph>)";
"15578	0x8E04	踄 (<CJK Ideograph>)";
"15579	0x8F10	輐 (<CJK Ideograph>)";
"15580	0x8F11	輑 (<CJK Ideograph>)";
"15581	0x8F0E	輎 (<CJK Ideograph>)";
"15582	0x8F0D	輍 (<CJK Ideograph>)";
"15583	0x9123	鄣 (<CJK Ideograph>)";
"15584	0x911C	鄜 (<CJK Ideograph>)";
"15585	0x9120	鄠 (<CJK Ideograph>)";
"15586	0x9122	鄢 (<CJK Ideograph>)";
"15587	0x911F	鄟 (<CJK Ideograph>)";
"15588	0x911D	鄝 (<CJK Ideograph>)";
"15589	0x911A	鄚 (<CJK Ideograph>)";
"15590	0x9124	鄤 (<CJK Ideograph>)";
"15591	0x9121	鄡 (<CJK Ideograph>)";
"15592	0x911B	鄛 (<CJK Ideograph>)";
"15593	0x917A	酺 (<CJK Ideograph>)";
"15594	0x9172	酲 (<CJK Ideograph>)";
"15595	0x9179	酹 (<CJK Ideograph>)";
"15596	0x9173	酳 (<CJK Ideograph>)";
"15597	0x92A5	銥 (<CJK Ideograph>)";
"15598	0x92A4	銤 (<CJK Ideograph>)";
"15599	0x9276	鉶 (<CJK Ideograph>)";
"15600	0x929B	銛 (<CJK Ideograph>)";
"15601	0x927A	鉺 (<CJK Ideograph>)";
"15602	0x92A0	銠 (<CJK Ideograph>)";
"15603	0x9294	銔 (<CJK Ideograph>)";
"15604	0x92AA	銪 (<CJK Ideograph>)";
"15605	0x928D	銍 (<CJK Ideograph>)";
"15606	0x92A6	銦 (<CJK Ideograph>)";
"15607	0x929A	銚 (<CJK Ideograph>)";
"15608	0x92AB	銫 (<CJK Ideograph>)";
"15609	0x9279	鉹 (<CJK Ideograph>)";
"15610	0x9297	銗 (<CJK Ideograph>)";
"15611	0x927F	鉿 (<CJK Ideograph>)";
"15612	0x92A3	銣 (<CJK Ideograph>)";
"15613	0x92EE	鋮 (<CJK Ideograph>)";
"15614	0x928E	銎 (<CJK Ideograph>)";
"15615	0x9282	銂 (<CJK Ideograph>)";
"15616	0x9295	銕 (<CJK Ideograph>)";
"15617	0x92A2	銢 (<CJK Ideograph>)";
"15618	0x927D	鉽 (<CJK Ideograph>)";
"15619	0x9288	銈 (<CJK Ideograph>)";
"15620	0x92A1	銡 (<CJK Ideograph>)";
"15621	0x928A	銊 (<CJK Ideograph>)";
"15622	0x9286	銆 (<CJK Ideograph>)";
"15623	0x928C	銌 (<CJK Ideograph>)";
"15624	0x9299	銙 (<CJK Ideograph>)";
"15625	0x92A7	銧 (<CJK Ideograph>)";
"15626	0x927E	鉾 (<CJK Ideograph>)";
"15627	0x9287	銇 (<CJK Ideograph>)";
"15628	0x92A9	銩 (<CJK Ideograph>)";
"15629	0x929D	銝 (<CJK Ideograph>)";
"15630	0x928B	銋 (<CJK Ideograph>)";
"15631	0x922D	鈭 (<CJK Ideograph>)";
"15632	0x969E	隞 (<CJK Ideograph>)";
"15633	0x96A1	隡 (<CJK Ideograph>)";
"15634	0x96FF	雿 (<CJK Ideograph>)";
"15635	0x9758	靘 (<CJK Ideograph>)";
"15636	0x977D	靽 (<CJK Ideograph>)";
"15637	0x977A	靺 (<CJK Ideograph>)";
"15638	0x977E	靾 (<CJK Ideograph>)";
"15639	0x9783	鞃 (<CJK Ideograph>)";
"15640	0x9780	鞀 (<CJK Ideograph>)";
"15641	0x9782	鞂 (<CJK Ideograph>)";
"15642	0x977B	靻 (<CJK Ideograph>)";
"15643	0x9784	鞄 (<CJK Ideograph>)";
"15644	0x9781	鞁 (<CJK Ideograph>)";
"15645	0x977F	靿 (<CJK Ideograph>)";
"15646	0x97CE	韎 (<CJK Ideograph>)";
"15647	0x97CD	韍 (<CJK Ideograph>)";
"15648	0x9816	頖 (<CJK Ideograph>)";
"15649	0x98AD	颭 (<CJK Ideograph>)";
"15650	0x98AE	颮 (<CJK Ideograph>)";
"15651	0x9902	餂 (<CJK Ideograph>)";
"15652	0x9900	餀 (<CJK Ideograph>)";
"15653	0x9907	餇 (<CJK Ideograph>)";
"15654	0x999D	馝 (<CJK Ideograph>)";
"15655	0x999C	馜 (<CJK Ideograph>)";
"15656	0x99C3	駃 (<CJK Ideograph>)";
"15657	0x99B9	馹 (<CJK Ideograph>)";
"15658	0x99BB	馻 (<CJK Ideograph>)";
"15659	0x99BA	馺 (<CJK Ideograph>)";
"15660	0x99C2	駂 (<CJK Ideograph>)";
"15661	0x99BD	馽 (<CJK Ideograph>)";
"15662	0x99C7	駇 (<CJK Ideograph>)";
"15663	0x9AB1	骱 (<CJK Ideograph>)";
"15664	0x9AE3	髣 (<CJK Ideograph>)";
"15665	0x9AE7	髧 (<CJK Ideograph>)";
"15666	0x9B3E	鬾 (<CJK Ideograph>)";
"15667	0x9B3F	鬿 (<CJK Ideograph>)";
"15668	0x9B60	魠 (<CJK Ideograph>)";
"15669	0x9B61	魡 (<CJK Ideograph>)";
"15670	0x9B5F	魟 (<CJK Ideograph>)";
"15671	0x9CF1	鳱 (<CJK Ideograph>)";
"15672	0x9CF2	鳲 (<CJK Ideograph>)";
"15673	0x9CF5	鳵 (<CJK Ideograph>)";
"15674	0x9EA7	麧 (<CJK Ideograph>)";
"15675	0x50FF	僿 (<CJK Ideograph>)";
"15676	0x5103	儃 (<CJK Ideograph>)";
"15677	0x5130	儰 (<CJK Ideograph>)";
"15678	0x50F8	僸 (<CJK Ideograph>)";
"15679	0x5106	儆 (<CJK Ideograph>)";
"15680	0x5107	儇 (<CJK Ideograph>)";
"15681	0x50F6	僶 (<CJK Ideograph>)";
"15682	0x50FE	僾 (<CJK Ideograph>)";
"15683	0x510B	儋 (<CJK Ideograph>)";
"15684	0x510C	儌 (<CJK Ideograph>)";
"15685	0x50FD	僽 (<CJK Ideograph>)";
"15686	0x510A	儊 (<CJK Ideograph>)";
"15687	0x528B	劋 (<CJK Ideograph>)";
"15688	0x528C	劌 (<CJK Ideograph>)";
"15689	0x52F1	勱 (<CJK Ideograph>)";
"15690	0x52EF	勯 (<CJK Ideograph>)";
"15691	0x5648	噈 (<CJK Ideograph>)";
"15692	0x5642	噂 (<CJK Ideograph>)";
"15693	0x564C	噌 (<CJK Ideograph>)";
"15694	0x5635	嘵 (<CJK Ideograph>)";
"15695	0x5641	噁 (<CJK Ideograph>)";
"15696	0x564A	噊 (<CJK Ideograph>)";
"15697	0x5649	噉 (<CJK Ideograph>)";
"15698	0x5646	噆 (<CJK Ideograph>)";
"15699	0x5658	噘 (<CJK Ideograph>)";
"15700	0x565A	噚 (<CJK Ideograph>)";
"15701	0x5640	噀 (<CJK Ideograph>)";
"15702	0x5633	嘳 (<CJK Ideograph>)";
"15703	0x563D	嘽 (<CJK Ideograph>)";
"15704	0x562C	嘬 (<CJK Ideograph>)";
"15705	0x563E	嘾 (<CJK Ideograph>)";
"15706	0x5638	嘸 (<CJK Ideograph>)";
"15707	0x562A	嘪 (<CJK Ideograph>)";
"15708	0x563A	嘺 (<CJK Ideograph>)";
"15709	0x571A	圚 (<CJK Ideograph>)";
"15710	0x58AB	墫 (<CJK Ideograph>)";
"15711	0x589D	墝 (<CJK Ideograph>)";
"15712	0x58B1	墱 (<CJK Ideograph>)";
"15713	0x58A0	墠 (<CJK Ideograph>)";
"15714	0x58A3	墣 (<CJK Ideograph>)";
"15715	0x58AF	墯 (<CJK Ideograph>)";
"15716	0x58AC	墬 (<CJK Ideograph>)";
"15717	0x58A5	墥 (<CJK Ideograph>)";
"15718	0x58A1	墡 (<CJK Ideograph>)";
"15719	0x58FF	壿 (<CJK Ideograph>)";
"15720	0x5AFF	嫿 (<CJK Ideograph>)";
"15721	0x5AF4	嫴 (<CJK Ideograph>)";
"15722	0x5AFD	嫽 (<CJK Ideograph>)";
"15723	0x5AF7	嫷 (<CJK Ideograph>)";
"15724	0x5AF6	嫶 (<CJK Ideograph>)";
"15725	0x5B03	嬃 (<CJK Ideograph>)";
"15726	0x5AF8	嫸 (<CJK Ideograph>)";
"15727	0x5B02	嬂 (<CJK Ideograph>)";
"15728	0x5AF9	嫹 (<CJK Ideograph>)";
"15729	0x5B01	嬁 (<CJK Ideograph>)";
"15730	0x5B07	嬇 (<CJK Ideograph>)";
"15731	0x5B05	嬅 (<CJK Ideograph>)";
"15732	0x5B0F	嬏 (<CJK Ideograph>)";
"15733	0x5C67	屧 (<CJK Ideograph>)";
"15734	0x5D99	嶙 (<CJK Ideograph>)";
"15735	0x5D97	嶗 (<CJK Ideograph>)";
"15736	0x5D9F	嶟 (<CJK Ideograph>)";
"15737	0x5D92	嶒 (<CJK Ideograph>)";
"15738	0x5DA2	嶢 (<CJK Ideograph>)";
"15739	0x5D93	嶓 (<CJK Ideograph>)";
"15740	0x5D95	嶕 (<CJK Ideograph>)";
"15741	0x5DA0	嶠 (<CJK Ideograph>)";
"15742	0x5D9C	嶜 (<CJK Ideograph>)";
"15743	0x5DA1	嶡 (<CJK Ideograph>)";
"15744	0x5D9A	嶚 (<CJK Ideograph>)";
"15745	0x5D9E	嶞 (<CJK Ideograph>)";
"15746	0x5E69	幩 (<CJK Ideograph>)";
"15747	0x5E5D	幝 (<CJK Ideograph>)";
"15748	0x5E60	幠 (<CJK Ideograph>)";
"15749	0x5E5C	幜 (<CJK Ideograph>)";
"15750	0x7DF3	緳 (<CJK Ideograph>)";
"15751	0x5EDB	廛 (<CJK Ideograph>)";
"15752	0x5EDE	廞 (<CJK Ideograph>)";
"15753	0x5EE1	廡 (<CJK Ideograph>)";
"15754	0x5F49	彉 (<CJK Ideograph>)";
"15755	0x5FB2	徲 (<CJK Ideograph>)";
"15756	0x618B	憋 (<CJK Ideograph>)";
"15757	0x6183	憃 (<CJK Ideograph>)";
"15758	0x6179	慹 (<CJK Ideograph>)";
"15759	0x61B1	憱 (<CJK Ideograph>)";
"15760	0x61B0	憰 (<CJK Ideograph>)";
"15761	0x61A2	憢 (<CJK Ideograph>)";
"15762	0x6189	憉 (<CJK Ideograph>)";
"15763	0x619B	憛 (<CJK Ideograph>)";
"15764	0x6193	憓 (<CJK Ideograph>)";
"15765	0x61AF	憯 (<CJK Ideograph>)";
"15766	0x61AD	憭 (<CJK Ideograph>)";
"15767	0x619F	憟 (<CJK Ideograph>)";
"15768	0x6192	憒 (<CJK Ideograph>)";
"15769	0x61AA	憪 (<CJK Ideograph>)";
"15770	0x61A1	憡 (<CJK Ideograph>)";
"15771	0x618D	憍 (<CJK Ideograph>)";
"15772	0x6166	慦 (<CJK Ideograph>)";
"15773	0x61B3	憳 (<CJK Ideograph>)";
"15774	0x622D	戭 (<CJK Ideograph>)";
"15775	0x646E	摮 (<CJK Ideograph>)";
"15776	0x6470	摰 (<CJK Ideograph>)";
"15777	0x6496	撖 (<CJK Ideograph>)"
].
(* /repo/encoding_tables/whatwg/index-big5.txt:14593-14848 *)
Definition index_big5_txt_57 : list line := [
"15778	0x64A0	撠 (<CJK Ideograph>)";
"15779	0x6485	撅 (<CJK Ideograph>)";
"15780	0x6497	撗 (<CJK Ideograph>)";
"15781	0x649C	撜 (<CJK Ideograph>)";
"15782	0x648F	撏 (<CJK Ideograph>)";
"15783	0x648B	撋 (<CJK Ideograph>)";
"15784	0x648A	撊 (<CJK Ideograph>)";
"15785	0x648C	撌 (<CJK Ideograph>)";
"15786	0x64A3	撣 (<CJK Ideograph>)";
"15787	0x649F	撟 (<CJK Ideograph>)";
"15788	0x6468	摨 (<CJK Ideograph>)";
"15789	0x64B1	撱 (<CJK Ideograph>)";
"15790	0x6498	撘 (<CJK Ideograph>)";
"15791	0x6576	敶 (<CJK Ideograph>)";
"15792	0x657A	敺 (<CJK Ideograph>)";
"15793	0x6579	敹 (<CJK Ideograph>)";
"15794	0x657B	敻 (<CJK Ideograph>)";
"15795	0x65B2	斲 (<CJK Ideograph>)";
"15796	0x65B3	斳 (<CJK Ideograph>)";
"15797	0x66B5	暵 (<CJK Ideograph>)";
"15798	0x66B0	暰 (<CJK Ideograph>)";
"15799	0x66A9	暩 (<CJK Ideograph>)";
"15800	0x66B2	暲 (<CJK Ideograph>)";
"15801	0x66B7	暷 (<CJK Ideograph>)";
"15802	0x66AA	暪 (<CJK Ideograph>)";
"15803	0x66AF	暯 (<CJK Ideograph>)";
"15804	0x6A00	樀 (<CJK Ideograph>)";
"15805	0x6A06	樆 (<CJK Ideograph>)";
"15806	0x6A17	樗 (<CJK Ideograph>)";
"15807	0x69E5	槥 (<CJK Ideograph>)";
"15808	0x69F8	槸 (<CJK Ideograph>)";
"15809	0x6A15	樕 (<CJK Ideograph>)";
"15810	0x69F1	槱 (<CJK Ideograph>)";
"15811	0x69E4	槤 (<CJK Ideograph>)";
"15812	0x6A20	樠 (<CJK Ideograph>)";
"15813	0x69FF	槿 (<CJK Ideograph>)";
"15814	0x69EC	槬 (<CJK Ideograph>)";
"15815	0x69E2	槢 (<CJK Ideograph>)";
"15816	0x6A1B	樛 (<CJK Ideograph>)";
"15817	0x6A1D	樝 (<CJK Ideograph>)";
"15818	0x69FE	槾 (<CJK Ideograph>)";
"15819	0x6A27	樧 (<CJK Ideograph>)";
"15820	0x69F2	槲 (<CJK Ideograph>)";
"15821	0x69EE	槮 (<CJK Ideograph>)";
"15822	0x6A14	樔 (<CJK Ideograph>)";
"15823	0x69F7	槷 (<CJK Ideograph>)";
"15824	0x69E7	槧 (<CJK Ideograph>)";
"15825	0x6A40	橀 (<CJK Ideograph>)";
"15826	0x6A08	樈 (<CJK Ideograph>)";
"15827	0x69E6	槦 (<CJK Ideograph>)";
"15828	0x69FB	槻 (<CJK Ideograph>)";
"15829	0x6A0D	樍 (<CJK Ideograph>)";
"15830	0x69FC	槼 (<CJK Ideograph>)";
"15831	0x69EB	槫 (<CJK Ideograph>)";
"15832	0x6A09	樉 (<CJK Ideograph>)";
"15833	0x6A04	樄 (<CJK Ideograph>)";
"15834	0x6A18	樘 (<CJK Ideograph>)";
"15835	0x6A25	樥 (<CJK Ideograph>)";
"15836	0x6A0F	樏 (<CJK Ideograph>)";
"15837	0x69F6	槶 (<CJK Ideograph>)";
"15838	0x6A26	樦 (<CJK Ideograph>)";
"15839	0x6A07	樇 (<CJK Ideograph>)";
"15840	0x69F4	槴 (<CJK Ideograph>)";
"15841	0x6A16	樖 (<CJK Ideograph>)";
"15842	0x6B51	歑 (<CJK Ideograph>)";
"15843	0x6BA5	殥 (<CJK Ideograph>)";
"15844	0x6BA3	殣 (<CJK Ideograph>)";
"15845	0x6BA2	殢 (<CJK Ideograph>)";
"15846	0x6BA6	殦 (<CJK Ideograph>)";
"15847	0x6C01	氁 (<CJK Ideograph>)";
"15848	0x6C00	氀 (<CJK Ideograph>)";
"15849	0x6BFF	毿 (<CJK Ideograph>)";
"15850	0x6C02	氂 (<CJK Ideograph>)";
"15851	0x6F41	潁 (<CJK Ideograph>)";
"15852	0x6F26	漦 (<CJK Ideograph>)";
"15853	0x6F7E	潾 (<CJK Ideograph>)";
"15854	0x6F87	澇 (<CJK Ideograph>)";
"15855	0x6FC6	濆 (<CJK Ideograph>)";
"15856	0x6F92	澒 (<CJK Ideograph>)";
"15857	0x6F8D	澍 (<CJK Ideograph>)";
"15858	0x6F89	澉 (<CJK Ideograph>)";
"15859	0x6F8C	澌 (<CJK Ideograph>)";
"15860	0x6F62	潢 (<CJK Ideograph>)";
"15861	0x6F4F	潏 (<CJK Ideograph>)";
"15862	0x6F85	澅 (<CJK Ideograph>)";
"15863	0x6F5A	潚 (<CJK Ideograph>)";
"15864	0x6F96	澖 (<CJK Ideograph>)";
"15865	0x6F76	潶 (<CJK Ideograph>)";
"15866	0x6F6C	潬 (<CJK Ideograph>)";
"15867	0x6F82	澂 (<CJK Ideograph>)";
"15868	0x6F55	潕 (<CJK Ideograph>)";
"15869	0x6F72	潲 (<CJK Ideograph>)";
"15870	0x6F52	潒 (<CJK Ideograph>)";
"15871	0x6F50	潐 (<CJK Ideograph>)";
"15872	0x6F57	潗 (<CJK Ideograph>)";
"15873	0x6F94	澔 (<CJK Ideograph>)";
"15874	0x6F93	澓 (<CJK Ideograph>)";
"15875	0x6F5D	潝 (<CJK Ideograph>)";
"15876	0x6F00	漀 (<CJK Ideograph>)";
"15877	0x6F61	潡 (<CJK Ideograph>)";
"15878	0x6F6B	潫 (<CJK Ideograph>)";
"15879	0x6F7D	潽 (<CJK Ideograph>)";
"15880	0x6F67	潧 (<CJK Ideograph>)";
"15881	0x6F90	澐 (<CJK Ideograph>)";
"15882	0x6F53	潓 (<CJK Ideograph>)";
"15883	0x6F8B	澋 (<CJK Ideograph>)";
"15884	0x6F69	潩 (<CJK Ideograph>)";
"15885	0x6F7F	潿 (<CJK Ideograph>)";
"15886	0x6F95	澕 (<CJK Ideograph>)";
"15887	0x6F63	潣 (<CJK Ideograph>)";
"15888	0x6F77	潷 (<CJK Ideograph>)";
"15889	0x6F6A	潪 (<CJK Ideograph>)";
"15890	0x6F7B	潻 (<CJK Ideograph>)";
"15891	0x71B2	熲 (<CJK Ideograph>)";
"15892	0x71AF	熯 (<CJK Ideograph>)";
"15893	0x719B	熛 (<CJK Ideograph>)";
"15894	0x71B0	熰 (<CJK Ideograph>)";
"15895	0x71A0	熠 (<CJK Ideograph>)";
"15896	0x719A	熚 (<CJK Ideograph>)";
"15897	0x71A9	熩 (<CJK Ideograph>)";
"15898	0x71B5	熵 (<CJK Ideograph>)";
"15899	0x719D	熝 (<CJK Ideograph>)";
"15900	0x71A5	熥 (<CJK Ideograph>)";
"15901	0x719E	熞 (<CJK Ideograph>)";
"15902	0x71A4	熤 (<CJK Ideograph>)";
"15903	0x71A1	熡 (<CJK Ideograph>)";
"15904	0x71AA	熪 (<CJK Ideograph>)";
"15905	0x719C	熜 (<CJK Ideograph>)";
"15906	0x71A7	熧 (<CJK Ideograph>)";
"15907	0x71B3	熳 (<CJK Ideograph>)";
"15908	0x7298	犘 (<CJK Ideograph>)";
"15909	0x729A	犚 (<CJK Ideograph>)";
"15910	0x7358	獘 (<CJK Ideograph>)";
"15911	0x7352	獒 (<CJK Ideograph>)";
"15912	0x735E	獞 (<CJK Ideograph>)";
"15913	0x735F	獟 (<CJK Ideograph>)";
"15914	0x7360	獠 (<CJK Ideograph>)";
"15915	0x735D	獝 (<CJK Ideograph>)";
"15916	0x735B	獛 (<CJK Ideograph>)";
"15917	0x7361	獡 (<CJK Ideograph>)";
"15918	0x735A	獚 (<CJK Ideograph>)";
"15919	0x7359	獙 (<CJK Ideograph>)";
"15920	0x7362	獢 (<CJK Ideograph>)";
"15921	0x7487	璇 (<CJK Ideograph>)";
"15922	0x7489	璉 (<CJK Ideograph>)";
"15923	0x748A	璊 (<CJK Ideograph>)";
"15924	0x7486	璆 (<CJK Ideograph>)";
"15925	0x7481	璁 (<CJK Ideograph>)";
"15926	0x747D	瑽 (<CJK Ideograph>)";
"15927	0x7485	璅 (<CJK Ideograph>)";
"15928	0x7488	璈 (<CJK Ideograph>)";
"15929	0x747C	瑼 (<CJK Ideograph>)";
"15930	0x7479	瑹 (<CJK Ideograph>)";
"15931	0x7508	甈 (<CJK Ideograph>)";
"15932	0x7507	甇 (<CJK Ideograph>)";
"15933	0x757E	畾 (<CJK Ideograph>)";
"15934	0x7625	瘥 (<CJK Ideograph>)";
"15935	0x761E	瘞 (<CJK Ideograph>)";
"15936	0x7619	瘙 (<CJK Ideograph>)";
"15937	0x761D	瘝 (<CJK Ideograph>)";
"15938	0x761C	瘜 (<CJK Ideograph>)";
"15939	0x7623	瘣 (<CJK Ideograph>)";
"15940	0x761A	瘚 (<CJK Ideograph>)";
"15941	0x7628	瘨 (<CJK Ideograph>)";
"15942	0x761B	瘛 (<CJK Ideograph>)";
"15943	0x769C	皜 (<CJK Ideograph>)";
"15944	0x769D	皝 (<CJK Ideograph>)";
"15945	0x769E	皞 (<CJK Ideograph>)";
"15946	0x769B	皛 (<CJK Ideograph>)";
"15947	0x778D	瞍 (<CJK Ideograph>)";
"15948	0x778F	瞏 (<CJK Ideograph>)";
"15949	0x7789	瞉 (<CJK Ideograph>)";
"15950	0x7788	瞈 (<CJK Ideograph>)";
"15951	0x78CD	磍 (<CJK Ideograph>)";
"15952	0x78BB	碻 (<CJK Ideograph>)";
"15953	0x78CF	磏 (<CJK Ideograph>)";
"15954	0x78CC	磌 (<CJK Ideograph>)";
"15955	0x78D1	磑 (<CJK Ideograph>)";
"15956	0x78CE	磎 (<CJK Ideograph>)";
"15957	0x78D4	磔 (<CJK Ideograph>)";
"15958	0x78C8	磈 (<CJK Ideograph>)";
"15959	0x78C3	磃 (<CJK Ideograph>)";
"15960	0x78C4	磄 (<CJK Ideograph>)";
"15961	0x78C9	磉 (<CJK Ideograph>)";
"15962	0x799A	禚 (<CJK Ideograph>)";
"15963	0x79A1	禡 (<CJK Ideograph>)";
"15964	0x79A0	禠 (<CJK Ideograph>)";
"15965	0x799C	禜 (<CJK Ideograph>)";
"15966	0x79A2	禢 (<CJK Ideograph>)";
"15967	0x799B	禛 (<CJK Ideograph>)";
"15968	0x6B76	歶 (<CJK Ideograph>)";
"15969	0x7A39	稹 (<CJK Ideograph>)";
"15970	0x7AB2	窲 (<CJK Ideograph>)";
"15971	0x7AB4	窴 (<CJK Ideograph>)";
"15972	0x7AB3	窳 (<CJK Ideograph>)";
"15973	0x7BB7	箷 (<CJK Ideograph>)";
"15974	0x7BCB	篋 (<CJK Ideograph>)";
"15975	0x7BBE	箾 (<CJK Ideograph>)";
"15976	0x7BAC	箬 (<CJK Ideograph>)";
"15977	0x7BCE	篎 (<CJK Ideograph>)";
"15978	0x7BAF	箯 (<CJK Ideograph>)";
"15979	0x7BB9	箹 (<CJK Ideograph>)";
"15980	0x7BCA	篊 (<CJK Ideograph>)";
"15981	0x7BB5	箵 (<CJK Ideograph>)";
"15982	0x7CC5	糅 (<CJK Ideograph>)";
"15983	0x7CC8	糈 (<CJK Ideograph>)";
"15984	0x7CCC	糌 (<CJK Ideograph>)";
"15985	0x7CCB	糋 (<CJK Ideograph>)";
"15986	0x7DF7	緷 (<CJK Ideograph>)";
"15987	0x7DDB	緛 (<CJK Ideograph>)";
"15988	0x7DEA	緪 (<CJK Ideograph>)";
"15989	0x7DE7	緧 (<CJK Ideograph>)";
"15990	0x7DD7	緗 (<CJK Ideograph>)";
"15991	0x7DE1	緡 (<CJK Ideograph>)";
"15992	0x7E03	縃 (<CJK Ideograph>)";
"15993	0x7DFA	緺 (<CJK Ideograph>)";
"15994	0x7DE6	緦 (<CJK Ideograph>)";
"15995	0x7DF6	緶 (<CJK Ideograph>)";
"15996	0x7DF1	緱 (<CJK Ideograph>)";
"15997	0x7DF0	緰 (<CJK Ideograph>)";
"15998	0x7DEE	緮 (<CJK Ideograph>)";
"15999	0x7DDF	緟 (<CJK Ideograph>)";
"16000	0x7F76	罶 (<CJK Ideograph>)";
"16001	0x7FAC	羬 (<CJK Ideograph>)";
"16002	0x7FB0	羰 (<CJK Ideograph>)";
"16003	0x7FAD	羭 (<CJK Ideograph>)";
"16004	0x7FED	翭 (<CJK Ideograph>)";
"16005	0x7FEB	翫 (<CJK Ideograph>)";
"16006	0x7FEA	翪 (<CJK Ideograph>)";
"16007	0x7FEC	翬 (<CJK Ideograph>)";
"16008	0x7FE6	翦 (<CJK Ideograph>)";
"16009	0x7FE8	翨 (<CJK Ideograph>)";
"16010	0x8064	聤 (<CJK Ideograph>)";
"16011	0x8067	聧 (<CJK Ideograph>)";
"16012	0x81A3	膣 (<CJK Ideograph>)";
"16013	0x819F	膟 (<CJK Ideograph>)";
"16014	0x819E	膞 (<CJK Ideograph>)";
"16015	0x8195	膕 (<CJK Ideograph>)";
"16016	0x81A2	膢 (<CJK Ideograph>)";
"16017	0x8199	膙 (<CJK Ideograph>)";
"16018	0x8197	膗 (<CJK Ideograph>)";
"16019	0x8216	舖 (<CJK Ideograph>)";
"16020	0x824F	艏 (<CJK Ideograph>)";
"16021	0x8253	艓 (<CJK Ideograph>)";
"16022	0x8252	艒 (<CJK Ideograph>)";
"16023	0x8250	艐 (<CJK Ideograph>)";
"16024	0x824E	艎 (<CJK Ideograph>)";
"16025	0x8251	艑 (<CJK Ideograph>)";
"16026	0x8524	蔤 (<CJK Ideograph>)";
"16027	0x853B	蔻 (<CJK Ideograph>)";
"16028	0x850F	蔏 (<CJK Ideograph>)";
"16029	0x8500	蔀 (<CJK Ideograph>)";
"16030	0x8529	蔩 (<CJK Ideograph>)";
"16031	0x850E	蔎 (<CJK Ideograph>)";
"16032	0x8509	蔉 (<CJK Ideograph>)";
"16033	0x850D	蔍 (<CJK Ideograph>)"
].
(* /repo/encoding_tables/whatwg/index-big5.txt:14849-15104 *)
Definition index_big5_txt_58 : list line := [
"16034	0x851F	蔟 (<CJK Ideograph>)";
"16035	0x850A	蔊 (<CJK Ideograph>)";
"16036	0x8527	蔧 (<CJK Ideograph>)";
"16037	0x851C	蔜 (<CJK Ideograph>)";
"16038	0x84FB	蓻 (<CJK Ideograph>)";
"16039	0x852B	蔫 (<CJK Ideograph>)";
"16040	0x84FA	蓺 (<CJK Ideograph>)";
"16041	0x8508	蔈 (<CJK Ideograph>)";
"16042	0x850C	蔌 (<CJK Ideograph>)";
"16043	0x84F4	蓴 (<CJK Ideograph>)";
"16044	0x852A	蔪 (<CJK Ideograph>)";
"16045	0x84F2	蓲 (<CJK Ideograph>)";
"16046	0x8515	蔕 (<CJK Ideograph>)";
"16047	0x84F7	蓷 (<CJK Ideograph>)";
"16048	0x84EB	蓫 (<CJK Ideograph>)";
"16049	0x84F3	蓳 (<CJK Ideograph>)";
"16050	0x84FC	蓼 (<CJK Ideograph>)";
"16051	0x8512	蔒 (<CJK Ideograph>)";
"16052	0x84EA	蓪 (<CJK Ideograph>)";
"16053	0x84E9	蓩 (<CJK Ideograph>)";
"16054	0x8516	蔖 (<CJK Ideograph>)";
"16055	0x84FE	蓾 (<CJK Ideograph>)";
"16056	0x8528	蔨 (<CJK Ideograph>)";
"16057	0x851D	蔝 (<CJK Ideograph>)";
"16058	0x852E	蔮 (<CJK Ideograph>)";
"16059	0x8502	蔂 (<CJK Ideograph>)";
"16060	0x84FD	蓽 (<CJK Ideograph>)";
"16061	0x851E	蔞 (<CJK Ideograph>)";
"16062	0x84F6	蓶 (<CJK Ideograph>)";
"16063	0x8531	蔱 (<CJK Ideograph>)";
"16064	0x8526	蔦 (<CJK Ideograph>)";
"16065	0x84E7	蓧 (<CJK Ideograph>)";
"16066	0x84E8	蓨 (<CJK Ideograph>)";
"16067	0x84F0	蓰 (<CJK Ideograph>)";
"16068	0x84EF	蓯 (<CJK Ideograph>)";
"16069	0x84F9	蓹 (<CJK Ideograph>)";
"16070	0x8518	蔘 (<CJK Ideograph>)";
"16071	0x8520	蔠 (<CJK Ideograph>)";
"16072	0x8530	蔰 (<CJK Ideograph>)";
"16073	0x850B	蔋 (<CJK Ideograph>)";
"16074	0x8519	蔙 (<CJK Ideograph>)";
"16075	0x852F	蔯 (<CJK Ideograph>)";
"16076	0x8662	虢 (<CJK Ideograph>)";
"16077	0x8756	蝖 (<CJK Ideograph>)";
"16078	0x8763	蝣 (<CJK Ideograph>)";
"16079	0x8764	蝤 (<CJK Ideograph>)";
"16080	0x8777	蝷 (<CJK Ideograph>)";
"16081	0x87E1	蟡 (<CJK Ideograph>)";
"16082	0x8773	蝳 (<CJK Ideograph>)";
"16083	0x8758	蝘 (<CJK Ideograph>)";
"16084	0x8754	蝔 (<CJK Ideograph>)";
"16085	0x875B	蝛 (<CJK Ideograph>)";
"16086	0x8752	蝒 (<CJK Ideograph>)";
"16087	0x8761	蝡 (<CJK Ideograph>)";
"16088	0x875A	蝚 (<CJK Ideograph>)";
"16089	0x8751	蝑 (<CJK Ideograph>)";
"16090	0x875E	蝞 (<CJK Ideograph>)";
"16091	0x876D	蝭 (<CJK Ideograph>)";
"16092	0x876A	蝪 (<CJK Ideograph>)";
"16093	0x8750	蝐 (<CJK Ideograph>)";
"16094	0x874E	蝎 (<CJK Ideograph>)";
"16095	0x875F	蝟 (<CJK Ideograph>)";
"16096	0x875D	蝝 (<CJK Ideograph>)";
"16097	0x876F	蝯 (<CJK Ideograph>)";
"16098	0x876C	蝬 (<CJK Ideograph>)";
"16099	0x877A	蝺 (<CJK Ideograph>)";
"16100	0x876E	蝮 (<CJK Ideograph>)";
"16101	0x875C	蝜 (<CJK Ideograph>)";
"16102	0x8765	蝥 (<CJK Ideograph>)";
"16103	0x874F	蝏 (<CJK Ideograph>)";
"16104	0x877B	蝻 (<CJK Ideograph>)";
"16105	0x8775	蝵 (<CJK Ideograph>)";
"16106	0x8762	蝢 (<CJK Ideograph>)";
"16107	0x8767	蝧 (<CJK Ideograph>)";
"16108	0x8769	蝩 (<CJK Ideograph>)";
"16109	0x885A	衚 (<CJK Ideograph>)";
"16110	0x8905	褅 (<CJK Ideograph>)";
"16111	0x890C	褌 (<CJK Ideograph>)";
"16112	0x8914	褔 (<CJK Ideograph>)";
"16113	0x890B	褋 (<CJK Ideograph>)";
"16114	0x8917	褗 (<CJK Ideograph>)";
"16115	0x8918	褘 (<CJK Ideograph>)";
"16116	0x8919	褙 (<CJK Ideograph>)";
"16117	0x8906	褆 (<CJK Ideograph>)";
"16118	0x8916	褖 (<CJK Ideograph>)";
"16119	0x8911	褑 (<CJK Ideograph>)";
"16120	0x890E	褎 (<CJK Ideograph>)";
"16121	0x8909	褉 (<CJK Ideograph>)";
"16122	0x89A2	覢 (<CJK Ideograph>)";
"16123	0x89A4	覤 (<CJK Ideograph>)";
"16124	0x89A3	覣 (<CJK Ideograph>)";
"16125	0x89ED	觭 (<CJK Ideograph>)";
"16126	0x89F0	觰 (<CJK Ideograph>)";
"16127	0x89EC	觬 (<CJK Ideograph>)";
"16128	0x8ACF	諏 (<CJK Ideograph>)";
"16129	0x8AC6	諆 (<CJK Ideograph>)";
"16130	0x8AB8	誸 (<CJK Ideograph>)";
"16131	0x8AD3	諓 (<CJK Ideograph>)";
"16132	0x8AD1	諑 (<CJK Ideograph>)";
"16133	0x8AD4	諔 (<CJK Ideograph>)";
"16134	0x8AD5	諕 (<CJK Ideograph>)";
"16135	0x8ABB	誻 (<CJK Ideograph>)";
"16136	0x8AD7	諗 (<CJK Ideograph>)";
"16137	0x8ABE	誾 (<CJK Ideograph>)";
"16138	0x8AC0	諀 (<CJK Ideograph>)";
"16139	0x8AC5	諅 (<CJK Ideograph>)";
"16140	0x8AD8	諘 (<CJK Ideograph>)";
"16141	0x8AC3	諃 (<CJK Ideograph>)";
"16142	0x8ABA	誺 (<CJK Ideograph>)";
"16143	0x8ABD	誽 (<CJK Ideograph>)";
"16144	0x8AD9	諙 (<CJK Ideograph>)";
"16145	0x8C3E	谾 (<CJK Ideograph>)";
"16146	0x8C4D	豍 (<CJK Ideograph>)";
"16147	0x8C8F	貏 (<CJK Ideograph>)";
"16148	0x8CE5	賥 (<CJK Ideograph>)";
"16149	0x8CDF	賟 (<CJK Ideograph>)";
"16150	0x8CD9	賙 (<CJK Ideograph>)";
"16151	0x8CE8	賨 (<CJK Ideograph>)";
"16152	0x8CDA	賚 (<CJK Ideograph>)";
"16153	0x8CDD	賝 (<CJK Ideograph>)";
"16154	0x8CE7	賧 (<CJK Ideograph>)";
"16155	0x8DA0	趠 (<CJK Ideograph>)";
"16156	0x8D9C	趜 (<CJK Ideograph>)";
"16157	0x8DA1	趡 (<CJK Ideograph>)";
"16158	0x8D9B	趛 (<CJK Ideograph>)";
"16159	0x8E20	踠 (<CJK Ideograph>)";
"16160	0x8E23	踣 (<CJK Ideograph>)";
"16161	0x8E25	踥 (<CJK Ideograph>)";
"16162	0x8E24	踤 (<CJK Ideograph>)";
"16163	0x8E2E	踮 (<CJK Ideograph>)";
"16164	0x8E15	踕 (<CJK Ideograph>)";
"16165	0x8E1B	踛 (<CJK Ideograph>)";
"16166	0x8E16	踖 (<CJK Ideograph>)";
"16167	0x8E11	踑 (<CJK Ideograph>)";
"16168	0x8E19	踙 (<CJK Ideograph>)";
"16169	0x8E26	踦 (<CJK Ideograph>)";
"16170	0x8E27	踧 (<CJK Ideograph>)";
"16171	0x8E14	踔 (<CJK Ideograph>)";
"16172	0x8E12	踒 (<CJK Ideograph>)";
"16173	0x8E18	踘 (<CJK Ideograph>)";
"16174	0x8E13	踓 (<CJK Ideograph>)";
"16175	0x8E1C	踜 (<CJK Ideograph>)";
"16176	0x8E17	踗 (<CJK Ideograph>)";
"16177	0x8E1A	踚 (<CJK Ideograph>)";
"16178	0x8F2C	輬 (<CJK Ideograph>)";
"16179	0x8F24	輤 (<CJK Ideograph>)";
"16180	0x8F18	輘 (<CJK Ideograph>)";
"16181	0x8F1A	輚 (<CJK Ideograph>)";
"16182	0x8F20	輠 (<CJK Ideograph>)";
"16183	0x8F23	輣 (<CJK Ideograph>)";
"16184	0x8F16	輖 (<CJK Ideograph>)";
"16185	0x8F17	輗 (<CJK Ideograph>)";
"16186	0x9073	遳 (<CJK Ideograph>)";
"16187	0x9070	遰 (<CJK Ideograph>)";
"16188	0x906F	遯 (<CJK Ideograph>)";
"16189	0x9067	遧 (<CJK Ideograph>)";
"16190	0x906B	遫 (<CJK Ideograph>)";
"16191	0x912F	鄯 (<CJK Ideograph>)";
"16192	0x912B	鄫 (<CJK Ideograph>)";
"16193	0x9129	鄩 (<CJK Ideograph>)";
"16194	0x912A	鄪 (<CJK Ideograph>)";
"16195	0x9132	鄲 (<CJK Ideograph>)";
"16196	0x9126	鄦 (<CJK Ideograph>)";
"16197	0x912E	鄮 (<CJK Ideograph>)";
"16198	0x9185	醅 (<CJK Ideograph>)";
"16199	0x9186	醆 (<CJK Ideograph>)";
"16200	0x918A	醊 (<CJK Ideograph>)";
"16201	0x9181	醁 (<CJK Ideograph>)";
"16202	0x9182	醂 (<CJK Ideograph>)";
"16203	0x9184	醄 (<CJK Ideograph>)";
"16204	0x9180	醀 (<CJK Ideograph>)";
"16205	0x92D0	鋐 (<CJK Ideograph>)";
"16206	0x92C3	鋃 (<CJK Ideograph>)";
"16207	0x92C4	鋄 (<CJK Ideograph>)";
"16208	0x92C0	鋀 (<CJK Ideograph>)";
"16209	0x92D9	鋙 (<CJK Ideograph>)";
"16210	0x92B6	銶 (<CJK Ideograph>)";
"16211	0x92CF	鋏 (<CJK Ideograph>)";
"16212	0x92F1	鋱 (<CJK Ideograph>)";
"16213	0x92DF	鋟 (<CJK Ideograph>)";
"16214	0x92D8	鋘 (<CJK Ideograph>)";
"16215	0x92E9	鋩 (<CJK Ideograph>)";
"16216	0x92D7	鋗 (<CJK Ideograph>)";
"16217	0x92DD	鋝 (<CJK Ideograph>)";
"16218	0x92CC	鋌 (<CJK Ideograph>)";
"16219	0x92EF	鋯 (<CJK Ideograph>)";
"16220	0x92C2	鋂 (<CJK Ideograph>)";
"16221	0x92E8	鋨 (<CJK Ideograph>)";
"16222	0x92CA	鋊 (<CJK Ideograph>)";
"16223	0x92C8	鋈 (<CJK Ideograph>)";
"16224	0x92CE	鋎 (<CJK Ideograph>)";
"16225	0x92E6	鋦 (<CJK Ideograph>)";
"16226	0x92CD	鋍 (<CJK Ideograph>)";
"16227	0x92D5	鋕 (<CJK Ideograph>)";
"16228	0x92C9	鋉 (<CJK Ideograph>)";
"16229	0x92E0	鋠 (<CJK Ideograph>)";
"16230	0x92DE	鋞 (<CJK Ideograph>)";
"16231	0x92E7	鋧 (<CJK Ideograph>)";
"16232	0x92D1	鋑 (<CJK Ideograph>)";
"16233	0x92D3	鋓 (<CJK Ideograph>)";
"16234	0x92B5	銵 (<CJK Ideograph>)";
"16235	0x92E1	鋡 (<CJK Ideograph>)";
"16236	0x92C6	鋆 (<CJK Ideograph>)";
"16237	0x92B4	銴 (<CJK Ideograph>)";
"16238	0x957C	镼 (<CJK Ideograph>)";
"16239	0x95AC	閬 (<CJK Ideograph>)";
"16240	0x95AB	閫 (<CJK Ideograph>)";
"16241	0x95AE	閮 (<CJK Ideograph>)";
"16242	0x95B0	閰 (<CJK Ideograph>)";
"16243	0x96A4	隤 (<CJK Ideograph>)";
"16244	0x96A2	隢 (<CJK Ideograph>)";
"16245	0x96D3	雓 (<CJK Ideograph>)";
"16246	0x9705	霅 (<CJK Ideograph>)";
"16247	0x9708	霈 (<CJK Ideograph>)";
"16248	0x9702	霂 (<CJK Ideograph>)";
"16249	0x975A	靚 (<CJK Ideograph>)";
"16250	0x978A	鞊 (<CJK Ideograph>)";
"16251	0x978E	鞎 (<CJK Ideograph>)";
"16252	0x9788	鞈 (<CJK Ideograph>)";
"16253	0x97D0	韐 (<CJK Ideograph>)";
"16254	0x97CF	韏 (<CJK Ideograph>)";
"16255	0x981E	頞 (<CJK Ideograph>)";
"16256	0x981D	頝 (<CJK Ideograph>)";
"16257	0x9826	頦 (<CJK Ideograph>)";
"16258	0x9829	頩 (<CJK Ideograph>)";
"16259	0x9828	頨 (<CJK Ideograph>)";
"16260	0x9820	頠 (<CJK Ideograph>)";
"16261	0x981B	頛 (<CJK Ideograph>)";
"16262	0x9827	頧 (<CJK Ideograph>)";
"16263	0x98B2	颲 (<CJK Ideograph>)";
"16264	0x9908	餈 (<CJK Ideograph>)";
"16265	0x98FA	飺 (<CJK Ideograph>)";
"16266	0x9911	餑 (<CJK Ideograph>)";
"16267	0x9914	餔 (<CJK Ideograph>)";
"16268	0x9916	餖 (<CJK Ideograph>)";
"16269	0x9917	餗 (<CJK Ideograph>)";
"16270	0x9915	餕 (<CJK Ideograph>)";
"16271	0x99DC	駜 (<CJK Ideograph>)";
"16272	0x99CD	駍 (<CJK Ideograph>)";
"16273	0x99CF	駏 (<CJK Ideograph>)";
"16274	0x99D3	駓 (<CJK Ideograph>)";
"16275	0x99D4	駔 (<CJK Ideograph>)";
"16276	0x99CE	駎 (<CJK Ideograph>)";
"16277	0x99C9	駉 (<CJK Ideograph>)";
"16278	0x99D6	駖 (<CJK Ideograph>)";
"16279	0x99D8	駘 (<CJK Ideograph>)";
"16280	0x99CB	駋 (<CJK Ideograph>)";
"16281	0x99D7	駗 (<CJK Ideograph>)";
"16282	0x99CC	駌 (<CJK Ideograph>)";
"16283	0x9AB3	骳 (<CJK Ideograph>)";
"16284	0x9AEC	髬 (<CJK Ideograph>)";
"16285	0x9AEB	髫 (<CJK Ideograph>)";
"16286	0x9AF3	髳 (<CJK Ideograph>)";
"16287	0x9AF2	髲 (<CJK Ideograph>)";
"16288	0x9AF1	髱 (<CJK Ideograph>)";
"16289	0x9B46	魆 (<CJK Ideograph>)"
].
(* /repo/encoding_tables/whatwg/index-big5.txt:15105-15360 *)
Definition index_big5_txt_59 : list line := [
"16290	0x9B43	魃 (<CJK Ideograph>)";
"16291	0x9B67	魧 (<CJK Ideograph>)";
"16292	0x9B74	魴 (<CJK Ideograph>)";
"16293	0x9B71	魱 (<CJK Ideograph>)";
"16294	0x9B66	魦 (<CJK Ideograph>)";
"16295	0x9B76	魶 (<CJK Ideograph>)";
"16296	0x9B75	魵 (<CJK Ideograph>)";
"16297	0x9B70	魰 (<CJK Ideograph>)";
"16298	0x9B68	魨 (<CJK Ideograph>)";
"16299	0x9B64	魤 (<CJK Ideograph>)";
"16300	0x9B6C	魬 (<CJK Ideograph>)";
"16301	0x9CFC	鳼 (<CJK Ideograph>)";
"16302	0x9CFA	鳺 (<CJK Ideograph>)";
"16303	0x9CFD	鳽 (<CJK Ideograph>)";
"16304	0x9CFF	鳿 (<CJK Ideograph>)";
"16305	0x9CF7	鳷 (<CJK Ideograph>)";
"16306	0x9D07	鴇 (<CJK Ideograph>)";
"16307	0x9D00	鴀 (<CJK Ideograph>)";
"16308	0x9CF9	鳹 (<CJK Ideograph>)";
"16309	0x9CFB	鳻 (<CJK Ideograph>)";
"16310	0x9D08	鴈 (<CJK Ideograph>)";
"16311	0x9D05	鴅 (<CJK Ideograph>)";
"16312	0x9D04	鴄 (<CJK Ideograph>)";
"16313	0x9E83	麃 (<CJK Ideograph>)";
"16314	0x9ED3	黓 (<CJK Ideograph>)";
"16315	0x9F0F	鼏 (<CJK Ideograph>)";
"16316	0x9F10	鼐 (<CJK Ideograph>)";
"16317	0x511C	儜 (<CJK Ideograph>)";
"16318	0x5113	儓 (<CJK Ideograph>)";
"16319	0x5117	儗 (<CJK Ideograph>)";
"16320	0x511A	儚 (<CJK Ideograph>)";
"16321	0x5111	儑 (<CJK Ideograph>)";
"16322	0x51DE	凞 (<CJK Ideograph>)";
"16323	0x5334	匴 (<CJK Ideograph>)";
"16324	0x53E1	叡 (<CJK Ideograph>)";
"16325	0x5670	噰 (<CJK Ideograph>)";
"16326	0x5660	噠 (<CJK Ideograph>)";
"16327	0x566E	噮 (<CJK Ideograph>)";
"16328	0x5673	噳 (<CJK Ideograph>)";
"16329	0x5666	噦 (<CJK Ideograph>)";
"16330	0x5663	噣 (<CJK Ideograph>)";
"16331	0x566D	噭 (<CJK Ideograph>)";
"16332	0x5672	噲 (<CJK Ideograph>)";
"16333	0x565E	噞 (<CJK Ideograph>)";
"16334	0x5677	噷 (<CJK Ideograph>)";
"16335	0x571C	圜 (<CJK Ideograph>)";
"16336	0x571B	圛 (<CJK Ideograph>)";
"16337	0x58C8	壈 (<CJK Ideograph>)";
"16338	0x58BD	墽 (<CJK Ideograph>)";
"16339	0x58C9	壉 (<CJK Ideograph>)";
"16340	0x58BF	墿 (<CJK Ideograph>)";
"16341	0x58BA	墺 (<CJK Ideograph>)";
"16342	0x58C2	壂 (<CJK Ideograph>)";
"16343	0x58BC	墼 (<CJK Ideograph>)";
"16344	0x58C6	壆 (<CJK Ideograph>)";
"16345	0x5B17	嬗 (<CJK Ideograph>)";
"16346	0x5B19	嬙 (<CJK Ideograph>)";
"16347	0x5B1B	嬛 (<CJK Ideograph>)";
"16348	0x5B21	嬡 (<CJK Ideograph>)";
"16349	0x5B14	嬔 (<CJK Ideograph>)";
"16350	0x5B13	嬓 (<CJK Ideograph>)";
"16351	0x5B10	嬐 (<CJK Ideograph>)";
"16352	0x5B16	嬖 (<CJK Ideograph>)";
"16353	0x5B28	嬨 (<CJK Ideograph>)";
"16354	0x5B1A	嬚 (<CJK Ideograph>)";
"16355	0x5B20	嬠 (<CJK Ideograph>)";
"16356	0x5B1E	嬞 (<CJK Ideograph>)";
"16357	0x5BEF	寯 (<CJK Ideograph>)";
"16358	0x5DAC	嶬 (<CJK Ideograph>)";
"16359	0x5DB1	嶱 (<CJK Ideograph>)";
"16360	0x5DA9	嶩 (<CJK Ideograph>)";
"16361	0x5DA7	嶧 (<CJK Ideograph>)";
"16362	0x5DB5	嶵 (<CJK Ideograph>)";
"16363	0x5DB0	嶰 (<CJK Ideograph>)";
"16364	0x5DAE	嶮 (<CJK Ideograph>)";
"16365	0x5DAA	嶪 (<CJK Ideograph>)";
"16366	0x5DA8	嶨 (<CJK Ideograph>)";
"16367	0x5DB2	嶲 (<CJK Ideograph>)";
"16368	0x5DAD	嶭 (<CJK Ideograph>)";
"16369	0x5DAF	嶯 (<CJK Ideograph>)";
"16370	0x5DB4	嶴 (<CJK Ideograph>)";
"16371	0x5E67	幧 (<CJK Ideograph>)";
"16372	0x5E68	幨 (<CJK Ideograph>)";
"16373	0x5E66	幦 (<CJK Ideograph>)";
"16374	0x5E6F	幯 (<CJK Ideograph>)";
"16375	0x5EE9	廩 (<CJK Ideograph>)";
"16376	0x5EE7	廧 (<CJK Ideograph>)";
"16377	0x5EE6	廦 (<CJK Ideograph>)";
"16378	0x5EE8	廨 (<CJK Ideograph>)";
"16379	0x5EE5	廥 (<CJK Ideograph>)";
"16380	0x5F4B	彋 (<CJK Ideograph>)";
"16381	0x5FBC	徼 (<CJK Ideograph>)";
"16382	0x619D	憝 (<CJK Ideograph>)";
"16383	0x61A8	憨 (<CJK Ideograph>)";
"16384	0x6196	憖 (<CJK Ideograph>)";
"16385	0x61C5	懅 (<CJK Ideograph>)";
"16386	0x61B4	憴 (<CJK Ideograph>)";
"16387	0x61C6	懆 (<CJK Ideograph>)";
"16388	0x61C1	懁 (<CJK Ideograph>)";
"16389	0x61CC	懌 (<CJK Ideograph>)";
"16390	0x61BA	憺 (<CJK Ideograph>)";
"16391	0x61BF	憿 (<CJK Ideograph>)";
"16392	0x61B8	憸 (<CJK Ideograph>)";
"16393	0x618C	憌 (<CJK Ideograph>)";
"16394	0x64D7	擗 (<CJK Ideograph>)";
"16395	0x64D6	擖 (<CJK Ideograph>)";
"16396	0x64D0	擐 (<CJK Ideograph>)";
"16397	0x64CF	擏 (<CJK Ideograph>)";
"16398	0x64C9	擉 (<CJK Ideograph>)";
"16399	0x64BD	撽 (<CJK Ideograph>)";
"16400	0x6489	撉 (<CJK Ideograph>)";
"16401	0x64C3	擃 (<CJK Ideograph>)";
"16402	0x64DB	擛 (<CJK Ideograph>)";
"16403	0x64F3	擳 (<CJK Ideograph>)";
"16404	0x64D9	擙 (<CJK Ideograph>)";
"16405	0x6533	攳 (<CJK Ideograph>)";
"16406	0x657F	敿 (<CJK Ideograph>)";
"16407	0x657C	敼 (<CJK Ideograph>)";
"16408	0x65A2	斢 (<CJK Ideograph>)";
"16409	0x66C8	曈 (<CJK Ideograph>)";
"16410	0x66BE	暾 (<CJK Ideograph>)";
"16411	0x66C0	曀 (<CJK Ideograph>)";
"16412	0x66CA	曊 (<CJK Ideograph>)";
"16413	0x66CB	曋 (<CJK Ideograph>)";
"16414	0x66CF	曏 (<CJK Ideograph>)";
"16415	0x66BD	暽 (<CJK Ideograph>)";
"16416	0x66BB	暻 (<CJK Ideograph>)";
"16417	0x66BA	暺 (<CJK Ideograph>)";
"16418	0x66CC	曌 (<CJK Ideograph>)";
"16419	0x6723	朣 (<CJK Ideograph>)";
"16420	0x6A34	樴 (<CJK Ideograph>)";
"16421	0x6A66	橦 (<CJK Ideograph>)";
"16422	0x6A49	橉 (<CJK Ideograph>)";
"16423	0x6A67	橧 (<CJK Ideograph>)";
"16424	0x6A32	樲 (<CJK Ideograph>)";
"16425	0x6A68	橨 (<CJK Ideograph>)";
"16426	0x6A3E	樾 (<CJK Ideograph>)";
"16427	0x6A5D	橝 (<CJK Ideograph>)";
"16428	0x6A6D	橭 (<CJK Ideograph>)";
"16429	0x6A76	橶 (<CJK Ideograph>)";
"16430	0x6A5B	橛 (<CJK Ideograph>)";
"16431	0x6A51	橑 (<CJK Ideograph>)";
"16432	0x6A28	樨 (<CJK Ideograph>)";
"16433	0x6A5A	橚 (<CJK Ideograph>)";
"16434	0x6A3B	樻 (<CJK Ideograph>)";
"16435	0x6A3F	樿 (<CJK Ideograph>)";
"16436	0x6A41	橁 (<CJK Ideograph>)";
"16437	0x6A6A	橪 (<CJK Ideograph>)";
"16438	0x6A64	橤 (<CJK Ideograph>)";
"16439	0x6A50	橐 (<CJK Ideograph>)";
"16440	0x6A4F	橏 (<CJK Ideograph>)";
"16441	0x6A54	橔 (<CJK Ideograph>)";
"16442	0x6A6F	橯 (<CJK Ideograph>)";
"16443	0x6A69	橩 (<CJK Ideograph>)";
"16444	0x6A60	橠 (<CJK Ideograph>)";
"16445	0x6A3C	樼 (<CJK Ideograph>)";
"16446	0x6A5E	橞 (<CJK Ideograph>)";
"16447	0x6A56	橖 (<CJK Ideograph>)";
"16448	0x6A55	橕 (<CJK Ideograph>)";
"16449	0x6A4D	橍 (<CJK Ideograph>)";
"16450	0x6A4E	橎 (<CJK Ideograph>)";
"16451	0x6A46	橆 (<CJK Ideograph>)";
"16452	0x6B55	歕 (<CJK Ideograph>)";
"16453	0x6B54	歔 (<CJK Ideograph>)";
"16454	0x6B56	歖 (<CJK Ideograph>)";
"16455	0x6BA7	殧 (<CJK Ideograph>)";
"16456	0x6BAA	殪 (<CJK Ideograph>)";
"16457	0x6BAB	殫 (<CJK Ideograph>)";
"16458	0x6BC8	毈 (<CJK Ideograph>)";
"16459	0x6BC7	毇 (<CJK Ideograph>)";
"16460	0x6C04	氄 (<CJK Ideograph>)";
"16461	0x6C03	氃 (<CJK Ideograph>)";
"16462	0x6C06	氆 (<CJK Ideograph>)";
"16463	0x6FAD	澭 (<CJK Ideograph>)";
"16464	0x6FCB	濋 (<CJK Ideograph>)";
"16465	0x6FA3	澣 (<CJK Ideograph>)";
"16466	0x6FC7	濇 (<CJK Ideograph>)";
"16467	0x6FBC	澼 (<CJK Ideograph>)";
"16468	0x6FCE	濎 (<CJK Ideograph>)";
"16469	0x6FC8	濈 (<CJK Ideograph>)";
"16470	0x6F5E	潞 (<CJK Ideograph>)";
"16471	0x6FC4	濄 (<CJK Ideograph>)";
"16472	0x6FBD	澽 (<CJK Ideograph>)";
"16473	0x6F9E	澞 (<CJK Ideograph>)";
"16474	0x6FCA	濊 (<CJK Ideograph>)";
"16475	0x6FA8	澨 (<CJK Ideograph>)";
"16476	0x7004	瀄 (<CJK Ideograph>)";
"16477	0x6FA5	澥 (<CJK Ideograph>)";
"16478	0x6FAE	澮 (<CJK Ideograph>)";
"16479	0x6FBA	澺 (<CJK Ideograph>)";
"16480	0x6FAC	澬 (<CJK Ideograph>)";
"16481	0x6FAA	澪 (<CJK Ideograph>)";
"16482	0x6FCF	濏 (<CJK Ideograph>)";
"16483	0x6FBF	澿 (<CJK Ideograph>)";
"16484	0x6FB8	澸 (<CJK Ideograph>)";
"16485	0x6FA2	澢 (<CJK Ideograph>)";
"16486	0x6FC9	濉 (<CJK Ideograph>)";
"16487	0x6FAB	澫 (<CJK Ideograph>)";
"16488	0x6FCD	濍 (<CJK Ideograph>)";
"16489	0x6FAF	澯 (<CJK Ideograph>)";
"16490	0x6FB2	澲 (<CJK Ideograph>)";
"16491	0x6FB0	澰 (<CJK Ideograph>)";
"16492	0x71C5	燅 (<CJK Ideograph>)";
"16493	0x71C2	燂 (<CJK Ideograph>)";
"16494	0x71BF	熿 (<CJK Ideograph>)";
"16495	0x71B8	熸 (<CJK Ideograph>)";
"16496	0x71D6	燖 (<CJK Ideograph>)";
"16497	0x71C0	燀 (<CJK Ideograph>)";
"16498	0x71C1	燁 (<CJK Ideograph>)";
"16499	0x71CB	燋 (<CJK Ideograph>)";
"16500	0x71D4	燔 (<CJK Ideograph>)";
"16501	0x71CA	燊 (<CJK Ideograph>)";
"16502	0x71C7	燇 (<CJK Ideograph>)";
"16503	0x71CF	燏 (<CJK Ideograph>)";
"16504	0x71BD	熽 (<CJK Ideograph>)";
"16505	0x71D8	燘 (<CJK Ideograph>)";
"16506	0x71BC	熼 (<CJK Ideograph>)";
"16507	0x71C6	燆 (<CJK Ideograph>)";
"16508	0x71DA	燚 (<CJK Ideograph>)";
"16509	0x71DB	燛 (<CJK Ideograph>)";
"16510	0x729D	犝 (<CJK Ideograph>)";
"16511	0x729E	犞 (<CJK Ideograph>)";
"16512	0x7369	獩 (<CJK Ideograph>)";
"16513	0x7366	獦 (<CJK Ideograph>)";
"16514	0x7367	獧 (<CJK Ideograph>)";
"16515	0x736C	獬 (<CJK Ideograph>)";
"16516	0x7365	獥 (<CJK Ideograph>)";
"16517	0x736B	獫 (<CJK Ideograph>)";
"16518	0x736A	獪 (<CJK Ideograph>)";
"16519	0x747F	瑿 (<CJK Ideograph>)";
"16520	0x749A	璚 (<CJK Ideograph>)";
"16521	0x74A0	璠 (<CJK Ideograph>)";
"16522	0x7494	璔 (<CJK Ideograph>)";
"16523	0x7492	璒 (<CJK Ideograph>)";
"16524	0x7495	璕 (<CJK Ideograph>)";
"16525	0x74A1	璡 (<CJK Ideograph>)";
"16526	0x750B	甋 (<CJK Ideograph>)";
"16527	0x7580	疀 (<CJK Ideograph>)";
"16528	0x762F	瘯 (<CJK Ideograph>)";
"16529	0x762D	瘭 (<CJK Ideograph>)";
"16530	0x7631	瘱 (<CJK Ideograph>)";
"16531	0x763D	瘽 (<CJK Ideograph>)";
"16532	0x7633	瘳 (<CJK Ideograph>)";
"16533	0x763C	瘼 (<CJK Ideograph>)";
"16534	0x7635	瘵 (<CJK Ideograph>)";
"16535	0x7632	瘲 (<CJK Ideograph>)";
"16536	0x7630	瘰 (<CJK Ideograph>)";
"16537	0x76BB	皻 (<CJK Ideograph>)";
"16538	0x76E6	盦 (<CJK Ideograph>)";
"16539	0x779A	瞚 (<CJK Ideograph>)";
"16540	0x779D	瞝 (<CJK Ideograph>)";
"16541	0x77A1	瞡 (<CJK Ideograph>)";
"16542	0x779C	瞜 (<CJK Ideograph>)";
"16543	0x779B	瞛 (<CJK Ideograph>)";
"16544	0x77A2	瞢 (<CJK Ideograph>)";
"16545	0x77A3	瞣 (<CJK Ideograph>)"
].
(* /repo/encoding_tables/whatwg/index-big5.txt:15361-15616 *)
Definition index_big5_txt_60 : list line := [
"16546	0x7795	瞕 (<CJK Ideograph>)";
"16547	0x7799	瞙 (<CJK Ideograph>)";
"16548	0x7797	瞗 (<CJK Ideograph>)";
"16549	0x78DD	磝 (<CJK Ideograph>)";
"16550	0x78E9	磩 (<CJK Ideograph>)";
"16551	0x78E5	磥 (<CJK Ideograph>)";
"16552	0x78EA	磪 (<CJK Ideograph>)";
"16553	0x78DE	磞 (<CJK Ideograph>)";
"16554	0x78E3	磣 (<CJK Ideograph>)";
"16555	0x78DB	磛 (<CJK Ideograph>)";
"16556	0x78E1	磡 (<CJK Ideograph>)";
"16557	0x78E2	磢 (<CJK Ideograph>)";
"16558	0x78ED	磭 (<CJK Ideograph>)";
"16559	0x78DF	磟 (<CJK Ideograph>)";
"16560	0x78E0	磠 (<CJK Ideograph>)";
"16561	0x79A4	禤 (<CJK Ideograph>)";
"16562	0x7A44	穄 (<CJK Ideograph>)";
"16563	0x7A48	穈 (<CJK Ideograph>)";
"16564	0x7A47	穇 (<CJK Ideograph>)";
"16565	0x7AB6	窶 (<CJK Ideograph>)";
"16566	0x7AB8	窸 (<CJK Ideograph>)";
"16567	0x7AB5	窵 (<CJK Ideograph>)";
"16568	0x7AB1	窱 (<CJK Ideograph>)";
"16569	0x7AB7	窷 (<CJK Ideograph>)";
"16570	0x7BDE	篞 (<CJK Ideograph>)";
"16571	0x7BE3	篣 (<CJK Ideograph>)";
"16572	0x7BE7	篧 (<CJK Ideograph>)";
"16573	0x7BDD	篝 (<CJK Ideograph>)";
"16574	0x7BD5	篕 (<CJK Ideograph>)";
"16575	0x7BE5	篥 (<CJK Ideograph>)";
"16576	0x7BDA	篚 (<CJK Ideograph>)";
"16577	0x7BE8	篨 (<CJK Ideograph>)";
"16578	0x7BF9	篹 (<CJK Ideograph>)";
"16579	0x7BD4	篔 (<CJK Ideograph>)";
"16580	0x7BEA	篪 (<CJK Ideograph>)";
"16581	0x7BE2	篢 (<CJK Ideograph>)";
"16582	0x7BDC	篜 (<CJK Ideograph>)";
"16583	0x7BEB	篫 (<CJK Ideograph>)";
"16584	0x7BD8	篘 (<CJK Ideograph>)";
"16585	0x7BDF	篟 (<CJK Ideograph>)";
"16586	0x7CD2	糒 (<CJK Ideograph>)";
"16587	0x7CD4	糔 (<CJK Ideograph>)";
"16588	0x7CD7	糗 (<CJK Ideograph>)";
"16589	0x7CD0	糐 (<CJK Ideograph>)";
"16590	0x7CD1	糑 (<CJK Ideograph>)";
"16591	0x7E12	縒 (<CJK Ideograph>)";
"16592	0x7E21	縡 (<CJK Ideograph>)";
"16593	0x7E17	縗 (<CJK Ideograph>)";
"16594	0x7E0C	縌 (<CJK Ideograph>)";
"16595	0x7E1F	縟 (<CJK Ideograph>)";
"16596	0x7E20	縠 (<CJK Ideograph>)";
"16597	0x7E13	縓 (<CJK Ideograph>)";
"16598	0x7E0E	縎 (<CJK Ideograph>)";
"16599	0x7E1C	縜 (<CJK Ideograph>)";
"16600	0x7E15	縕 (<CJK Ideograph>)";
"16601	0x7E1A	縚 (<CJK Ideograph>)";
"16602	0x7E22	縢 (<CJK Ideograph>)";
"16603	0x7E0B	縋 (<CJK Ideograph>)";
"16604	0x7E0F	縏 (<CJK Ideograph>)";
"16605	0x7E16	縖 (<CJK Ideograph>)";
"16606	0x7E0D	縍 (<CJK Ideograph>)";
"16607	0x7E14	縔 (<CJK Ideograph>)";
"16608	0x7E25	縥 (<CJK Ideograph>)";
"16609	0x7E24	縤 (<CJK Ideograph>)";
"16610	0x7F43	罃 (<CJK Ideograph>)";
"16611	0x7F7B	罻 (<CJK Ideograph>)";
"16612	0x7F7C	罼 (<CJK Ideograph>)";
"16613	0x7F7A	罺 (<CJK Ideograph>)";
"16614	0x7FB1	羱 (<CJK Ideograph>)";
"16615	0x7FEF	翯 (<CJK Ideograph>)";
"16616	0x802A	耪 (<CJK Ideograph>)";
"16617	0x8029	耩 (<CJK Ideograph>)";
"16618	0x806C	聬 (<CJK Ideograph>)";
"16619	0x81B1	膱 (<CJK Ideograph>)";
"16620	0x81A6	膦 (<CJK Ideograph>)";
"16621	0x81AE	膮 (<CJK Ideograph>)";
"16622	0x81B9	膹 (<CJK Ideograph>)";
"16623	0x81B5	膵 (<CJK Ideograph>)";
"16624	0x81AB	膫 (<CJK Ideograph>)";
"16625	0x81B0	膰 (<CJK Ideograph>)";
"16626	0x81AC	膬 (<CJK Ideograph>)";
"16627	0x81B4	膴 (<CJK Ideograph>)";
"16628	0x81B2	膲 (<CJK Ideograph>)";
"16629	0x81B7	膷 (<CJK Ideograph>)";
"16630	0x81A7	膧 (<CJK Ideograph>)";
"16631	0x81F2	臲 (<CJK Ideograph>)";
"16632	0x8255	艕 (<CJK Ideograph>)";
"16633	0x8256	艖 (<CJK Ideograph>)";
"16634	0x8257	艗 (<CJK Ideograph>)";
"16635	0x8556	蕖 (<CJK Ideograph>)";
"16636	0x8545	蕅 (<CJK Ideograph>)";
"16637	0x856B	蕫 (<CJK Ideograph>)";
"16638	0x854D	蕍 (<CJK Ideograph>)";
"16639	0x8553	蕓 (<CJK Ideograph>)";
"16640	0x8561	蕡 (<CJK Ideograph>)";
"16641	0x8558	蕘 (<CJK Ideograph>)";
"16642	0x8540	蕀 (<CJK Ideograph>)";
"16643	0x8546	蕆 (<CJK Ideograph>)";
"16644	0x8564	蕤 (<CJK Ideograph>)";
"16645	0x8541	蕁 (<CJK Ideograph>)";
"16646	0x8562	蕢 (<CJK Ideograph>)";
"16647	0x8544	蕄 (<CJK Ideograph>)";
"16648	0x8551	蕑 (<CJK Ideograph>)";
"16649	0x8547	蕇 (<CJK Ideograph>)";
"16650	0x8563	蕣 (<CJK Ideograph>)";
"16651	0x853E	蔾 (<CJK Ideograph>)";
"16652	0x855B	蕛 (<CJK Ideograph>)";
"16653	0x8571	蕱 (<CJK Ideograph>)";
"16654	0x854E	蕎 (<CJK Ideograph>)";
"16655	0x856E	蕮 (<CJK Ideograph>)";
"16656	0x8575	蕵 (<CJK Ideograph>)";
"16657	0x8555	蕕 (<CJK Ideograph>)";
"16658	0x8567	蕧 (<CJK Ideograph>)";
"16659	0x8560	蕠 (<CJK Ideograph>)";
"16660	0x858C	薌 (<CJK Ideograph>)";
"16661	0x8566	蕦 (<CJK Ideograph>)";
"16662	0x855D	蕝 (<CJK Ideograph>)";
"16663	0x8554	蕔 (<CJK Ideograph>)";
"16664	0x8565	蕥 (<CJK Ideograph>)";
"16665	0x856C	蕬 (<CJK Ideograph>)";
"16666	0x8663	虣 (<CJK Ideograph>)";
"16667	0x8665	虥 (<CJK Ideograph>)";
"16668	0x8664	虤 (<CJK Ideograph>)";
"16669	0x879B	螛 (<CJK Ideograph>)";
"16670	0x878F	螏 (<CJK Ideograph>)";
"16671	0x8797	螗 (<CJK Ideograph>)";
"16672	0x8793	螓 (<CJK Ideograph>)";
"16673	0x8792	螒 (<CJK Ideograph>)";
"16674	0x8788	螈 (<CJK Ideograph>)";
"16675	0x8781	螁 (<CJK Ideograph>)";
"16676	0x8796	螖 (<CJK Ideograph>)";
"16677	0x8798	螘 (<CJK Ideograph>)";
"16678	0x8779	蝹 (<CJK Ideograph>)";
"16679	0x8787	螇 (<CJK Ideograph>)";
"16680	0x87A3	螣 (<CJK Ideograph>)";
"16681	0x8785	螅 (<CJK Ideograph>)";
"16682	0x8790	螐 (<CJK Ideograph>)";
"16683	0x8791	螑 (<CJK Ideograph>)";
"16684	0x879D	螝 (<CJK Ideograph>)";
"16685	0x8784	螄 (<CJK Ideograph>)";
"16686	0x8794	螔 (<CJK Ideograph>)";
"16687	0x879C	螜 (<CJK Ideograph>)";
"16688	0x879A	螚 (<CJK Ideograph>)";
"16689	0x8789	螉 (<CJK Ideograph>)";
"16690	0x891E	褞 (<CJK Ideograph>)";
"16691	0x8926	褦 (<CJK Ideograph>)";
"16692	0x8930	褰 (<CJK Ideograph>)";
"16693	0x892D	褭 (<CJK Ideograph>)";
"16694	0x892E	褮 (<CJK Ideograph>)";
"16695	0x8927	褧 (<CJK Ideograph>)";
"16696	0x8931	褱 (<CJK Ideograph>)";
"16697	0x8922	褢 (<CJK Ideograph>)";
"16698	0x8929	褩 (<CJK Ideograph>)";
"16699	0x8923	褣 (<CJK Ideograph>)";
"16700	0x892F	褯 (<CJK Ideograph>)";
"16701	0x892C	褬 (<CJK Ideograph>)";
"16702	0x891F	褟 (<CJK Ideograph>)";
"16703	0x89F1	觱 (<CJK Ideograph>)";
"16704	0x8AE0	諠 (<CJK Ideograph>)";
"16705	0x8AE2	諢 (<CJK Ideograph>)";
"16706	0x8AF2	諲 (<CJK Ideograph>)";
"16707	0x8AF4	諴 (<CJK Ideograph>)";
"16708	0x8AF5	諵 (<CJK Ideograph>)";
"16709	0x8ADD	諝 (<CJK Ideograph>)";
"16710	0x8B14	謔 (<CJK Ideograph>)";
"16711	0x8AE4	諤 (<CJK Ideograph>)";
"16712	0x8ADF	諟 (<CJK Ideograph>)";
"16713	0x8AF0	諰 (<CJK Ideograph>)";
"16714	0x8AC8	諈 (<CJK Ideograph>)";
"16715	0x8ADE	諞 (<CJK Ideograph>)";
"16716	0x8AE1	諡 (<CJK Ideograph>)";
"16717	0x8AE8	諨 (<CJK Ideograph>)";
"16718	0x8AFF	諿 (<CJK Ideograph>)";
"16719	0x8AEF	諯 (<CJK Ideograph>)";
"16720	0x8AFB	諻 (<CJK Ideograph>)";
"16721	0x8C91	貑 (<CJK Ideograph>)";
"16722	0x8C92	貒 (<CJK Ideograph>)";
"16723	0x8C90	貐 (<CJK Ideograph>)";
"16724	0x8CF5	賵 (<CJK Ideograph>)";
"16725	0x8CEE	賮 (<CJK Ideograph>)";
"16726	0x8CF1	賱 (<CJK Ideograph>)";
"16727	0x8CF0	賰 (<CJK Ideograph>)";
"16728	0x8CF3	賳 (<CJK Ideograph>)";
"16729	0x8D6C	赬 (<CJK Ideograph>)";
"16730	0x8D6E	赮 (<CJK Ideograph>)";
"16731	0x8DA5	趥 (<CJK Ideograph>)";
"16732	0x8DA7	趧 (<CJK Ideograph>)";
"16733	0x8E33	踳 (<CJK Ideograph>)";
"16734	0x8E3E	踾 (<CJK Ideograph>)";
"16735	0x8E38	踸 (<CJK Ideograph>)";
"16736	0x8E40	蹀 (<CJK Ideograph>)";
"16737	0x8E45	蹅 (<CJK Ideograph>)";
"16738	0x8E36	踶 (<CJK Ideograph>)";
"16739	0x8E3C	踼 (<CJK Ideograph>)";
"16740	0x8E3D	踽 (<CJK Ideograph>)";
"16741	0x8E41	蹁 (<CJK Ideograph>)";
"16742	0x8E30	踰 (<CJK Ideograph>)";
"16743	0x8E3F	踿 (<CJK Ideograph>)";
"16744	0x8EBD	躽 (<CJK Ideograph>)";
"16745	0x8F36	輶 (<CJK Ideograph>)";
"16746	0x8F2E	輮 (<CJK Ideograph>)";
"16747	0x8F35	輵 (<CJK Ideograph>)";
"16748	0x8F32	輲 (<CJK Ideograph>)";
"16749	0x8F39	輹 (<CJK Ideograph>)";
"16750	0x8F37	輷 (<CJK Ideograph>)";
"16751	0x8F34	輴 (<CJK Ideograph>)";
"16752	0x9076	遶 (<CJK Ideograph>)";
"16753	0x9079	遹 (<CJK Ideograph>)";
"16754	0x907B	遻 (<CJK Ideograph>)";
"16755	0x9086	邆 (<CJK Ideograph>)";
"16756	0x90FA	郺 (<CJK Ideograph>)";
"16757	0x9133	鄳 (<CJK Ideograph>)";
"16758	0x9135	鄵 (<CJK Ideograph>)";
"16759	0x9136	鄶 (<CJK Ideograph>)";
"16760	0x9193	醓 (<CJK Ideograph>)";
"16761	0x9190	醐 (<CJK Ideograph>)";
"16762	0x9191	醑 (<CJK Ideograph>)";
"16763	0x918D	醍 (<CJK Ideograph>)";
"16764	0x918F	醏 (<CJK Ideograph>)";
"16765	0x9327	錧 (<CJK Ideograph>)";
"16766	0x931E	錞 (<CJK Ideograph>)";
"16767	0x9308	錈 (<CJK Ideograph>)";
"16768	0x931F	錟 (<CJK Ideograph>)";
"16769	0x9306	錆 (<CJK Ideograph>)";
"16770	0x930F	錏 (<CJK Ideograph>)";
"16771	0x937A	鍺 (<CJK Ideograph>)";
"16772	0x9338	錸 (<CJK Ideograph>)";
"16773	0x933C	錼 (<CJK Ideograph>)";
"16774	0x931B	錛 (<CJK Ideograph>)";
"16775	0x9323	錣 (<CJK Ideograph>)";
"16776	0x9312	錒 (<CJK Ideograph>)";
"16777	0x9301	錁 (<CJK Ideograph>)";
"16778	0x9346	鍆 (<CJK Ideograph>)";
"16779	0x932D	錭 (<CJK Ideograph>)";
"16780	0x930E	錎 (<CJK Ideograph>)";
"16781	0x930D	錍 (<CJK Ideograph>)";
"16782	0x92CB	鋋 (<CJK Ideograph>)";
"16783	0x931D	錝 (<CJK Ideograph>)";
"16784	0x92FA	鋺 (<CJK Ideograph>)";
"16785	0x9325	錥 (<CJK Ideograph>)";
"16786	0x9313	錓 (<CJK Ideograph>)";
"16787	0x92F9	鋹 (<CJK Ideograph>)";
"16788	0x92F7	鋷 (<CJK Ideograph>)";
"16789	0x9334	錴 (<CJK Ideograph>)";
"16790	0x9302	錂 (<CJK Ideograph>)";
"16791	0x9324	錤 (<CJK Ideograph>)";
"16792	0x92FF	鋿 (<CJK Ideograph>)";
"16793	0x9329	錩 (<CJK Ideograph>)";
"16794	0x9339	錹 (<CJK Ideograph>)";
"16795	0x9335	錵 (<CJK Ideograph>)";
"16796	0x932A	錪 (<CJK Ideograph>)";
"16797	0x9314	錔 (<CJK Ideograph>)";
"16798	0x930C	錌 (<CJK Ideograph>)";
"16799	0x930B	錋 (<CJK Ideograph>)";
"16800	0x92FE	鋾 (<CJK Ideograph>)";
"16801	0x9309	錉 (<CJK Ideograph>)"
].
(* /repo/encoding_tables/whatwg/index-big5.txt:15617-15872 *)
Definition index_big5_txt_61 : list line := [
"16802	0x9300	錀 (<CJK Ideograph>)";
"16803	0x92FB	鋻 (<CJK Ideograph>)";
"16804	0x9316	錖 (<CJK Ideograph>)";
"16805	0x95BC	閼 (<CJK Ideograph>)";
"16806	0x95CD	闍 (<CJK Ideograph>)";
"16807	0x95BE	閾 (<CJK Ideograph>)";
"16808	0x95B9	閹 (<CJK Ideograph>)";
"16809	0x95BA	閺 (<CJK Ideograph>)";
"16810	0x95B6	閶 (<CJK Ideograph>)";
"16811	0x95BF	閿 (<CJK Ideograph>)";
"16812	0x95B5	閵 (<CJK Ideograph>)";
"16813	0x95BD	閽 (<CJK Ideograph>)";
"16814	0x96A9	隩 (<CJK Ideograph>)";
"16815	0x96D4	雔 (<CJK Ideograph>)";
"16816	0x970B	霋 (<CJK Ideograph>)";
"16817	0x9712	霒 (<CJK Ideograph>)";
"16818	0x9710	霐 (<CJK Ideograph>)";
"16819	0x9799	鞙 (<CJK Ideograph>)";
"16820	0x9797	鞗 (<CJK Ideograph>)";
"16821	0x9794	鞔 (<CJK Ideograph>)";
"16822	0x97F0	韰 (<CJK Ideograph>)";
"16823	0x97F8	韸 (<CJK Ideograph>)";
"16824	0x9835	頵 (<CJK Ideograph>)";
"16825	0x982F	頯 (<CJK Ideograph>)";
"16826	0x9832	頲 (<CJK Ideograph>)";
"16827	0x9924	餤 (<CJK Ideograph>)";
"16828	0x991F	餟 (<CJK Ideograph>)";
"16829	0x9927	餧 (<CJK Ideograph>)";
"16830	0x9929	餩 (<CJK Ideograph>)";
"16831	0x999E	馞 (<CJK Ideograph>)";
"16832	0x99EE	駮 (<CJK Ideograph>)";
"16833	0x99EC	駬 (<CJK Ideograph>)";
"16834	0x99E5	駥 (<CJK Ideograph>)";
"16835	0x99E4	駤 (<CJK Ideograph>)";
"16836	0x99F0	駰 (<CJK Ideograph>)";
"16837	0x99E3	駣 (<CJK Ideograph>)";
"16838	0x99EA	駪 (<CJK Ideograph>)";
"16839	0x99E9	駩 (<CJK Ideograph>)";
"16840	0x99E7	駧 (<CJK Ideograph>)";
"16841	0x9AB9	骹 (<CJK Ideograph>)";
"16842	0x9ABF	骿 (<CJK Ideograph>)";
"16843	0x9AB4	骴 (<CJK Ideograph>)";
"16844	0x9ABB	骻 (<CJK Ideograph>)";
"16845	0x9AF6	髶 (<CJK Ideograph>)";
"16846	0x9AFA	髺 (<CJK Ideograph>)";
"16847	0x9AF9	髹 (<CJK Ideograph>)";
"16848	0x9AF7	髷 (<CJK Ideograph>)";
"16849	0x9B33	鬳 (<CJK Ideograph>)";
"16850	0x9B80	鮀 (<CJK Ideograph>)";
"16851	0x9B85	鮅 (<CJK Ideograph>)";
"16852	0x9B87	鮇 (<CJK Ideograph>)";
"16853	0x9B7C	魼 (<CJK Ideograph>)";
"16854	0x9B7E	魾 (<CJK Ideograph>)";
"16855	0x9B7B	魻 (<CJK Ideograph>)";
"16856	0x9B82	鮂 (<CJK Ideograph>)";
"16857	0x9B93	鮓 (<CJK Ideograph>)";
"16858	0x9B92	鮒 (<CJK Ideograph>)";
"16859	0x9B90	鮐 (<CJK Ideograph>)";
"16860	0x9B7A	魺 (<CJK Ideograph>)";
"16861	0x9B95	鮕 (<CJK Ideograph>)";
"16862	0x9B7D	魽 (<CJK Ideograph>)";
"16863	0x9B88	鮈 (<CJK Ideograph>)";
"16864	0x9D25	鴥 (<CJK Ideograph>)";
"16865	0x9D17	鴗 (<CJK Ideograph>)";
"16866	0x9D20	鴠 (<CJK Ideograph>)";
"16867	0x9D1E	鴞 (<CJK Ideograph>)";
"16868	0x9D14	鴔 (<CJK Ideograph>)";
"16869	0x9D29	鴩 (<CJK Ideograph>)";
"16870	0x9D1D	鴝 (<CJK Ideograph>)";
"16871	0x9D18	鴘 (<CJK Ideograph>)";
"16872	0x9D22	鴢 (<CJK Ideograph>)";
"16873	0x9D10	鴐 (<CJK Ideograph>)";
"16874	0x9D19	鴙 (<CJK Ideograph>)";
"16875	0x9D1F	鴟 (<CJK Ideograph>)";
"16876	0x9E88	麈 (<CJK Ideograph>)";
"16877	0x9E86	麆 (<CJK Ideograph>)";
"16878	0x9E87	麇 (<CJK Ideograph>)";
"16879	0x9EAE	麮 (<CJK Ideograph>)";
"16880	0x9EAD	麭 (<CJK Ideograph>)";
"16881	0x9ED5	黕 (<CJK Ideograph>)";
"16882	0x9ED6	黖 (<CJK Ideograph>)";
"16883	0x9EFA	黺 (<CJK Ideograph>)";
"16884	0x9F12	鼒 (<CJK Ideograph>)";
"16885	0x9F3D	鼽 (<CJK Ideograph>)";
"16886	0x5126	儦 (<CJK Ideograph>)";
"16887	0x5125	儥 (<CJK Ideograph>)";
"16888	0x5122	儢 (<CJK Ideograph>)";
"16889	0x5124	儤 (<CJK Ideograph>)";
"16890	0x5120	儠 (<CJK Ideograph>)";
"16891	0x5129	儩 (<CJK Ideograph>)";
"16892	0x52F4	勴 (<CJK Ideograph>)";
"16893	0x5693	嚓 (<CJK Ideograph>)";
"16894	0x568C	嚌 (<CJK Ideograph>)";
"16895	0x568D	嚍 (<CJK Ideograph>)";
"16896	0x5686	嚆 (<CJK Ideograph>)";
"16897	0x5684	嚄 (<CJK Ideograph>)";
"16898	0x5683	嚃 (<CJK Ideograph>)";
"16899	0x567E	噾 (<CJK Ideograph>)";
"16900	0x5682	嚂 (<CJK Ideograph>)";
"16901	0x567F	噿 (<CJK Ideograph>)";
"16902	0x5681	嚁 (<CJK Ideograph>)";
"16903	0x58D6	壖 (<CJK Ideograph>)";
"16904	0x58D4	壔 (<CJK Ideograph>)";
"16905	0x58CF	壏 (<CJK Ideograph>)";
"16906	0x58D2	壒 (<CJK Ideograph>)";
"16907	0x5B2D	嬭 (<CJK Ideograph>)";
"16908	0x5B25	嬥 (<CJK Ideograph>)";
"16909	0x5B32	嬲 (<CJK Ideograph>)";
"16910	0x5B23	嬣 (<CJK Ideograph>)";
"16911	0x5B2C	嬬 (<CJK Ideograph>)";
"16912	0x5B27	嬧 (<CJK Ideograph>)";
"16913	0x5B26	嬦 (<CJK Ideograph>)";
"16914	0x5B2F	嬯 (<CJK Ideograph>)";
"16915	0x5B2E	嬮 (<CJK Ideograph>)";
"16916	0x5B7B	孻 (<CJK Ideograph>)";
"16917	0x5BF1	寱 (<CJK Ideograph>)";
"16918	0x5BF2	寲 (<CJK Ideograph>)";
"16919	0x5DB7	嶷 (<CJK Ideograph>)";
"16920	0x5E6C	幬 (<CJK Ideograph>)";
"16921	0x5E6A	幪 (<CJK Ideograph>)";
"16922	0x5FBE	徾 (<CJK Ideograph>)";
"16923	0x5FBB	徻 (<CJK Ideograph>)";
"16924	0x61C3	懃 (<CJK Ideograph>)";
"16925	0x61B5	憵 (<CJK Ideograph>)";
"16926	0x61BC	憼 (<CJK Ideograph>)";
"16927	0x61E7	懧 (<CJK Ideograph>)";
"16928	0x61E0	懠 (<CJK Ideograph>)";
"16929	0x61E5	懥 (<CJK Ideograph>)";
"16930	0x61E4	懤 (<CJK Ideograph>)";
"16931	0x61E8	懨 (<CJK Ideograph>)";
"16932	0x61DE	懞 (<CJK Ideograph>)";
"16933	0x64EF	擯 (<CJK Ideograph>)";
"16934	0x64E9	擩 (<CJK Ideograph>)";
"16935	0x64E3	擣 (<CJK Ideograph>)";
"16936	0x64EB	擫 (<CJK Ideograph>)";
"16937	0x64E4	擤 (<CJK Ideograph>)";
"16938	0x64E8	擨 (<CJK Ideograph>)";
"16939	0x6581	斁 (<CJK Ideograph>)";
"16940	0x6580	斀 (<CJK Ideograph>)";
"16941	0x65B6	斶 (<CJK Ideograph>)";
"16942	0x65DA	旚 (<CJK Ideograph>)";
"16943	0x66D2	曒 (<CJK Ideograph>)";
"16944	0x6A8D	檍 (<CJK Ideograph>)";
"16945	0x6A96	檖 (<CJK Ideograph>)";
"16946	0x6A81	檁 (<CJK Ideograph>)";
"16947	0x6AA5	檥 (<CJK Ideograph>)";
"16948	0x6A89	檉 (<CJK Ideograph>)";
"16949	0x6A9F	檟 (<CJK Ideograph>)";
"16950	0x6A9B	檛 (<CJK Ideograph>)";
"16951	0x6AA1	檡 (<CJK Ideograph>)";
"16952	0x6A9E	檞 (<CJK Ideograph>)";
"16953	0x6A87	檇 (<CJK Ideograph>)";
"16954	0x6A93	檓 (<CJK Ideograph>)";
"16955	0x6A8E	檎 (<CJK Ideograph>)";
"16956	0x6A95	檕 (<CJK Ideograph>)";
"16957	0x6A83	檃 (<CJK Ideograph>)";
"16958	0x6AA8	檨 (<CJK Ideograph>)";
"16959	0x6AA4	檤 (<CJK Ideograph>)";
"16960	0x6A91	檑 (<CJK Ideograph>)";
"16961	0x6A7F	橿 (<CJK Ideograph>)";
"16962	0x6AA6	檦 (<CJK Ideograph>)";
"16963	0x6A9A	檚 (<CJK Ideograph>)";
"16964	0x6A85	檅 (<CJK Ideograph>)";
"16965	0x6A8C	檌 (<CJK Ideograph>)";
"16966	0x6A92	檒 (<CJK Ideograph>)";
"16967	0x6B5B	歛 (<CJK Ideograph>)";
"16968	0x6BAD	殭 (<CJK Ideograph>)";
"16969	0x6C09	氉 (<CJK Ideograph>)";
"16970	0x6FCC	濌 (<CJK Ideograph>)";
"16971	0x6FA9	澩 (<CJK Ideograph>)";
"16972	0x6FF4	濴 (<CJK Ideograph>)";
"16973	0x6FD4	濔 (<CJK Ideograph>)";
"16974	0x6FE3	濣 (<CJK Ideograph>)";
"16975	0x6FDC	濜 (<CJK Ideograph>)";
"16976	0x6FED	濭 (<CJK Ideograph>)";
"16977	0x6FE7	濧 (<CJK Ideograph>)";
"16978	0x6FE6	濦 (<CJK Ideograph>)";
"16979	0x6FDE	濞 (<CJK Ideograph>)";
"16980	0x6FF2	濲 (<CJK Ideograph>)";
"16981	0x6FDD	濝 (<CJK Ideograph>)";
"16982	0x6FE2	濢 (<CJK Ideograph>)";
"16983	0x6FE8	濨 (<CJK Ideograph>)";
"16984	0x71E1	燡 (<CJK Ideograph>)";
"16985	0x71F1	燱 (<CJK Ideograph>)";
"16986	0x71E8	燨 (<CJK Ideograph>)";
"16987	0x71F2	燲 (<CJK Ideograph>)";
"16988	0x71E4	燤 (<CJK Ideograph>)";
"16989	0x71F0	燰 (<CJK Ideograph>)";
"16990	0x71E2	燢 (<CJK Ideograph>)";
"16991	0x7373	獳 (<CJK Ideograph>)";
"16992	0x736E	獮 (<CJK Ideograph>)";
"16993	0x736F	獯 (<CJK Ideograph>)";
"16994	0x7497	璗 (<CJK Ideograph>)";
"16995	0x74B2	璲 (<CJK Ideograph>)";
"16996	0x74AB	璫 (<CJK Ideograph>)";
"16997	0x7490	璐 (<CJK Ideograph>)";
"16998	0x74AA	璪 (<CJK Ideograph>)";
"16999	0x74AD	璭 (<CJK Ideograph>)";
"17000	0x74B1	璱 (<CJK Ideograph>)";
"17001	0x74A5	璥 (<CJK Ideograph>)";
"17002	0x74AF	璯 (<CJK Ideograph>)";
"17003	0x7510	甐 (<CJK Ideograph>)";
"17004	0x7511	甑 (<CJK Ideograph>)";
"17005	0x7512	甒 (<CJK Ideograph>)";
"17006	0x750F	甏 (<CJK Ideograph>)";
"17007	0x7584	疄 (<CJK Ideograph>)";
"17008	0x7643	癃 (<CJK Ideograph>)";
"17009	0x7648	癈 (<CJK Ideograph>)";
"17010	0x7649	癉 (<CJK Ideograph>)";
"17011	0x7647	癇 (<CJK Ideograph>)";
"17012	0x76A4	皤 (<CJK Ideograph>)";
"17013	0x76E9	盩 (<CJK Ideograph>)";
"17014	0x77B5	瞵 (<CJK Ideograph>)";
"17015	0x77AB	瞫 (<CJK Ideograph>)";
"17016	0x77B2	瞲 (<CJK Ideograph>)";
"17017	0x77B7	瞷 (<CJK Ideograph>)";
"17018	0x77B6	瞶 (<CJK Ideograph>)";
"17019	0x77B4	瞴 (<CJK Ideograph>)";
"17020	0x77B1	瞱 (<CJK Ideograph>)";
"17021	0x77A8	瞨 (<CJK Ideograph>)";
"17022	0x77F0	矰 (<CJK Ideograph>)";
"17023	0x78F3	磳 (<CJK Ideograph>)";
"17024	0x78FD	磽 (<CJK Ideograph>)";
"17025	0x7902	礂 (<CJK Ideograph>)";
"17026	0x78FB	磻 (<CJK Ideograph>)";
"17027	0x78FC	磼 (<CJK Ideograph>)";
"17028	0x78F2	磲 (<CJK Ideograph>)";
"17029	0x7905	礅 (<CJK Ideograph>)";
"17030	0x78F9	磹 (<CJK Ideograph>)";
"17031	0x78FE	磾 (<CJK Ideograph>)";
"17032	0x7904	礄 (<CJK Ideograph>)";
"17033	0x79AB	禫 (<CJK Ideograph>)";
"17034	0x79A8	禨 (<CJK Ideograph>)";
"17035	0x7A5C	穜 (<CJK Ideograph>)";
"17036	0x7A5B	穛 (<CJK Ideograph>)";
"17037	0x7A56	穖 (<CJK Ideograph>)";
"17038	0x7A58	穘 (<CJK Ideograph>)";
"17039	0x7A54	穔 (<CJK Ideograph>)";
"17040	0x7A5A	穚 (<CJK Ideograph>)";
"17041	0x7ABE	窾 (<CJK Ideograph>)";
"17042	0x7AC0	竀 (<CJK Ideograph>)";
"17043	0x7AC1	竁 (<CJK Ideograph>)";
"17044	0x7C05	簅 (<CJK Ideograph>)";
"17045	0x7C0F	簏 (<CJK Ideograph>)";
"17046	0x7BF2	篲 (<CJK Ideograph>)";
"17047	0x7C00	簀 (<CJK Ideograph>)";
"17048	0x7BFF	篿 (<CJK Ideograph>)";
"17049	0x7BFB	篻 (<CJK Ideograph>)";
"17050	0x7C0E	簎 (<CJK Ideograph>)";
"17051	0x7BF4	篴 (<CJK Ideograph>)";
"17052	0x7C0B	簋 (<CJK Ideograph>)";
"17053	0x7BF3	篳 (<CJK Ideograph>)";
"17054	0x7C02	簂 (<CJK Ideograph>)";
"17055	0x7C09	簉 (<CJK Ideograph>)";
"17056	0x7C03	簃 (<CJK Ideograph>)";
"17057	0x7C01	簁 (<CJK Ideograph>)"
].
(* /repo/encoding_tables/whatwg/index-big5.txt:15873-16128 *)
Definition index_big5_txt_62 : list line := [
"17058	0x7BF8	篸 (<CJK Ideograph>)";
"17059	0x7BFD	篽 (<CJK Ideograph>)";
"17060	0x7C06	簆 (<CJK Ideograph>)";
"17061	0x7BF0	篰 (<CJK Ideograph>)";
"17062	0x7BF1	篱 (<CJK Ideograph>)";
"17063	0x7C10	簐 (<CJK Ideograph>)";
"17064	0x7C0A	簊 (<CJK Ideograph>)";
"17065	0x7CE8	糨 (<CJK Ideograph>)";
"17066	0x7E2D	縭 (<CJK Ideograph>)";
"17067	0x7E3C	縼 (<CJK Ideograph>)";
"17068	0x7E42	繂 (<CJK Ideograph>)";
"17069	0x7E33	縳 (<CJK Ideograph>)";
"17070	0x9848	顈 (<CJK Ideograph>)";
"17071	0x7E38	縸 (<CJK Ideograph>)";
"17072	0x7E2A	縪 (<CJK Ideograph>)";
"17073	0x7E49	繉 (<CJK Ideograph>)";
"17074	0x7E40	繀 (<CJK Ideograph>)";
"17075	0x7E47	繇 (<CJK Ideograph>)";
"17076	0x7E29	縩 (<CJK Ideograph>)";
"17077	0x7E4C	繌 (<CJK Ideograph>)";
"17078	0x7E30	縰 (<CJK Ideograph>)";
"17079	0x7E3B	縻 (<CJK Ideograph>)";
"17080	0x7E36	縶 (<CJK Ideograph>)";
"17081	0x7E44	繄 (<CJK Ideograph>)";
"17082	0x7E3A	縺 (<CJK Ideograph>)";
"17083	0x7F45	罅 (<CJK Ideograph>)";
"17084	0x7F7F	罿 (<CJK Ideograph>)";
"17085	0x7F7E	罾 (<CJK Ideograph>)";
"17086	0x7F7D	罽 (<CJK Ideograph>)";
"17087	0x7FF4	翴 (<CJK Ideograph>)";
"17088	0x7FF2	翲 (<CJK Ideograph>)";
"17089	0x802C	耬 (<CJK Ideograph>)";
"17090	0x81BB	膻 (<CJK Ideograph>)";
"17091	0x81C4	臄 (<CJK Ideograph>)";
"17092	0x81CC	臌 (<CJK Ideograph>)";
"17093	0x81CA	臊 (<CJK Ideograph>)";
"17094	0x81C5	臅 (<CJK Ideograph>)";
"17095	0x81C7	臇 (<CJK Ideograph>)";
"17096	0x81BC	膼 (<CJK Ideograph>)";
"17097	0x81E9	臩 (<CJK Ideograph>)";
"17098	0x825B	艛 (<CJK Ideograph>)";
"17099	0x825A	艚 (<CJK Ideograph>)";
"17100	0x825C	艜 (<CJK Ideograph>)";
"17101	0x8583	薃 (<CJK Ideograph>)";
"17102	0x8580	薀 (<CJK Ideograph>)";
"17103	0x858F	薏 (<CJK Ideograph>)";
"17104	0x85A7	薧 (<CJK Ideograph>)";
"17105	0x8595	薕 (<CJK Ideograph>)";
"17106	0x85A0	薠 (<CJK Ideograph>)";
"17107	0x858B	薋 (<CJK Ideograph>)";
"17108	0x85A3	薣 (<CJK Ideograph>)";
"17109	0x857B	蕻 (<CJK Ideograph>)";
"17110	0x85A4	薤 (<CJK Ideograph>)";
"17111	0x859A	薚 (<CJK Ideograph>)";
"17112	0x859E	薞 (<CJK Ideograph>)";
"17113	0x8577	蕷 (<CJK Ideograph>)";
"17114	0x857C	蕼 (<CJK Ideograph>)";
"17115	0x8589	薉 (<CJK Ideograph>)";
"17116	0x85A1	薡 (<CJK Ideograph>)";
"17117	0x857A	蕺 (<CJK Ideograph>)";
"17118	0x8578	蕸 (<CJK Ideograph>)";
"17119	0x8557	蕗 (<CJK Ideograph>)";
"17120	0x858E	薎 (<CJK Ideograph>)";
"17121	0x8596	薖 (<CJK Ideograph>)";
"17122	0x8586	薆 (<CJK Ideograph>)";
"17123	0x858D	薍 (<CJK Ideograph>)";
"17124	0x8599	薙 (<CJK Ideograph>)";
"17125	0x859D	薝 (<CJK Ideograph>)";
"17126	0x8581	薁 (<CJK Ideograph>)";
"17127	0x85A2	薢 (<CJK Ideograph>)";
"17128	0x8582	薂 (<CJK Ideograph>)";
"17129	0x8588	薈 (<CJK Ideograph>)";
"17130	0x8585	薅 (<CJK Ideograph>)";
"17131	0x8579	蕹 (<CJK Ideograph>)";
"17132	0x8576	蕶 (<CJK Ideograph>)";
"17133	0x8598	薘 (<CJK Ideograph>)";
"17134	0x8590	薐 (<CJK Ideograph>)";
"17135	0x859F	薟 (<CJK Ideograph>)";
"17136	0x8668	虨 (<CJK Ideograph>)";
"17137	0x87BE	螾 (<CJK Ideograph>)";
"17138	0x87AA	螪 (<CJK Ideograph>)";
"17139	0x87AD	螭 (<CJK Ideograph>)";
"17140	0x87C5	蟅 (<CJK Ideograph>)";
"17141	0x87B0	螰 (<CJK Ideograph>)";
"17142	0x87AC	螬 (<CJK Ideograph>)";
"17143	0x87B9	螹 (<CJK Ideograph>)";
"17144	0x87B5	螵 (<CJK Ideograph>)";
"17145	0x87BC	螼 (<CJK Ideograph>)";
"17146	0x87AE	螮 (<CJK Ideograph>)";
"17147	0x87C9	蟉 (<CJK Ideograph>)";
"17148	0x87C3	蟃 (<CJK Ideograph>)";
"17149	0x87C2	蟂 (<CJK Ideograph>)";
"17150	0x87CC	蟌 (<CJK Ideograph>)";
"17151	0x87B7	螷 (<CJK Ideograph>)";
"17152	0x87AF	螯 (<CJK Ideograph>)";
"17153	0x87C4	蟄 (<CJK Ideograph>)";
"17154	0x87CA	蟊 (<CJK Ideograph>)";
"17155	0x87B4	螴 (<CJK Ideograph>)";
"17156	0x87B6	螶 (<CJK Ideograph>)";
"17157	0x87BF	螿 (<CJK Ideograph>)";
"17158	0x87B8	螸 (<CJK Ideograph>)";
"17159	0x87BD	螽 (<CJK Ideograph>)";
"17160	0x87DE	蟞 (<CJK Ideograph>)";
"17161	0x87B2	螲 (<CJK Ideograph>)";
"17162	0x8935	褵 (<CJK Ideograph>)";
"17163	0x8933	褳 (<CJK Ideograph>)";
"17164	0x893C	褼 (<CJK Ideograph>)";
"17165	0x893E	褾 (<CJK Ideograph>)";
"17166	0x8941	襁 (<CJK Ideograph>)";
"17167	0x8952	襒 (<CJK Ideograph>)";
"17168	0x8937	褷 (<CJK Ideograph>)";
"17169	0x8942	襂 (<CJK Ideograph>)";
"17170	0x89AD	覭 (<CJK Ideograph>)";
"17171	0x89AF	覯 (<CJK Ideograph>)";
"17172	0x89AE	覮 (<CJK Ideograph>)";
"17173	0x89F2	觲 (<CJK Ideograph>)";
"17174	0x89F3	觳 (<CJK Ideograph>)";
"17175	0x8B1E	謞 (<CJK Ideograph>)";
"17176	0x8B18	謘 (<CJK Ideograph>)";
"17177	0x8B16	謖 (<CJK Ideograph>)";
"17178	0x8B11	謑 (<CJK Ideograph>)";
"17179	0x8B05	謅 (<CJK Ideograph>)";
"17180	0x8B0B	謋 (<CJK Ideograph>)";
"17181	0x8B22	謢 (<CJK Ideograph>)";
"17182	0x8B0F	謏 (<CJK Ideograph>)";
"17183	0x8B12	謒 (<CJK Ideograph>)";
"17184	0x8B15	謕 (<CJK Ideograph>)";
"17185	0x8B07	謇 (<CJK Ideograph>)";
"17186	0x8B0D	謍 (<CJK Ideograph>)";
"17187	0x8B08	謈 (<CJK Ideograph>)";
"17188	0x8B06	謆 (<CJK Ideograph>)";
"17189	0x8B1C	謜 (<CJK Ideograph>)";
"17190	0x8B13	謓 (<CJK Ideograph>)";
"17191	0x8B1A	謚 (<CJK Ideograph>)";
"17192	0x8C4F	豏 (<CJK Ideograph>)";
"17193	0x8C70	豰 (<CJK Ideograph>)";
"17194	0x8C72	豲 (<CJK Ideograph>)";
"17195	0x8C71	豱 (<CJK Ideograph>)";
"17196	0x8C6F	豯 (<CJK Ideograph>)";
"17197	0x8C95	貕 (<CJK Ideograph>)";
"17198	0x8C94	貔 (<CJK Ideograph>)";
"17199	0x8CF9	賹 (<CJK Ideograph>)";
"17200	0x8D6F	赯 (<CJK Ideograph>)";
"17201	0x8E4E	蹎 (<CJK Ideograph>)";
"17202	0x8E4D	蹍 (<CJK Ideograph>)";
"17203	0x8E53	蹓 (<CJK Ideograph>)";
"17204	0x8E50	蹐 (<CJK Ideograph>)";
"17205	0x8E4C	蹌 (<CJK Ideograph>)";
"17206	0x8E47	蹇 (<CJK Ideograph>)";
"17207	0x8F43	轃 (<CJK Ideograph>)";
"17208	0x8F40	轀 (<CJK Ideograph>)";
"17209	0x9085	邅 (<CJK Ideograph>)";
"17210	0x907E	遾 (<CJK Ideograph>)";
"17211	0x9138	鄸 (<CJK Ideograph>)";
"17212	0x919A	醚 (<CJK Ideograph>)";
"17213	0x91A2	醢 (<CJK Ideograph>)";
"17214	0x919B	醛 (<CJK Ideograph>)";
"17215	0x9199	醙 (<CJK Ideograph>)";
"17216	0x919F	醟 (<CJK Ideograph>)";
"17217	0x91A1	醡 (<CJK Ideograph>)";
"17218	0x919D	醝 (<CJK Ideograph>)";
"17219	0x91A0	醠 (<CJK Ideograph>)";
"17220	0x93A1	鎡 (<CJK Ideograph>)";
"17221	0x9383	鎃 (<CJK Ideograph>)";
"17222	0x93AF	鎯 (<CJK Ideograph>)";
"17223	0x9364	鍤 (<CJK Ideograph>)";
"17224	0x9356	鍖 (<CJK Ideograph>)";
"17225	0x9347	鍇 (<CJK Ideograph>)";
"17226	0x937C	鍼 (<CJK Ideograph>)";
"17227	0x9358	鍘 (<CJK Ideograph>)";
"17228	0x935C	鍜 (<CJK Ideograph>)";
"17229	0x9376	鍶 (<CJK Ideograph>)";
"17230	0x9349	鍉 (<CJK Ideograph>)";
"17231	0x9350	鍐 (<CJK Ideograph>)";
"17232	0x9351	鍑 (<CJK Ideograph>)";
"17233	0x9360	鍠 (<CJK Ideograph>)";
"17234	0x936D	鍭 (<CJK Ideograph>)";
"17235	0x938F	鎏 (<CJK Ideograph>)";
"17236	0x934C	鍌 (<CJK Ideograph>)";
"17237	0x936A	鍪 (<CJK Ideograph>)";
"17238	0x9379	鍹 (<CJK Ideograph>)";
"17239	0x9357	鍗 (<CJK Ideograph>)";
"17240	0x9355	鍕 (<CJK Ideograph>)";
"17241	0x9352	鍒 (<CJK Ideograph>)";
"17242	0x934F	鍏 (<CJK Ideograph>)";
"17243	0x9371	鍱 (<CJK Ideograph>)";
"17244	0x9377	鍷 (<CJK Ideograph>)";
"17245	0x937B	鍻 (<CJK Ideograph>)";
"17246	0x9361	鍡 (<CJK Ideograph>)";
"17247	0x935E	鍞 (<CJK Ideograph>)";
"17248	0x9363	鍣 (<CJK Ideograph>)";
"17249	0x9367	鍧 (<CJK Ideograph>)";
"17250	0x9380	鎀 (<CJK Ideograph>)";
"17251	0x934E	鍎 (<CJK Ideograph>)";
"17252	0x9359	鍙 (<CJK Ideograph>)";
"17253	0x95C7	闇 (<CJK Ideograph>)";
"17254	0x95C0	闀 (<CJK Ideograph>)";
"17255	0x95C9	闉 (<CJK Ideograph>)";
"17256	0x95C3	闃 (<CJK Ideograph>)";
"17257	0x95C5	闅 (<CJK Ideograph>)";
"17258	0x95B7	閷 (<CJK Ideograph>)";
"17259	0x96AE	隮 (<CJK Ideograph>)";
"17260	0x96B0	隰 (<CJK Ideograph>)";
"17261	0x96AC	隬 (<CJK Ideograph>)";
"17262	0x9720	霠 (<CJK Ideograph>)";
"17263	0x971F	霟 (<CJK Ideograph>)";
"17264	0x9718	霘 (<CJK Ideograph>)";
"17265	0x971D	霝 (<CJK Ideograph>)";
"17266	0x9719	霙 (<CJK Ideograph>)";
"17267	0x979A	鞚 (<CJK Ideograph>)";
"17268	0x97A1	鞡 (<CJK Ideograph>)";
"17269	0x979C	鞜 (<CJK Ideograph>)";
"17270	0x979E	鞞 (<CJK Ideograph>)";
"17271	0x979D	鞝 (<CJK Ideograph>)";
"17272	0x97D5	韕 (<CJK Ideograph>)";
"17273	0x97D4	韔 (<CJK Ideograph>)";
"17274	0x97F1	韱 (<CJK Ideograph>)";
"17275	0x9841	顁 (<CJK Ideograph>)";
"17276	0x9844	顄 (<CJK Ideograph>)";
"17277	0x984A	顊 (<CJK Ideograph>)";
"17278	0x9849	顉 (<CJK Ideograph>)";
"17279	0x9845	顅 (<CJK Ideograph>)";
"17280	0x9843	顃 (<CJK Ideograph>)";
"17281	0x9925	餥 (<CJK Ideograph>)";
"17282	0x992B	餫 (<CJK Ideograph>)";
"17283	0x992C	餬 (<CJK Ideograph>)";
"17284	0x992A	餪 (<CJK Ideograph>)";
"17285	0x9933	餳 (<CJK Ideograph>)";
"17286	0x9932	餲 (<CJK Ideograph>)";
"17287	0x992F	餯 (<CJK Ideograph>)";
"17288	0x992D	餭 (<CJK Ideograph>)";
"17289	0x9931	餱 (<CJK Ideograph>)";
"17290	0x9930	餰 (<CJK Ideograph>)";
"17291	0x9998	馘 (<CJK Ideograph>)";
"17292	0x99A3	馣 (<CJK Ideograph>)";
"17293	0x99A1	馡 (<CJK Ideograph>)";
"17294	0x9A02	騂 (<CJK Ideograph>)";
"17295	0x99FA	駺 (<CJK Ideograph>)";
"17296	0x99F4	駴 (<CJK Ideograph>)";
"17297	0x99F7	駷 (<CJK Ideograph>)";
"17298	0x99F9	駹 (<CJK Ideograph>)";
"17299	0x99F8	駸 (<CJK Ideograph>)";
"17300	0x99F6	駶 (<CJK Ideograph>)";
"17301	0x99FB	駻 (<CJK Ideograph>)";
"17302	0x99FD	駽 (<CJK Ideograph>)";
"17303	0x99FE	駾 (<CJK Ideograph>)";
"17304	0x99FC	駼 (<CJK Ideograph>)";
"17305	0x9A03	騃 (<CJK Ideograph>)";
"17306	0x9ABE	骾 (<CJK Ideograph>)";
"17307	0x9AFE	髾 (<CJK Ideograph>)";
"17308	0x9AFD	髽 (<CJK Ideograph>)";
"17309	0x9B01	鬁 (<CJK Ideograph>)";
"17310	0x9AFC	髼 (<CJK Ideograph>)";
"17311	0x9B48	魈 (<CJK Ideograph>)";
"17312	0x9B9A	鮚 (<CJK Ideograph>)";
"17313	0x9BA8	鮨 (<CJK Ideograph>)"
].
(* /repo/encoding_tables/whatwg/index-big5.txt:16129-16384 *)
Definition index_big5_txt_63 : list line := [
"17314	0x9B9E	鮞 (<CJK Ideograph>)";
"17315	0x9B9B	鮛 (<CJK Ideograph>)";
"17316	0x9BA6	鮦 (<CJK Ideograph>)";
"17317	0x9BA1	鮡 (<CJK Ideograph>)";
"17318	0x9BA5	鮥 (<CJK Ideograph>)";
"17319	0x9BA4	鮤 (<CJK Ideograph>)";
"17320	0x9B86	鮆 (<CJK Ideograph>)";
"17321	0x9BA2	鮢 (<CJK Ideograph>)";
"17322	0x9BA0	鮠 (<CJK Ideograph>)";
"17323	0x9BAF	鮯 (<CJK Ideograph>)";
"17324	0x9D33	鴳 (<CJK Ideograph>)";
"17325	0x9D41	鵁 (<CJK Ideograph>)";
"17326	0x9D67	鵧 (<CJK Ideograph>)";
"17327	0x9D36	鴶 (<CJK Ideograph>)";
"17328	0x9D2E	鴮 (<CJK Ideograph>)";
"17329	0x9D2F	鴯 (<CJK Ideograph>)";
"17330	0x9D31	鴱 (<CJK Ideograph>)";
"17331	0x9D38	鴸 (<CJK Ideograph>)";
"17332	0x9D30	鴰 (<CJK Ideograph>)";
"17333	0x9D45	鵅 (<CJK Ideograph>)";
"17334	0x9D42	鵂 (<CJK Ideograph>)";
"17335	0x9D43	鵃 (<CJK Ideograph>)";
"17336	0x9D3E	鴾 (<CJK Ideograph>)";
"17337	0x9D37	鴷 (<CJK Ideograph>)";
"17338	0x9D40	鵀 (<CJK Ideograph>)";
"17339	0x9D3D	鴽 (<CJK Ideograph>)";
"17340	0x7FF5	翵 (<CJK Ideograph>)";
"17341	0x9D2D	鴭 (<CJK Ideograph>)";
"17342	0x9E8A	麊 (<CJK Ideograph>)";
"17343	0x9E89	麉 (<CJK Ideograph>)";
"17344	0x9E8D	麍 (<CJK Ideograph>)";
"17345	0x9EB0	麰 (<CJK Ideograph>)";
"17346	0x9EC8	黈 (<CJK Ideograph>)";
"17347	0x9EDA	黚 (<CJK Ideograph>)";
"17348	0x9EFB	黻 (<CJK Ideograph>)";
"17349	0x9EFF	黿 (<CJK Ideograph>)";
"17350	0x9F24	鼤 (<CJK Ideograph>)";
"17351	0x9F23	鼣 (<CJK Ideograph>)";
"17352	0x9F22	鼢 (<CJK Ideograph>)";
"17353	0x9F54	齔 (<CJK Ideograph>)";
"17354	0x9FA0	龠 (<CJK Ideograph>)";
"17355	0x5131	儱 (<CJK Ideograph>)";
"17356	0x512D	儭 (<CJK Ideograph>)";
"17357	0x512E	儮 (<CJK Ideograph>)";
"17358	0x5698	嚘 (<CJK Ideograph>)";
"17359	0x569C	嚜 (<CJK Ideograph>)";
"17360	0x5697	嚗 (<CJK Ideograph>)";
"17361	0x569A	嚚 (<CJK Ideograph>)";
"17362	0x569D	嚝 (<CJK Ideograph>)";
"17363	0x5699	嚙 (<CJK Ideograph>)";
"17364	0x5970	奰 (<CJK Ideograph>)";
"17365	0x5B3C	嬼 (<CJK Ideograph>)";
"17366	0x5C69	屩 (<CJK Ideograph>)";
"17367	0x5C6A	屪 (<CJK Ideograph>)";
"17368	0x5DC0	巀 (<CJK Ideograph>)";
"17369	0x5E6D	幭 (<CJK Ideograph>)";
"17370	0x5E6E	幮 (<CJK Ideograph>)";
"17371	0x61D8	懘 (<CJK Ideograph>)";
"17372	0x61DF	懟 (<CJK Ideograph>)";
"17373	0x61ED	懭 (<CJK Ideograph>)";
"17374	0x61EE	懮 (<CJK Ideograph>)";
"17375	0x61F1	懱 (<CJK Ideograph>)";
"17376	0x61EA	懪 (<CJK Ideograph>)";
"17377	0x61F0	懰 (<CJK Ideograph>)";
"17378	0x61EB	懫 (<CJK Ideograph>)";
"17379	0x61D6	懖 (<CJK Ideograph>)";
"17380	0x61E9	懩 (<CJK Ideograph>)";
"17381	0x64FF	擿 (<CJK Ideograph>)";
"17382	0x6504	攄 (<CJK Ideograph>)";
"17383	0x64FD	擽 (<CJK Ideograph>)";
"17384	0x64F8	擸 (<CJK Ideograph>)";
"17385	0x6501	攁 (<CJK Ideograph>)";
"17386	0x6503	攃 (<CJK Ideograph>)";
"17387	0x64FC	擼 (<CJK Ideograph>)";
"17388	0x6594	斔 (<CJK Ideograph>)";
"17389	0x65DB	旛 (<CJK Ideograph>)";
"17390	0x66DA	曚 (<CJK Ideograph>)";
"17391	0x66DB	曛 (<CJK Ideograph>)";
"17392	0x66D8	曘 (<CJK Ideograph>)";
"17393	0x6AC5	櫅 (<CJK Ideograph>)";
"17394	0x6AB9	檹 (<CJK Ideograph>)";
"17395	0x6ABD	檽 (<CJK Ideograph>)";
"17396	0x6AE1	櫡 (<CJK Ideograph>)";
"17397	0x6AC6	櫆 (<CJK Ideograph>)";
"17398	0x6ABA	檺 (<CJK Ideograph>)";
"17399	0x6AB6	檶 (<CJK Ideograph>)";
"17400	0x6AB7	檷 (<CJK Ideograph>)";
"17401	0x6AC7	櫇 (<CJK Ideograph>)";
"17402	0x6AB4	檴 (<CJK Ideograph>)";
"17403	0x6AAD	檭 (<CJK Ideograph>)";
"17404	0x6B5E	歞 (<CJK Ideograph>)";
"17405	0x6BC9	毉 (<CJK Ideograph>)";
"17406	0x6C0B	氋 (<CJK Ideograph>)";
"17407	0x7007	瀇 (<CJK Ideograph>)";
"17408	0x700C	瀌 (<CJK Ideograph>)";
"17409	0x700D	瀍 (<CJK Ideograph>)";
"17410	0x7001	瀁 (<CJK Ideograph>)";
"17411	0x7005	瀅 (<CJK Ideograph>)";
"17412	0x7014	瀔 (<CJK Ideograph>)";
"17413	0x700E	瀎 (<CJK Ideograph>)";
"17414	0x6FFF	濿 (<CJK Ideograph>)";
"17415	0x7000	瀀 (<CJK Ideograph>)";
"17416	0x6FFB	濻 (<CJK Ideograph>)";
"17417	0x7026	瀦 (<CJK Ideograph>)";
"17418	0x6FFC	濼 (<CJK Ideograph>)";
"17419	0x6FF7	濷 (<CJK Ideograph>)";
"17420	0x700A	瀊 (<CJK Ideograph>)";
"17421	0x7201	爁 (<CJK Ideograph>)";
"17422	0x71FF	燿 (<CJK Ideograph>)";
"17423	0x71F9	燹 (<CJK Ideograph>)";
"17424	0x7203	爃 (<CJK Ideograph>)";
"17425	0x71FD	燽 (<CJK Ideograph>)";
"17426	0x7376	獶 (<CJK Ideograph>)";
"17427	0x74B8	璸 (<CJK Ideograph>)";
"17428	0x74C0	瓀 (<CJK Ideograph>)";
"17429	0x74B5	璵 (<CJK Ideograph>)";
"17430	0x74C1	瓁 (<CJK Ideograph>)";
"17431	0x74BE	璾 (<CJK Ideograph>)";
"17432	0x74B6	璶 (<CJK Ideograph>)";
"17433	0x74BB	璻 (<CJK Ideograph>)";
"17434	0x74C2	瓂 (<CJK Ideograph>)";
"17435	0x7514	甔 (<CJK Ideograph>)";
"17436	0x7513	甓 (<CJK Ideograph>)";
"17437	0x765C	癜 (<CJK Ideograph>)";
"17438	0x7664	癤 (<CJK Ideograph>)";
"17439	0x7659	癙 (<CJK Ideograph>)";
"17440	0x7650	癐 (<CJK Ideograph>)";
"17441	0x7653	癓 (<CJK Ideograph>)";
"17442	0x7657	癗 (<CJK Ideograph>)";
"17443	0x765A	癚 (<CJK Ideograph>)";
"17444	0x76A6	皦 (<CJK Ideograph>)";
"17445	0x76BD	皽 (<CJK Ideograph>)";
"17446	0x76EC	盬 (<CJK Ideograph>)";
"17447	0x77C2	矂 (<CJK Ideograph>)";
"17448	0x77BA	瞺 (<CJK Ideograph>)";
"17449	0x78FF	磿 (<CJK Ideograph>)";
"17450	0x790C	礌 (<CJK Ideograph>)";
"17451	0x7913	礓 (<CJK Ideograph>)";
"17452	0x7914	礔 (<CJK Ideograph>)";
"17453	0x7909	礉 (<CJK Ideograph>)";
"17454	0x7910	礐 (<CJK Ideograph>)";
"17455	0x7912	礒 (<CJK Ideograph>)";
"17456	0x7911	礑 (<CJK Ideograph>)";
"17457	0x79AD	禭 (<CJK Ideograph>)";
"17458	0x79AC	禬 (<CJK Ideograph>)";
"17459	0x7A5F	穟 (<CJK Ideograph>)";
"17460	0x7C1C	簜 (<CJK Ideograph>)";
"17461	0x7C29	簩 (<CJK Ideograph>)";
"17462	0x7C19	簙 (<CJK Ideograph>)";
"17463	0x7C20	簠 (<CJK Ideograph>)";
"17464	0x7C1F	簟 (<CJK Ideograph>)";
"17465	0x7C2D	簭 (<CJK Ideograph>)";
"17466	0x7C1D	簝 (<CJK Ideograph>)";
"17467	0x7C26	簦 (<CJK Ideograph>)";
"17468	0x7C28	簨 (<CJK Ideograph>)";
"17469	0x7C22	簢 (<CJK Ideograph>)";
"17470	0x7C25	簥 (<CJK Ideograph>)";
"17471	0x7C30	簰 (<CJK Ideograph>)";
"17472	0x7E5C	繜 (<CJK Ideograph>)";
"17473	0x7E50	繐 (<CJK Ideograph>)";
"17474	0x7E56	繖 (<CJK Ideograph>)";
"17475	0x7E63	繣 (<CJK Ideograph>)";
"17476	0x7E58	繘 (<CJK Ideograph>)";
"17477	0x7E62	繢 (<CJK Ideograph>)";
"17478	0x7E5F	繟 (<CJK Ideograph>)";
"17479	0x7E51	繑 (<CJK Ideograph>)";
"17480	0x7E60	繠 (<CJK Ideograph>)";
"17481	0x7E57	繗 (<CJK Ideograph>)";
"17482	0x7E53	繓 (<CJK Ideograph>)";
"17483	0x7FB5	羵 (<CJK Ideograph>)";
"17484	0x7FB3	羳 (<CJK Ideograph>)";
"17485	0x7FF7	翷 (<CJK Ideograph>)";
"17486	0x7FF8	翸 (<CJK Ideograph>)";
"17487	0x8075	聵 (<CJK Ideograph>)";
"17488	0x81D1	臑 (<CJK Ideograph>)";
"17489	0x81D2	臒 (<CJK Ideograph>)";
"17490	0x81D0	臐 (<CJK Ideograph>)";
"17491	0x825F	艟 (<CJK Ideograph>)";
"17492	0x825E	艞 (<CJK Ideograph>)";
"17493	0x85B4	薴 (<CJK Ideograph>)";
"17494	0x85C6	藆 (<CJK Ideograph>)";
"17495	0x85C0	藀 (<CJK Ideograph>)";
"17496	0x85C3	藃 (<CJK Ideograph>)";
"17497	0x85C2	藂 (<CJK Ideograph>)";
"17498	0x85B3	薳 (<CJK Ideograph>)";
"17499	0x85B5	薵 (<CJK Ideograph>)";
"17500	0x85BD	薽 (<CJK Ideograph>)";
"17501	0x85C7	藇 (<CJK Ideograph>)";
"17502	0x85C4	藄 (<CJK Ideograph>)";
"17503	0x85BF	薿 (<CJK Ideograph>)";
"17504	0x85CB	藋 (<CJK Ideograph>)";
"17505	0x85CE	藎 (<CJK Ideograph>)";
"17506	0x85C8	藈 (<CJK Ideograph>)";
"17507	0x85C5	藅 (<CJK Ideograph>)";
"17508	0x85B1	薱 (<CJK Ideograph>)";
"17509	0x85B6	薶 (<CJK Ideograph>)";
"17510	0x85D2	藒 (<CJK Ideograph>)";
"17511	0x8624	蘤 (<CJK Ideograph>)";
"17512	0x85B8	薸 (<CJK Ideograph>)";
"17513	0x85B7	薷 (<CJK Ideograph>)";
"17514	0x85BE	薾 (<CJK Ideograph>)";
"17515	0x8669	虩 (<CJK Ideograph>)";
"17516	0x87E7	蟧 (<CJK Ideograph>)";
"17517	0x87E6	蟦 (<CJK Ideograph>)";
"17518	0x87E2	蟢 (<CJK Ideograph>)";
"17519	0x87DB	蟛 (<CJK Ideograph>)";
"17520	0x87EB	蟫 (<CJK Ideograph>)";
"17521	0x87EA	蟪 (<CJK Ideograph>)";
"17522	0x87E5	蟥 (<CJK Ideograph>)";
"17523	0x87DF	蟟 (<CJK Ideograph>)";
"17524	0x87F3	蟳 (<CJK Ideograph>)";
"17525	0x87E4	蟤 (<CJK Ideograph>)";
"17526	0x87D4	蟔 (<CJK Ideograph>)";
"17527	0x87DC	蟜 (<CJK Ideograph>)";
"17528	0x87D3	蟓 (<CJK Ideograph>)";
"17529	0x87ED	蟭 (<CJK Ideograph>)";
"17530	0x87D8	蟘 (<CJK Ideograph>)";
"17531	0x87E3	蟣 (<CJK Ideograph>)";
"17532	0x87A4	螤 (<CJK Ideograph>)";
"17533	0x87D7	蟗 (<CJK Ideograph>)";
"17534	0x87D9	蟙 (<CJK Ideograph>)";
"17535	0x8801	蠁 (<CJK Ideograph>)";
"17536	0x87F4	蟴 (<CJK Ideograph>)";
"17537	0x87E8	蟨 (<CJK Ideograph>)";
"17538	0x87DD	蟝 (<CJK Ideograph>)";
"17539	0x8953	襓 (<CJK Ideograph>)";
"17540	0x894B	襋 (<CJK Ideograph>)";
"17541	0x894F	襏 (<CJK Ideograph>)";
"17542	0x894C	襌 (<CJK Ideograph>)";
"17543	0x8946	襆 (<CJK Ideograph>)";
"17544	0x8950	襐 (<CJK Ideograph>)";
"17545	0x8951	襑 (<CJK Ideograph>)";
"17546	0x8949	襉 (<CJK Ideograph>)";
"17547	0x8B2A	謪 (<CJK Ideograph>)";
"17548	0x8B27	謧 (<CJK Ideograph>)";
"17549	0x8B23	謣 (<CJK Ideograph>)";
"17550	0x8B33	謳 (<CJK Ideograph>)";
"17551	0x8B30	謰 (<CJK Ideograph>)";
"17552	0x8B35	謵 (<CJK Ideograph>)";
"17553	0x8B47	譇 (<CJK Ideograph>)";
"17554	0x8B2F	謯 (<CJK Ideograph>)";
"17555	0x8B3C	謼 (<CJK Ideograph>)";
"17556	0x8B3E	謾 (<CJK Ideograph>)";
"17557	0x8B31	謱 (<CJK Ideograph>)";
"17558	0x8B25	謥 (<CJK Ideograph>)";
"17559	0x8B37	謷 (<CJK Ideograph>)";
"17560	0x8B26	謦 (<CJK Ideograph>)";
"17561	0x8B36	謶 (<CJK Ideograph>)";
"17562	0x8B2E	謮 (<CJK Ideograph>)";
"17563	0x8B24	謤 (<CJK Ideograph>)";
"17564	0x8B3B	謻 (<CJK Ideograph>)";
"17565	0x8B3D	謽 (<CJK Ideograph>)";
"17566	0x8B3A	謺 (<CJK Ideograph>)";
"17567	0x8C42	豂 (<CJK Ideograph>)";
"17568	0x8C75	豵 (<CJK Ideograph>)";
"17569	0x8C99	貙 (<CJK Ideograph>)"
].
(* /repo/encoding_tables/whatwg/index-big5.txt:16385-16640 *)
Definition index_big5_txt_64 : list line := [
"17570	0x8C98	貘 (<CJK Ideograph>)";
"17571	0x8C97	貗 (<CJK Ideograph>)";
"17572	0x8CFE	賾 (<CJK Ideograph>)";
"17573	0x8D04	贄 (<CJK Ideograph>)";
"17574	0x8D02	贂 (<CJK Ideograph>)";
"17575	0x8D00	贀 (<CJK Ideograph>)";
"17576	0x8E5C	蹜 (<CJK Ideograph>)";
"17577	0x8E62	蹢 (<CJK Ideograph>)";
"17578	0x8E60	蹠 (<CJK Ideograph>)";
"17579	0x8E57	蹗 (<CJK Ideograph>)";
"17580	0x8E56	蹖 (<CJK Ideograph>)";
"17581	0x8E5E	蹞 (<CJK Ideograph>)";
"17582	0x8E65	蹥 (<CJK Ideograph>)";
"17583	0x8E67	蹧 (<CJK Ideograph>)";
"17584	0x8E5B	蹛 (<CJK Ideograph>)";
"17585	0x8E5A	蹚 (<CJK Ideograph>)";
"17586	0x8E61	蹡 (<CJK Ideograph>)";
"17587	0x8E5D	蹝 (<CJK Ideograph>)";
"17588	0x8E69	蹩 (<CJK Ideograph>)";
"17589	0x8E54	蹔 (<CJK Ideograph>)";
"17590	0x8F46	轆 (<CJK Ideograph>)";
"17591	0x8F47	轇 (<CJK Ideograph>)";
"17592	0x8F48	轈 (<CJK Ideograph>)";
"17593	0x8F4B	轋 (<CJK Ideograph>)";
"17594	0x9128	鄨 (<CJK Ideograph>)";
"17595	0x913A	鄺 (<CJK Ideograph>)";
"17596	0x913B	鄻 (<CJK Ideograph>)";
"17597	0x913E	鄾 (<CJK Ideograph>)";
"17598	0x91A8	醨 (<CJK Ideograph>)";
"17599	0x91A5	醥 (<CJK Ideograph>)";
"17600	0x91A7	醧 (<CJK Ideograph>)";
"17601	0x91AF	醯 (<CJK Ideograph>)";
"17602	0x91AA	醪 (<CJK Ideograph>)";
"17603	0x93B5	鎵 (<CJK Ideograph>)";
"17604	0x938C	鎌 (<CJK Ideograph>)";
"17605	0x9392	鎒 (<CJK Ideograph>)";
"17606	0x93B7	鎷 (<CJK Ideograph>)";
"17607	0x939B	鎛 (<CJK Ideograph>)";
"17608	0x939D	鎝 (<CJK Ideograph>)";
"17609	0x9389	鎉 (<CJK Ideograph>)";
"17610	0x93A7	鎧 (<CJK Ideograph>)";
"17611	0x938E	鎎 (<CJK Ideograph>)";
"17612	0x93AA	鎪 (<CJK Ideograph>)";
"17613	0x939E	鎞 (<CJK Ideograph>)";
"17614	0x93A6	鎦 (<CJK Ideograph>)";
"17615	0x9395	鎕 (<CJK Ideograph>)";
"17616	0x9388	鎈 (<CJK Ideograph>)";
"17617	0x9399	鎙 (<CJK Ideograph>)";
"17618	0x939F	鎟 (<CJK Ideograph>)";
"17619	0x938D	鎍 (<CJK Ideograph>)";
"17620	0x93B1	鎱 (<CJK Ideograph>)";
"17621	0x9391	鎑 (<CJK Ideograph>)";
"17622	0x93B2	鎲 (<CJK Ideograph>)";
"17623	0x93A4	鎤 (<CJK Ideograph>)";
"17624	0x93A8	鎨 (<CJK Ideograph>)";
"17625	0x93B4	鎴 (<CJK Ideograph>)";
"17626	0x93A3	鎣 (<CJK Ideograph>)";
"17627	0x93A5	鎥 (<CJK Ideograph>)";
"17628	0x95D2	闒 (<CJK Ideograph>)";
"17629	0x95D3	闓 (<CJK Ideograph>)";
"17630	0x95D1	闑 (<CJK Ideograph>)";
"17631	0x96B3	隳 (<CJK Ideograph>)";
"17632	0x96D7	雗 (<CJK Ideograph>)";
"17633	0x96DA	雚 (<CJK Ideograph>)";
"17634	0x5DC2	巂 (<CJK Ideograph>)";
"17635	0x96DF	雟 (<CJK Ideograph>)";
"17636	0x96D8	雘 (<CJK Ideograph>)";
"17637	0x96DD	雝 (<CJK Ideograph>)";
"17638	0x9723	霣 (<CJK Ideograph>)";
"17639	0x9722	霢 (<CJK Ideograph>)";
"17640	0x9725	霥 (<CJK Ideograph>)";
"17641	0x97AC	鞬 (<CJK Ideograph>)";
"17642	0x97AE	鞮 (<CJK Ideograph>)";
"17643	0x97A8	鞨 (<CJK Ideograph>)";
"17644	0x97AB	鞫 (<CJK Ideograph>)";
"17645	0x97A4	鞤 (<CJK Ideograph>)";
"17646	0x97AA	鞪 (<CJK Ideograph>)";
"17647	0x97A2	鞢 (<CJK Ideograph>)";
"17648	0x97A5	鞥 (<CJK Ideograph>)";
"17649	0x97D7	韗 (<CJK Ideograph>)";
"17650	0x97D9	韙 (<CJK Ideograph>)";
"17651	0x97D6	韖 (<CJK Ideograph>)";
"17652	0x97D8	韘 (<CJK Ideograph>)";
"17653	0x97FA	韺 (<CJK Ideograph>)";
"17654	0x9850	顐 (<CJK Ideograph>)";
"17655	0x9851	顑 (<CJK Ideograph>)";
"17656	0x9852	顒 (<CJK Ideograph>)";
"17657	0x98B8	颸 (<CJK Ideograph>)";
"17658	0x9941	饁 (<CJK Ideograph>)";
"17659	0x993C	餼 (<CJK Ideograph>)";
"17660	0x993A	餺 (<CJK Ideograph>)";
"17661	0x9A0F	騏 (<CJK Ideograph>)";
"17662	0x9A0B	騋 (<CJK Ideograph>)";
"17663	0x9A09	騉 (<CJK Ideograph>)";
"17664	0x9A0D	騍 (<CJK Ideograph>)";
"17665	0x9A04	騄 (<CJK Ideograph>)";
"17666	0x9A11	騑 (<CJK Ideograph>)";
"17667	0x9A0A	騊 (<CJK Ideograph>)";
"17668	0x9A05	騅 (<CJK Ideograph>)";
"17669	0x9A07	騇 (<CJK Ideograph>)";
"17670	0x9A06	騆 (<CJK Ideograph>)";
"17671	0x9AC0	髀 (<CJK Ideograph>)";
"17672	0x9ADC	髜 (<CJK Ideograph>)";
"17673	0x9B08	鬈 (<CJK Ideograph>)";
"17674	0x9B04	鬄 (<CJK Ideograph>)";
"17675	0x9B05	鬅 (<CJK Ideograph>)";
"17676	0x9B29	鬩 (<CJK Ideograph>)";
"17677	0x9B35	鬵 (<CJK Ideograph>)";
"17678	0x9B4A	魊 (<CJK Ideograph>)";
"17679	0x9B4C	魌 (<CJK Ideograph>)";
"17680	0x9B4B	魋 (<CJK Ideograph>)";
"17681	0x9BC7	鯇 (<CJK Ideograph>)";
"17682	0x9BC6	鯆 (<CJK Ideograph>)";
"17683	0x9BC3	鯃 (<CJK Ideograph>)";
"17684	0x9BBF	鮿 (<CJK Ideograph>)";
"17685	0x9BC1	鯁 (<CJK Ideograph>)";
"17686	0x9BB5	鮵 (<CJK Ideograph>)";
"17687	0x9BB8	鮸 (<CJK Ideograph>)";
"17688	0x9BD3	鯓 (<CJK Ideograph>)";
"17689	0x9BB6	鮶 (<CJK Ideograph>)";
"17690	0x9BC4	鯄 (<CJK Ideograph>)";
"17691	0x9BB9	鮹 (<CJK Ideograph>)";
"17692	0x9BBD	鮽 (<CJK Ideograph>)";
"17693	0x9D5C	鵜 (<CJK Ideograph>)";
"17694	0x9D53	鵓 (<CJK Ideograph>)";
"17695	0x9D4F	鵏 (<CJK Ideograph>)";
"17696	0x9D4A	鵊 (<CJK Ideograph>)";
"17697	0x9D5B	鵛 (<CJK Ideograph>)";
"17698	0x9D4B	鵋 (<CJK Ideograph>)";
"17699	0x9D59	鵙 (<CJK Ideograph>)";
"17700	0x9D56	鵖 (<CJK Ideograph>)";
"17701	0x9D4C	鵌 (<CJK Ideograph>)";
"17702	0x9D57	鵗 (<CJK Ideograph>)";
"17703	0x9D52	鵒 (<CJK Ideograph>)";
"17704	0x9D54	鵔 (<CJK Ideograph>)";
"17705	0x9D5F	鵟 (<CJK Ideograph>)";
"17706	0x9D58	鵘 (<CJK Ideograph>)";
"17707	0x9D5A	鵚 (<CJK Ideograph>)";
"17708	0x9E8E	麎 (<CJK Ideograph>)";
"17709	0x9E8C	麌 (<CJK Ideograph>)";
"17710	0x9EDF	黟 (<CJK Ideograph>)";
"17711	0x9F01	鼁 (<CJK Ideograph>)";
"17712	0x9F00	鼀 (<CJK Ideograph>)";
"17713	0x9F16	鼖 (<CJK Ideograph>)";
"17714	0x9F25	鼥 (<CJK Ideograph>)";
"17715	0x9F2B	鼫 (<CJK Ideograph>)";
"17716	0x9F2A	鼪 (<CJK Ideograph>)";
"17717	0x9F29	鼩 (<CJK Ideograph>)";
"17718	0x9F28	鼨 (<CJK Ideograph>)";
"17719	0x9F4C	齌 (<CJK Ideograph>)";
"17720	0x9F55	齕 (<CJK Ideograph>)";
"17721	0x5134	儴 (<CJK Ideograph>)";
"17722	0x5135	儵 (<CJK Ideograph>)";
"17723	0x5296	劖 (<CJK Ideograph>)";
"17724	0x52F7	勷 (<CJK Ideograph>)";
"17725	0x53B4	厴 (<CJK Ideograph>)";
"17726	0x56AB	嚫 (<CJK Ideograph>)";
"17727	0x56AD	嚭 (<CJK Ideograph>)";
"17728	0x56A6	嚦 (<CJK Ideograph>)";
"17729	0x56A7	嚧 (<CJK Ideograph>)";
"17730	0x56AA	嚪 (<CJK Ideograph>)";
"17731	0x56AC	嚬 (<CJK Ideograph>)";
"17732	0x58DA	壚 (<CJK Ideograph>)";
"17733	0x58DD	壝 (<CJK Ideograph>)";
"17734	0x58DB	壛 (<CJK Ideograph>)";
"17735	0x5912	夒 (<CJK Ideograph>)";
"17736	0x5B3D	嬽 (<CJK Ideograph>)";
"17737	0x5B3E	嬾 (<CJK Ideograph>)";
"17738	0x5B3F	嬿 (<CJK Ideograph>)";
"17739	0x5DC3	巃 (<CJK Ideograph>)";
"17740	0x5E70	幰 (<CJK Ideograph>)";
"17741	0x5FBF	徿 (<CJK Ideograph>)";
"17742	0x61FB	懻 (<CJK Ideograph>)";
"17743	0x6507	攇 (<CJK Ideograph>)";
"17744	0x6510	攐 (<CJK Ideograph>)";
"17745	0x650D	攍 (<CJK Ideograph>)";
"17746	0x6509	攉 (<CJK Ideograph>)";
"17747	0x650C	攌 (<CJK Ideograph>)";
"17748	0x650E	攎 (<CJK Ideograph>)";
"17749	0x6584	斄 (<CJK Ideograph>)";
"17750	0x65DE	旞 (<CJK Ideograph>)";
"17751	0x65DD	旝 (<CJK Ideograph>)";
"17752	0x66DE	曞 (<CJK Ideograph>)";
"17753	0x6AE7	櫧 (<CJK Ideograph>)";
"17754	0x6AE0	櫠 (<CJK Ideograph>)";
"17755	0x6ACC	櫌 (<CJK Ideograph>)";
"17756	0x6AD1	櫑 (<CJK Ideograph>)";
"17757	0x6AD9	櫙 (<CJK Ideograph>)";
"17758	0x6ACB	櫋 (<CJK Ideograph>)";
"17759	0x6ADF	櫟 (<CJK Ideograph>)";
"17760	0x6ADC	櫜 (<CJK Ideograph>)";
"17761	0x6AD0	櫐 (<CJK Ideograph>)";
"17762	0x6AEB	櫫 (<CJK Ideograph>)";
"17763	0x6ACF	櫏 (<CJK Ideograph>)";
"17764	0x6ACD	櫍 (<CJK Ideograph>)";
"17765	0x6ADE	櫞 (<CJK Ideograph>)";
"17766	0x6B60	歠 (<CJK Ideograph>)";
"17767	0x6BB0	殰 (<CJK Ideograph>)";
"17768	0x6C0C	氌 (<CJK Ideograph>)";
"17769	0x7019	瀙 (<CJK Ideograph>)";
"17770	0x7027	瀧 (<CJK Ideograph>)";
"17771	0x7020	瀠 (<CJK Ideograph>)";
"17772	0x7016	瀖 (<CJK Ideograph>)";
"17773	0x702B	瀫 (<CJK Ideograph>)";
"17774	0x7021	瀡 (<CJK Ideograph>)";
"17775	0x7022	瀢 (<CJK Ideograph>)";
"17776	0x7023	瀣 (<CJK Ideograph>)";
"17777	0x7029	瀩 (<CJK Ideograph>)";
"17778	0x7017	瀗 (<CJK Ideograph>)";
"17779	0x7024	瀤 (<CJK Ideograph>)";
"17780	0x701C	瀜 (<CJK Ideograph>)";
"17781	0x702A	瀪 (<CJK Ideograph>)";
"17782	0x720C	爌 (<CJK Ideograph>)";
"17783	0x720A	爊 (<CJK Ideograph>)";
"17784	0x7207	爇 (<CJK Ideograph>)";
"17785	0x7202	爂 (<CJK Ideograph>)";
"17786	0x7205	爅 (<CJK Ideograph>)";
"17787	0x72A5	犥 (<CJK Ideograph>)";
"17788	0x72A6	犦 (<CJK Ideograph>)";
"17789	0x72A4	犤 (<CJK Ideograph>)";
"17790	0x72A3	犣 (<CJK Ideograph>)";
"17791	0x72A1	犡 (<CJK Ideograph>)";
"17792	0x74CB	瓋 (<CJK Ideograph>)";
"17793	0x74C5	瓅 (<CJK Ideograph>)";
"17794	0x74B7	璷 (<CJK Ideograph>)";
"17795	0x74C3	瓃 (<CJK Ideograph>)";
"17796	0x7516	甖 (<CJK Ideograph>)";
"17797	0x7660	癠 (<CJK Ideograph>)";
"17798	0x77C9	矉 (<CJK Ideograph>)";
"17799	0x77CA	矊 (<CJK Ideograph>)";
"17800	0x77C4	矄 (<CJK Ideograph>)";
"17801	0x77F1	矱 (<CJK Ideograph>)";
"17802	0x791D	礝 (<CJK Ideograph>)";
"17803	0x791B	礛 (<CJK Ideograph>)";
"17804	0x7921	礡 (<CJK Ideograph>)";
"17805	0x791C	礜 (<CJK Ideograph>)";
"17806	0x7917	礗 (<CJK Ideograph>)";
"17807	0x791E	礞 (<CJK Ideograph>)";
"17808	0x79B0	禰 (<CJK Ideograph>)";
"17809	0x7A67	穧 (<CJK Ideograph>)";
"17810	0x7A68	穨 (<CJK Ideograph>)";
"17811	0x7C33	簳 (<CJK Ideograph>)";
"17812	0x7C3C	簼 (<CJK Ideograph>)";
"17813	0x7C39	簹 (<CJK Ideograph>)";
"17814	0x7C2C	簬 (<CJK Ideograph>)";
"17815	0x7C3B	簻 (<CJK Ideograph>)";
"17816	0x7CEC	糬 (<CJK Ideograph>)";
"17817	0x7CEA	糪 (<CJK Ideograph>)";
"17818	0x7E76	繶 (<CJK Ideograph>)";
"17819	0x7E75	繵 (<CJK Ideograph>)";
"17820	0x7E78	繸 (<CJK Ideograph>)";
"17821	0x7E70	繰 (<CJK Ideograph>)";
"17822	0x7E77	繷 (<CJK Ideograph>)";
"17823	0x7E6F	繯 (<CJK Ideograph>)";
"17824	0x7E7A	繺 (<CJK Ideograph>)";
"17825	0x7E72	繲 (<CJK Ideograph>)"
].
(* /repo/encoding_tables/whatwg/index-big5.txt:16641-16896 *)
Definition index_big5_txt_65 : list line := [
"17826	0x7E74	繴 (<CJK Ideograph>)";
"17827	0x7E68	繨 (<CJK Ideograph>)";
"17828	0x7F4B	罋 (<CJK Ideograph>)";
"17829	0x7F4A	罊 (<CJK Ideograph>)";
"17830	0x7F83	羃 (<CJK Ideograph>)";
"17831	0x7F86	羆 (<CJK Ideograph>)";
"17832	0x7FB7	羷 (<CJK Ideograph>)";
"17833	0x7FFD	翽 (<CJK Ideograph>)";
"17834	0x7FFE	翾 (<CJK Ideograph>)";
"17835	0x8078	聸 (<CJK Ideograph>)";
"17836	0x81D7	臗 (<CJK Ideograph>)";
"17837	0x81D5	臕 (<CJK Ideograph>)";
"17838	0x8264	艤 (<CJK Ideograph>)";
"17839	0x8261	艡 (<CJK Ideograph>)";
"17840	0x8263	艣 (<CJK Ideograph>)";
"17841	0x85EB	藫 (<CJK Ideograph>)";
"17842	0x85F1	藱 (<CJK Ideograph>)";
"17843	0x85ED	藭 (<CJK Ideograph>)";
"17844	0x85D9	藙 (<CJK Ideograph>)";
"17845	0x85E1	藡 (<CJK Ideograph>)";
"17846	0x85E8	藨 (<CJK Ideograph>)";
"17847	0x85DA	藚 (<CJK Ideograph>)";
"17848	0x85D7	藗 (<CJK Ideograph>)";
"17849	0x85EC	藬 (<CJK Ideograph>)";
"17850	0x85F2	藲 (<CJK Ideograph>)";
"17851	0x85F8	藸 (<CJK Ideograph>)";
"17852	0x85D8	藘 (<CJK Ideograph>)";
"17853	0x85DF	藟 (<CJK Ideograph>)";
"17854	0x85E3	藣 (<CJK Ideograph>)";
"17855	0x85DC	藜 (<CJK Ideograph>)";
"17856	0x85D1	藑 (<CJK Ideograph>)";
"17857	0x85F0	藰 (<CJK Ideograph>)";
"17858	0x85E6	藦 (<CJK Ideograph>)";
"17859	0x85EF	藯 (<CJK Ideograph>)";
"17860	0x85DE	藞 (<CJK Ideograph>)";
"17861	0x85E2	藢 (<CJK Ideograph>)";
"17862	0x8800	蠀 (<CJK Ideograph>)";
"17863	0x87FA	蟺 (<CJK Ideograph>)";
"17864	0x8803	蠃 (<CJK Ideograph>)";
"17865	0x87F6	蟶 (<CJK Ideograph>)";
"17866	0x87F7	蟷 (<CJK Ideograph>)";
"17867	0x8809	蠉 (<CJK Ideograph>)";
"17868	0x880C	蠌 (<CJK Ideograph>)";
"17869	0x880B	蠋 (<CJK Ideograph>)";
"17870	0x8806	蠆 (<CJK Ideograph>)";
"17871	0x87FC	蟼 (<CJK Ideograph>)";
"17872	0x8808	蠈 (<CJK Ideograph>)";
"17873	0x87FF	蟿 (<CJK Ideograph>)";
"17874	0x880A	蠊 (<CJK Ideograph>)";
"17875	0x8802	蠂 (<CJK Ideograph>)";
"17876	0x8962	襢 (<CJK Ideograph>)";
"17877	0x895A	襚 (<CJK Ideograph>)";
"17878	0x895B	襛 (<CJK Ideograph>)";
"17879	0x8957	襗 (<CJK Ideograph>)";
"17880	0x8961	襡 (<CJK Ideograph>)";
"17881	0x895C	襜 (<CJK Ideograph>)";
"17882	0x8958	襘 (<CJK Ideograph>)";
"17883	0x895D	襝 (<CJK Ideograph>)";
"17884	0x8959	襙 (<CJK Ideograph>)";
"17885	0x8988	覈 (<CJK Ideograph>)";
"17886	0x89B7	覷 (<CJK Ideograph>)";
"17887	0x89B6	覶 (<CJK Ideograph>)";
"17888	0x89F6	觶 (<CJK Ideograph>)";
"17889	0x8B50	譐 (<CJK Ideograph>)";
"17890	0x8B48	譈 (<CJK Ideograph>)";
"17891	0x8B4A	譊 (<CJK Ideograph>)";
"17892	0x8B40	譀 (<CJK Ideograph>)";
"17893	0x8B53	譓 (<CJK Ideograph>)";
"17894	0x8B56	譖 (<CJK Ideograph>)";
"17895	0x8B54	譔 (<CJK Ideograph>)";
"17896	0x8B4B	譋 (<CJK Ideograph>)";
"17897	0x8B55	譕 (<CJK Ideograph>)";
"17898	0x8B51	譑 (<CJK Ideograph>)";
"17899	0x8B42	譂 (<CJK Ideograph>)";
"17900	0x8B52	譒 (<CJK Ideograph>)";
"17901	0x8B57	譗 (<CJK Ideograph>)";
"17902	0x8C43	豃 (<CJK Ideograph>)";
"17903	0x8C77	豷 (<CJK Ideograph>)";
"17904	0x8C76	豶 (<CJK Ideograph>)";
"17905	0x8C9A	貚 (<CJK Ideograph>)";
"17906	0x8D06	贆 (<CJK Ideograph>)";
"17907	0x8D07	贇 (<CJK Ideograph>)";
"17908	0x8D09	贉 (<CJK Ideograph>)";
"17909	0x8DAC	趬 (<CJK Ideograph>)";
"17910	0x8DAA	趪 (<CJK Ideograph>)";
"17911	0x8DAD	趭 (<CJK Ideograph>)";
"17912	0x8DAB	趫 (<CJK Ideograph>)";
"17913	0x8E6D	蹭 (<CJK Ideograph>)";
"17914	0x8E78	蹸 (<CJK Ideograph>)";
"17915	0x8E73	蹳 (<CJK Ideograph>)";
"17916	0x8E6A	蹪 (<CJK Ideograph>)";
"17917	0x8E6F	蹯 (<CJK Ideograph>)";
"17918	0x8E7B	蹻 (<CJK Ideograph>)";
"17919	0x8EC2	軂 (<CJK Ideograph>)";
"17920	0x8F52	轒 (<CJK Ideograph>)";
"17921	0x8F51	轑 (<CJK Ideograph>)";
"17922	0x8F4F	轏 (<CJK Ideograph>)";
"17923	0x8F50	轐 (<CJK Ideograph>)";
"17924	0x8F53	轓 (<CJK Ideograph>)";
"17925	0x8FB4	辴 (<CJK Ideograph>)";
"17926	0x9140	酀 (<CJK Ideograph>)";
"17927	0x913F	鄿 (<CJK Ideograph>)";
"17928	0x91B0	醰 (<CJK Ideograph>)";
"17929	0x91AD	醭 (<CJK Ideograph>)";
"17930	0x93DE	鏞 (<CJK Ideograph>)";
"17931	0x93C7	鏇 (<CJK Ideograph>)";
"17932	0x93CF	鏏 (<CJK Ideograph>)";
"17933	0x93C2	鏂 (<CJK Ideograph>)";
"17934	0x93DA	鏚 (<CJK Ideograph>)";
"17935	0x93D0	鏐 (<CJK Ideograph>)";
"17936	0x93F9	鏹 (<CJK Ideograph>)";
"17937	0x93EC	鏬 (<CJK Ideograph>)";
"17938	0x93CC	鏌 (<CJK Ideograph>)";
"17939	0x93D9	鏙 (<CJK Ideograph>)";
"17940	0x93A9	鎩 (<CJK Ideograph>)";
"17941	0x93E6	鏦 (<CJK Ideograph>)";
"17942	0x93CA	鏊 (<CJK Ideograph>)";
"17943	0x93D4	鏔 (<CJK Ideograph>)";
"17944	0x93EE	鏮 (<CJK Ideograph>)";
"17945	0x93E3	鏣 (<CJK Ideograph>)";
"17946	0x93D5	鏕 (<CJK Ideograph>)";
"17947	0x93C4	鏄 (<CJK Ideograph>)";
"17948	0x93CE	鏎 (<CJK Ideograph>)";
"17949	0x93C0	鏀 (<CJK Ideograph>)";
"17950	0x93D2	鏒 (<CJK Ideograph>)";
"17951	0x93E7	鏧 (<CJK Ideograph>)";
"17952	0x957D	镽 (<CJK Ideograph>)";
"17953	0x95DA	闚 (<CJK Ideograph>)";
"17954	0x95DB	闛 (<CJK Ideograph>)";
"17955	0x96E1	雡 (<CJK Ideograph>)";
"17956	0x9729	霩 (<CJK Ideograph>)";
"17957	0x972B	霫 (<CJK Ideograph>)";
"17958	0x972C	霬 (<CJK Ideograph>)";
"17959	0x9728	霨 (<CJK Ideograph>)";
"17960	0x9726	霦 (<CJK Ideograph>)";
"17961	0x97B3	鞳 (<CJK Ideograph>)";
"17962	0x97B7	鞷 (<CJK Ideograph>)";
"17963	0x97B6	鞶 (<CJK Ideograph>)";
"17964	0x97DD	韝 (<CJK Ideograph>)";
"17965	0x97DE	韞 (<CJK Ideograph>)";
"17966	0x97DF	韟 (<CJK Ideograph>)";
"17967	0x985C	顜 (<CJK Ideograph>)";
"17968	0x9859	顙 (<CJK Ideograph>)";
"17969	0x985D	顝 (<CJK Ideograph>)";
"17970	0x9857	顗 (<CJK Ideograph>)";
"17971	0x98BF	颿 (<CJK Ideograph>)";
"17972	0x98BD	颽 (<CJK Ideograph>)";
"17973	0x98BB	颻 (<CJK Ideograph>)";
"17974	0x98BE	颾 (<CJK Ideograph>)";
"17975	0x9948	饈 (<CJK Ideograph>)";
"17976	0x9947	饇 (<CJK Ideograph>)";
"17977	0x9943	饃 (<CJK Ideograph>)";
"17978	0x99A6	馦 (<CJK Ideograph>)";
"17979	0x99A7	馧 (<CJK Ideograph>)";
"17980	0x9A1A	騚 (<CJK Ideograph>)";
"17981	0x9A15	騕 (<CJK Ideograph>)";
"17982	0x9A25	騥 (<CJK Ideograph>)";
"17983	0x9A1D	騝 (<CJK Ideograph>)";
"17984	0x9A24	騤 (<CJK Ideograph>)";
"17985	0x9A1B	騛 (<CJK Ideograph>)";
"17986	0x9A22	騢 (<CJK Ideograph>)";
"17987	0x9A20	騠 (<CJK Ideograph>)";
"17988	0x9A27	騧 (<CJK Ideograph>)";
"17989	0x9A23	騣 (<CJK Ideograph>)";
"17990	0x9A1E	騞 (<CJK Ideograph>)";
"17991	0x9A1C	騜 (<CJK Ideograph>)";
"17992	0x9A14	騔 (<CJK Ideograph>)";
"17993	0x9AC2	髂 (<CJK Ideograph>)";
"17994	0x9B0B	鬋 (<CJK Ideograph>)";
"17995	0x9B0A	鬊 (<CJK Ideograph>)";
"17996	0x9B0E	鬎 (<CJK Ideograph>)";
"17997	0x9B0C	鬌 (<CJK Ideograph>)";
"17998	0x9B37	鬷 (<CJK Ideograph>)";
"17999	0x9BEA	鯪 (<CJK Ideograph>)";
"18000	0x9BEB	鯫 (<CJK Ideograph>)";
"18001	0x9BE0	鯠 (<CJK Ideograph>)";
"18002	0x9BDE	鯞 (<CJK Ideograph>)";
"18003	0x9BE4	鯤 (<CJK Ideograph>)";
"18004	0x9BE6	鯦 (<CJK Ideograph>)";
"18005	0x9BE2	鯢 (<CJK Ideograph>)";
"18006	0x9BF0	鯰 (<CJK Ideograph>)";
"18007	0x9BD4	鯔 (<CJK Ideograph>)";
"18008	0x9BD7	鯗 (<CJK Ideograph>)";
"18009	0x9BEC	鯬 (<CJK Ideograph>)";
"18010	0x9BDC	鯜 (<CJK Ideograph>)";
"18011	0x9BD9	鯙 (<CJK Ideograph>)";
"18012	0x9BE5	鯥 (<CJK Ideograph>)";
"18013	0x9BD5	鯕 (<CJK Ideograph>)";
"18014	0x9BE1	鯡 (<CJK Ideograph>)";
"18015	0x9BDA	鯚 (<CJK Ideograph>)";
"18016	0x9D77	鵷 (<CJK Ideograph>)";
"18017	0x9D81	鶁 (<CJK Ideograph>)";
"18018	0x9D8A	鶊 (<CJK Ideograph>)";
"18019	0x9D84	鶄 (<CJK Ideograph>)";
"18020	0x9D88	鶈 (<CJK Ideograph>)";
"18021	0x9D71	鵱 (<CJK Ideograph>)";
"18022	0x9D80	鶀 (<CJK Ideograph>)";
"18023	0x9D78	鵸 (<CJK Ideograph>)";
"18024	0x9D86	鶆 (<CJK Ideograph>)";
"18025	0x9D8B	鶋 (<CJK Ideograph>)";
"18026	0x9D8C	鶌 (<CJK Ideograph>)";
"18027	0x9D7D	鵽 (<CJK Ideograph>)";
"18028	0x9D6B	鵫 (<CJK Ideograph>)";
"18029	0x9D74	鵴 (<CJK Ideograph>)";
"18030	0x9D75	鵵 (<CJK Ideograph>)";
"18031	0x9D70	鵰 (<CJK Ideograph>)";
"18032	0x9D69	鵩 (<CJK Ideograph>)";
"18033	0x9D85	鶅 (<CJK Ideograph>)";
"18034	0x9D73	鵳 (<CJK Ideograph>)";
"18035	0x9D7B	鵻 (<CJK Ideograph>)";
"18036	0x9D82	鶂 (<CJK Ideograph>)";
"18037	0x9D6F	鵯 (<CJK Ideograph>)";
"18038	0x9D79	鵹 (<CJK Ideograph>)";
"18039	0x9D7F	鵿 (<CJK Ideograph>)";
"18040	0x9D87	鶇 (<CJK Ideograph>)";
"18041	0x9D68	鵨 (<CJK Ideograph>)";
"18042	0x9E94	麔 (<CJK Ideograph>)";
"18043	0x9E91	麑 (<CJK Ideograph>)";
"18044	0x9EC0	黀 (<CJK Ideograph>)";
"18045	0x9EFC	黼 (<CJK Ideograph>)";
"18046	0x9F2D	鼭 (<CJK Ideograph>)";
"18047	0x9F40	齀 (<CJK Ideograph>)";
"18048	0x9F41	齁 (<CJK Ideograph>)";
"18049	0x9F4D	齍 (<CJK Ideograph>)";
"18050	0x9F56	齖 (<CJK Ideograph>)";
"18051	0x9F57	齗 (<CJK Ideograph>)";
"18052	0x9F58	齘 (<CJK Ideograph>)";
"18053	0x5337	匷 (<CJK Ideograph>)";
"18054	0x56B2	嚲 (<CJK Ideograph>)";
"18055	0x56B5	嚵 (<CJK Ideograph>)";
"18056	0x56B3	嚳 (<CJK Ideograph>)";
"18057	0x58E3	壣 (<CJK Ideograph>)";
"18058	0x5B45	孅 (<CJK Ideograph>)";
"18059	0x5DC6	巆 (<CJK Ideograph>)";
"18060	0x5DC7	巇 (<CJK Ideograph>)";
"18061	0x5EEE	廮 (<CJK Ideograph>)";
"18062	0x5EEF	廯 (<CJK Ideograph>)";
"18063	0x5FC0	忀 (<CJK Ideograph>)";
"18064	0x5FC1	忁 (<CJK Ideograph>)";
"18065	0x61F9	懹 (<CJK Ideograph>)";
"18066	0x6517	攗 (<CJK Ideograph>)";
"18067	0x6516	攖 (<CJK Ideograph>)";
"18068	0x6515	攕 (<CJK Ideograph>)";
"18069	0x6513	攓 (<CJK Ideograph>)";
"18070	0x65DF	旟 (<CJK Ideograph>)";
"18071	0x66E8	曨 (<CJK Ideograph>)";
"18072	0x66E3	曣 (<CJK Ideograph>)";
"18073	0x66E4	曤 (<CJK Ideograph>)";
"18074	0x6AF3	櫳 (<CJK Ideograph>)";
"18075	0x6AF0	櫰 (<CJK Ideograph>)";
"18076	0x6AEA	櫪 (<CJK Ideograph>)";
"18077	0x6AE8	櫨 (<CJK Ideograph>)";
"18078	0x6AF9	櫹 (<CJK Ideograph>)";
"18079	0x6AF1	櫱 (<CJK Ideograph>)";
"18080	0x6AEE	櫮 (<CJK Ideograph>)";
"18081	0x6AEF	櫯 (<CJK Ideograph>)"
].
(* /repo/encoding_tables/whatwg/index-big5.txt:16897-17152 *)
Definition index_big5_txt_66 : list line := [
"18082	0x703C	瀼 (<CJK Ideograph>)";
"18083	0x7035	瀵 (<CJK Ideograph>)";
"18084	0x702F	瀯 (<CJK Ideograph>)";
"18085	0x7037	瀷 (<CJK Ideograph>)";
"18086	0x7034	瀴 (<CJK Ideograph>)";
"18087	0x7031	瀱 (<CJK Ideograph>)";
"18088	0x7042	灂 (<CJK Ideograph>)";
"18089	0x7038	瀸 (<CJK Ideograph>)";
"18090	0x703F	瀿 (<CJK Ideograph>)";
"18091	0x703A	瀺 (<CJK Ideograph>)";
"18092	0x7039	瀹 (<CJK Ideograph>)";
"18093	0x7040	灀 (<CJK Ideograph>)";
"18094	0x703B	瀻 (<CJK Ideograph>)";
"18095	0x7033	瀳 (<CJK Ideograph>)";
"18096	0x7041	灁 (<CJK Ideograph>)";
"18097	0x7213	爓 (<CJK Ideograph>)";
"18098	0x7214	爔 (<CJK Ideograph>)";
"18099	0x72A8	犨 (<CJK Ideograph>)";
"18100	0x737D	獽 (<CJK Ideograph>)";
"18101	0x737C	獼 (<CJK Ideograph>)";
"18102	0x74BA	璺 (<CJK Ideograph>)";
"18103	0x76AB	皫 (<CJK Ideograph>)";
"18104	0x76AA	皪 (<CJK Ideograph>)";
"18105	0x76BE	皾 (<CJK Ideograph>)";
"18106	0x76ED	盭 (<CJK Ideograph>)";
"18107	0x77CC	矌 (<CJK Ideograph>)";
"18108	0x77CE	矎 (<CJK Ideograph>)";
"18109	0x77CF	矏 (<CJK Ideograph>)";
"18110	0x77CD	矍 (<CJK Ideograph>)";
"18111	0x77F2	矲 (<CJK Ideograph>)";
"18112	0x7925	礥 (<CJK Ideograph>)";
"18113	0x7923	礣 (<CJK Ideograph>)";
"18114	0x7927	礧 (<CJK Ideograph>)";
"18115	0x7928	礨 (<CJK Ideograph>)";
"18116	0x7924	礤 (<CJK Ideograph>)";
"18117	0x7929	礩 (<CJK Ideograph>)";
"18118	0x79B2	禲 (<CJK Ideograph>)";
"18119	0x7A6E	穮 (<CJK Ideograph>)";
"18120	0x7A6C	穬 (<CJK Ideograph>)";
"18121	0x7A6D	穭 (<CJK Ideograph>)";
"18122	0x7AF7	竷 (<CJK Ideograph>)";
"18123	0x7C49	籉 (<CJK Ideograph>)";
"18124	0x7C48	籈 (<CJK Ideograph>)";
"18125	0x7C4A	籊 (<CJK Ideograph>)";
"18126	0x7C47	籇 (<CJK Ideograph>)";
"18127	0x7C45	籅 (<CJK Ideograph>)";
"18128	0x7CEE	糮 (<CJK Ideograph>)";
"18129	0x7E7B	繻 (<CJK Ideograph>)";
"18130	0x7E7E	繾 (<CJK Ideograph>)";
"18131	0x7E81	纁 (<CJK Ideograph>)";
"18132	0x7E80	纀 (<CJK Ideograph>)";
"18133	0x7FBA	羺 (<CJK Ideograph>)";
"18134	0x7FFF	翿 (<CJK Ideograph>)";
"18135	0x8079	聹 (<CJK Ideograph>)";
"18136	0x81DB	臛 (<CJK Ideograph>)";
"18137	0x81D9	臙 (<CJK Ideograph>)";
"18138	0x820B	舋 (<CJK Ideograph>)";
"18139	0x8268	艨 (<CJK Ideograph>)";
"18140	0x8269	艩 (<CJK Ideograph>)";
"18141	0x8622	蘢 (<CJK Ideograph>)";
"18142	0x85FF	藿 (<CJK Ideograph>)";
"18143	0x8601	蘁 (<CJK Ideograph>)";
"18144	0x85FE	藾 (<CJK Ideograph>)";
"18145	0x861B	蘛 (<CJK Ideograph>)";
"18146	0x8600	蘀 (<CJK Ideograph>)";
"18147	0x85F6	藶 (<CJK Ideograph>)";
"18148	0x8604	蘄 (<CJK Ideograph>)";
"18149	0x8609	蘉 (<CJK Ideograph>)";
"18150	0x8605	蘅 (<CJK Ideograph>)";
"18151	0x860C	蘌 (<CJK Ideograph>)";
"18152	0x85FD	藽 (<CJK Ideograph>)";
"18153	0x8819	蠙 (<CJK Ideograph>)";
"18154	0x8810	蠐 (<CJK Ideograph>)";
"18155	0x8811	蠑 (<CJK Ideograph>)";
"18156	0x8817	蠗 (<CJK Ideograph>)";
"18157	0x8813	蠓 (<CJK Ideograph>)";
"18158	0x8816	蠖 (<CJK Ideograph>)";
"18159	0x8963	襣 (<CJK Ideograph>)";
"18160	0x8966	襦 (<CJK Ideograph>)";
"18161	0x89B9	覹 (<CJK Ideograph>)";
"18162	0x89F7	觷 (<CJK Ideograph>)";
"18163	0x8B60	譠 (<CJK Ideograph>)";
"18164	0x8B6A	譪 (<CJK Ideograph>)";
"18165	0x8B5D	譝 (<CJK Ideograph>)";
"18166	0x8B68	譨 (<CJK Ideograph>)";
"18167	0x8B63	譣 (<CJK Ideograph>)";
"18168	0x8B65	譥 (<CJK Ideograph>)";
"18169	0x8B67	譧 (<CJK Ideograph>)";
"18170	0x8B6D	譭 (<CJK Ideograph>)";
"18171	0x8DAE	趮 (<CJK Ideograph>)";
"18172	0x8E86	躆 (<CJK Ideograph>)";
"18173	0x8E88	躈 (<CJK Ideograph>)";
"18174	0x8E84	躄 (<CJK Ideograph>)";
"18175	0x8F59	轙 (<CJK Ideograph>)";
"18176	0x8F56	轖 (<CJK Ideograph>)";
"18177	0x8F57	轗 (<CJK Ideograph>)";
"18178	0x8F55	轕 (<CJK Ideograph>)";
"18179	0x8F58	轘 (<CJK Ideograph>)";
"18180	0x8F5A	轚 (<CJK Ideograph>)";
"18181	0x908D	邍 (<CJK Ideograph>)";
"18182	0x9143	酃 (<CJK Ideograph>)";
"18183	0x9141	酁 (<CJK Ideograph>)";
"18184	0x91B7	醷 (<CJK Ideograph>)";
"18185	0x91B5	醵 (<CJK Ideograph>)";
"18186	0x91B2	醲 (<CJK Ideograph>)";
"18187	0x91B3	醳 (<CJK Ideograph>)";
"18188	0x940B	鐋 (<CJK Ideograph>)";
"18189	0x9413	鐓 (<CJK Ideograph>)";
"18190	0x93FB	鏻 (<CJK Ideograph>)";
"18191	0x9420	鐠 (<CJK Ideograph>)";
"18192	0x940F	鐏 (<CJK Ideograph>)";
"18193	0x9414	鐔 (<CJK Ideograph>)";
"18194	0x93FE	鏾 (<CJK Ideograph>)";
"18195	0x9415	鐕 (<CJK Ideograph>)";
"18196	0x9410	鐐 (<CJK Ideograph>)";
"18197	0x9428	鐨 (<CJK Ideograph>)";
"18198	0x9419	鐙 (<CJK Ideograph>)";
"18199	0x940D	鐍 (<CJK Ideograph>)";
"18200	0x93F5	鏵 (<CJK Ideograph>)";
"18201	0x9400	鐀 (<CJK Ideograph>)";
"18202	0x93F7	鏷 (<CJK Ideograph>)";
"18203	0x9407	鐇 (<CJK Ideograph>)";
"18204	0x940E	鐎 (<CJK Ideograph>)";
"18205	0x9416	鐖 (<CJK Ideograph>)";
"18206	0x9412	鐒 (<CJK Ideograph>)";
"18207	0x93FA	鏺 (<CJK Ideograph>)";
"18208	0x9409	鐉 (<CJK Ideograph>)";
"18209	0x93F8	鏸 (<CJK Ideograph>)";
"18210	0x940A	鐊 (<CJK Ideograph>)";
"18211	0x93FF	鏿 (<CJK Ideograph>)";
"18212	0x93FC	鏼 (<CJK Ideograph>)";
"18213	0x940C	鐌 (<CJK Ideograph>)";
"18214	0x93F6	鏶 (<CJK Ideograph>)";
"18215	0x9411	鐑 (<CJK Ideograph>)";
"18216	0x9406	鐆 (<CJK Ideograph>)";
"18217	0x95DE	闞 (<CJK Ideograph>)";
"18218	0x95E0	闠 (<CJK Ideograph>)";
"18219	0x95DF	闟 (<CJK Ideograph>)";
"18220	0x972E	霮 (<CJK Ideograph>)";
"18221	0x972F	霯 (<CJK Ideograph>)";
"18222	0x97B9	鞹 (<CJK Ideograph>)";
"18223	0x97BB	鞻 (<CJK Ideograph>)";
"18224	0x97FD	韽 (<CJK Ideograph>)";
"18225	0x97FE	韾 (<CJK Ideograph>)";
"18226	0x9860	顠 (<CJK Ideograph>)";
"18227	0x9862	顢 (<CJK Ideograph>)";
"18228	0x9863	顣 (<CJK Ideograph>)";
"18229	0x985F	顟 (<CJK Ideograph>)";
"18230	0x98C1	飁 (<CJK Ideograph>)";
"18231	0x98C2	飂 (<CJK Ideograph>)";
"18232	0x9950	饐 (<CJK Ideograph>)";
"18233	0x994E	饎 (<CJK Ideograph>)";
"18234	0x9959	饙 (<CJK Ideograph>)";
"18235	0x994C	饌 (<CJK Ideograph>)";
"18236	0x994B	饋 (<CJK Ideograph>)";
"18237	0x9953	饓 (<CJK Ideograph>)";
"18238	0x9A32	騲 (<CJK Ideograph>)";
"18239	0x9A34	騴 (<CJK Ideograph>)";
"18240	0x9A31	騱 (<CJK Ideograph>)";
"18241	0x9A2C	騬 (<CJK Ideograph>)";
"18242	0x9A2A	騪 (<CJK Ideograph>)";
"18243	0x9A36	騶 (<CJK Ideograph>)";
"18244	0x9A29	騩 (<CJK Ideograph>)";
"18245	0x9A2E	騮 (<CJK Ideograph>)";
"18246	0x9A38	騸 (<CJK Ideograph>)";
"18247	0x9A2D	騭 (<CJK Ideograph>)";
"18248	0x9AC7	髇 (<CJK Ideograph>)";
"18249	0x9ACA	髊 (<CJK Ideograph>)";
"18250	0x9AC6	髆 (<CJK Ideograph>)";
"18251	0x9B10	鬐 (<CJK Ideograph>)";
"18252	0x9B12	鬒 (<CJK Ideograph>)";
"18253	0x9B11	鬑 (<CJK Ideograph>)";
"18254	0x9C0B	鰋 (<CJK Ideograph>)";
"18255	0x9C08	鰈 (<CJK Ideograph>)";
"18256	0x9BF7	鯷 (<CJK Ideograph>)";
"18257	0x9C05	鰅 (<CJK Ideograph>)";
"18258	0x9C12	鰒 (<CJK Ideograph>)";
"18259	0x9BF8	鯸 (<CJK Ideograph>)";
"18260	0x9C40	鱀 (<CJK Ideograph>)";
"18261	0x9C07	鰇 (<CJK Ideograph>)";
"18262	0x9C0E	鰎 (<CJK Ideograph>)";
"18263	0x9C06	鰆 (<CJK Ideograph>)";
"18264	0x9C17	鰗 (<CJK Ideograph>)";
"18265	0x9C14	鰔 (<CJK Ideograph>)";
"18266	0x9C09	鰉 (<CJK Ideograph>)";
"18267	0x9D9F	鶟 (<CJK Ideograph>)";
"18268	0x9D99	鶙 (<CJK Ideograph>)";
"18269	0x9DA4	鶤 (<CJK Ideograph>)";
"18270	0x9D9D	鶝 (<CJK Ideograph>)";
"18271	0x9D92	鶒 (<CJK Ideograph>)";
"18272	0x9D98	鶘 (<CJK Ideograph>)";
"18273	0x9D90	鶐 (<CJK Ideograph>)";
"18274	0x9D9B	鶛 (<CJK Ideograph>)";
"18275	0x9DA0	鶠 (<CJK Ideograph>)";
"18276	0x9D94	鶔 (<CJK Ideograph>)";
"18277	0x9D9C	鶜 (<CJK Ideograph>)";
"18278	0x9DAA	鶪 (<CJK Ideograph>)";
"18279	0x9D97	鶗 (<CJK Ideograph>)";
"18280	0x9DA1	鶡 (<CJK Ideograph>)";
"18281	0x9D9A	鶚 (<CJK Ideograph>)";
"18282	0x9DA2	鶢 (<CJK Ideograph>)";
"18283	0x9DA8	鶨 (<CJK Ideograph>)";
"18284	0x9D9E	鶞 (<CJK Ideograph>)";
"18285	0x9DA3	鶣 (<CJK Ideograph>)";
"18286	0x9DBF	鶿 (<CJK Ideograph>)";
"18287	0x9DA9	鶩 (<CJK Ideograph>)";
"18288	0x9D96	鶖 (<CJK Ideograph>)";
"18289	0x9DA6	鶦 (<CJK Ideograph>)";
"18290	0x9DA7	鶧 (<CJK Ideograph>)";
"18291	0x9E99	麙 (<CJK Ideograph>)";
"18292	0x9E9B	麛 (<CJK Ideograph>)";
"18293	0x9E9A	麚 (<CJK Ideograph>)";
"18294	0x9EE5	黥 (<CJK Ideograph>)";
"18295	0x9EE4	黤 (<CJK Ideograph>)";
"18296	0x9EE7	黧 (<CJK Ideograph>)";
"18297	0x9EE6	黦 (<CJK Ideograph>)";
"18298	0x9F30	鼰 (<CJK Ideograph>)";
"18299	0x9F2E	鼮 (<CJK Ideograph>)";
"18300	0x9F5B	齛 (<CJK Ideograph>)";
"18301	0x9F60	齠 (<CJK Ideograph>)";
"18302	0x9F5E	齞 (<CJK Ideograph>)";
"18303	0x9F5D	齝 (<CJK Ideograph>)";
"18304	0x9F59	齙 (<CJK Ideograph>)";
"18305	0x9F91	龑 (<CJK Ideograph>)";
"18306	0x513A	儺 (<CJK Ideograph>)";
"18307	0x5139	儹 (<CJK Ideograph>)";
"18308	0x5298	劘 (<CJK Ideograph>)";
"18309	0x5297	劗 (<CJK Ideograph>)";
"18310	0x56C3	囃 (<CJK Ideograph>)";
"18311	0x56BD	嚽 (<CJK Ideograph>)";
"18312	0x56BE	嚾 (<CJK Ideograph>)";
"18313	0x5B48	孈 (<CJK Ideograph>)";
"18314	0x5B47	孇 (<CJK Ideograph>)";
"18315	0x5DCB	巋 (<CJK Ideograph>)";
"18316	0x5DCF	巏 (<CJK Ideograph>)";
"18317	0x5EF1	廱 (<CJK Ideograph>)";
"18318	0x61FD	懽 (<CJK Ideograph>)";
"18319	0x651B	攛 (<CJK Ideograph>)";
"18320	0x6B02	欂 (<CJK Ideograph>)";
"18321	0x6AFC	櫼 (<CJK Ideograph>)";
"18322	0x6B03	欃 (<CJK Ideograph>)";
"18323	0x6AF8	櫸 (<CJK Ideograph>)";
"18324	0x6B00	欀 (<CJK Ideograph>)";
"18325	0x7043	灃 (<CJK Ideograph>)";
"18326	0x7044	灄 (<CJK Ideograph>)";
"18327	0x704A	灊 (<CJK Ideograph>)";
"18328	0x7048	灈 (<CJK Ideograph>)";
"18329	0x7049	灉 (<CJK Ideograph>)";
"18330	0x7045	灅 (<CJK Ideograph>)";
"18331	0x7046	灆 (<CJK Ideograph>)";
"18332	0x721D	爝 (<CJK Ideograph>)";
"18333	0x721A	爚 (<CJK Ideograph>)";
"18334	0x7219	爙 (<CJK Ideograph>)";
"18335	0x737E	獾 (<CJK Ideograph>)";
"18336	0x7517	甗 (<CJK Ideograph>)";
"18337	0x766A	癪 (<CJK Ideograph>)"
].
(* /repo/encoding_tables/whatwg/index-big5.txt:17153-17408 *)
Definition index_big5_txt_67 : list line := [
"18338	0x77D0	矐 (<CJK Ideograph>)";
"18339	0x792D	礭 (<CJK Ideograph>)";
"18340	0x7931	礱 (<CJK Ideograph>)";
"18341	0x792F	礯 (<CJK Ideograph>)";
"18342	0x7C54	籔 (<CJK Ideograph>)";
"18343	0x7C53	籓 (<CJK Ideograph>)";
"18344	0x7CF2	糲 (<CJK Ideograph>)";
"18345	0x7E8A	纊 (<CJK Ideograph>)";
"18346	0x7E87	纇 (<CJK Ideograph>)";
"18347	0x7E88	纈 (<CJK Ideograph>)";
"18348	0x7E8B	纋 (<CJK Ideograph>)";
"18349	0x7E86	纆 (<CJK Ideograph>)";
"18350	0x7E8D	纍 (<CJK Ideograph>)";
"18351	0x7F4D	罍 (<CJK Ideograph>)";
"18352	0x7FBB	羻 (<CJK Ideograph>)";
"18353	0x8030	耰 (<CJK Ideograph>)";
"18354	0x81DD	臝 (<CJK Ideograph>)";
"18355	0x8618	蘘 (<CJK Ideograph>)";
"18356	0x862A	蘪 (<CJK Ideograph>)";
"18357	0x8626	蘦 (<CJK Ideograph>)";
"18358	0x861F	蘟 (<CJK Ideograph>)";
"18359	0x8623	蘣 (<CJK Ideograph>)";
"18360	0x861C	蘜 (<CJK Ideograph>)";
"18361	0x8619	蘙 (<CJK Ideograph>)";
"18362	0x8627	蘧 (<CJK Ideograph>)";
"18363	0x862E	蘮 (<CJK Ideograph>)";
"18364	0x8621	蘡 (<CJK Ideograph>)";
"18365	0x8620	蘠 (<CJK Ideograph>)";
"18366	0x8629	蘩 (<CJK Ideograph>)";
"18367	0x861E	蘞 (<CJK Ideograph>)";
"18368	0x8625	蘥 (<CJK Ideograph>)";
"18369	0x8829	蠩 (<CJK Ideograph>)";
"18370	0x881D	蠝 (<CJK Ideograph>)";
"18371	0x881B	蠛 (<CJK Ideograph>)";
"18372	0x8820	蠠 (<CJK Ideograph>)";
"18373	0x8824	蠤 (<CJK Ideograph>)";
"18374	0x881C	蠜 (<CJK Ideograph>)";
"18375	0x882B	蠫 (<CJK Ideograph>)";
"18376	0x884A	衊 (<CJK Ideograph>)";
"18377	0x896D	襭 (<CJK Ideograph>)";
"18378	0x8969	襩 (<CJK Ideograph>)";
"18379	0x896E	襮 (<CJK Ideograph>)";
"18380	0x896B	襫 (<CJK Ideograph>)";
"18381	0x89FA	觺 (<CJK Ideograph>)";
"18382	0x8B79	譹 (<CJK Ideograph>)";
"18383	0x8B78	譸 (<CJK Ideograph>)";
"18384	0x8B45	譅 (<CJK Ideograph>)";
"18385	0x8B7A	譺 (<CJK Ideograph>)";
"18386	0x8B7B	譻 (<CJK Ideograph>)";
"18387	0x8D10	贐 (<CJK Ideograph>)";
"18388	0x8D14	贔 (<CJK Ideograph>)";
"18389	0x8DAF	趯 (<CJK Ideograph>)";
"18390	0x8E8E	躎 (<CJK Ideograph>)";
"18391	0x8E8C	躌 (<CJK Ideograph>)";
"18392	0x8F5E	轞 (<CJK Ideograph>)";
"18393	0x8F5B	轛 (<CJK Ideograph>)";
"18394	0x8F5D	轝 (<CJK Ideograph>)";
"18395	0x9146	酆 (<CJK Ideograph>)";
"18396	0x9144	酄 (<CJK Ideograph>)";
"18397	0x9145	酅 (<CJK Ideograph>)";
"18398	0x91B9	醹 (<CJK Ideograph>)";
"18399	0x943F	鐿 (<CJK Ideograph>)";
"18400	0x943B	鐻 (<CJK Ideograph>)";
"18401	0x9436	鐶 (<CJK Ideograph>)";
"18402	0x9429	鐩 (<CJK Ideograph>)";
"18403	0x943D	鐽 (<CJK Ideograph>)";
"18404	0x943C	鐼 (<CJK Ideograph>)";
"18405	0x9430	鐰 (<CJK Ideograph>)";
"18406	0x9439	鐹 (<CJK Ideograph>)";
"18407	0x942A	鐪 (<CJK Ideograph>)";
"18408	0x9437	鐷 (<CJK Ideograph>)";
"18409	0x942C	鐬 (<CJK Ideograph>)";
"18410	0x9440	鑀 (<CJK Ideograph>)";
"18411	0x9431	鐱 (<CJK Ideograph>)";
"18412	0x95E5	闥 (<CJK Ideograph>)";
"18413	0x95E4	闤 (<CJK Ideograph>)";
"18414	0x95E3	闣 (<CJK Ideograph>)";
"18415	0x9735	霵 (<CJK Ideograph>)";
"18416	0x973A	霺 (<CJK Ideograph>)";
"18417	0x97BF	鞿 (<CJK Ideograph>)";
"18418	0x97E1	韡 (<CJK Ideograph>)";
"18419	0x9864	顤 (<CJK Ideograph>)";
"18420	0x98C9	飉 (<CJK Ideograph>)";
"18421	0x98C6	飆 (<CJK Ideograph>)";
"18422	0x98C0	飀 (<CJK Ideograph>)";
"18423	0x9958	饘 (<CJK Ideograph>)";
"18424	0x9956	饖 (<CJK Ideograph>)";
"18425	0x9A39	騹 (<CJK Ideograph>)";
"18426	0x9A3D	騽 (<CJK Ideograph>)";
"18427	0x9A46	驆 (<CJK Ideograph>)";
"18428	0x9A44	驄 (<CJK Ideograph>)";
"18429	0x9A42	驂 (<CJK Ideograph>)";
"18430	0x9A41	驁 (<CJK Ideograph>)";
"18431	0x9A3A	騺 (<CJK Ideograph>)";
"18432	0x9A3F	騿 (<CJK Ideograph>)";
"18433	0x9ACD	髍 (<CJK Ideograph>)";
"18434	0x9B15	鬕 (<CJK Ideograph>)";
"18435	0x9B17	鬗 (<CJK Ideograph>)";
"18436	0x9B18	鬘 (<CJK Ideograph>)";
"18437	0x9B16	鬖 (<CJK Ideograph>)";
"18438	0x9B3A	鬺 (<CJK Ideograph>)";
"18439	0x9B52	魒 (<CJK Ideograph>)";
"18440	0x9C2B	鰫 (<CJK Ideograph>)";
"18441	0x9C1D	鰝 (<CJK Ideograph>)";
"18442	0x9C1C	鰜 (<CJK Ideograph>)";
"18443	0x9C2C	鰬 (<CJK Ideograph>)";
"18444	0x9C23	鰣 (<CJK Ideograph>)";
"18445	0x9C28	鰨 (<CJK Ideograph>)";
"18446	0x9C29	鰩 (<CJK Ideograph>)";
"18447	0x9C24	鰤 (<CJK Ideograph>)";
"18448	0x9C21	鰡 (<CJK Ideograph>)";
"18449	0x9DB7	鶷 (<CJK Ideograph>)";
"18450	0x9DB6	鶶 (<CJK Ideograph>)";
"18451	0x9DBC	鶼 (<CJK Ideograph>)";
"18452	0x9DC1	鷁 (<CJK Ideograph>)";
"18453	0x9DC7	鷇 (<CJK Ideograph>)";
"18454	0x9DCA	鷊 (<CJK Ideograph>)";
"18455	0x9DCF	鷏 (<CJK Ideograph>)";
"18456	0x9DBE	鶾 (<CJK Ideograph>)";
"18457	0x9DC5	鷅 (<CJK Ideograph>)";
"18458	0x9DC3	鷃 (<CJK Ideograph>)";
"18459	0x9DBB	鶻 (<CJK Ideograph>)";
"18460	0x9DB5	鶵 (<CJK Ideograph>)";
"18461	0x9DCE	鷎 (<CJK Ideograph>)";
"18462	0x9DB9	鶹 (<CJK Ideograph>)";
"18463	0x9DBA	鶺 (<CJK Ideograph>)";
"18464	0x9DAC	鶬 (<CJK Ideograph>)";
"18465	0x9DC8	鷈 (<CJK Ideograph>)";
"18466	0x9DB1	鶱 (<CJK Ideograph>)";
"18467	0x9DAD	鶭 (<CJK Ideograph>)";
"18468	0x9DCC	鷌 (<CJK Ideograph>)";
"18469	0x9DB3	鶳 (<CJK Ideograph>)";
"18470	0x9DCD	鷍 (<CJK Ideograph>)";
"18471	0x9DB2	鶲 (<CJK Ideograph>)";
"18472	0x9E7A	鹺 (<CJK Ideograph>)";
"18473	0x9E9C	麜 (<CJK Ideograph>)";
"18474	0x9EEB	黫 (<CJK Ideograph>)";
"18475	0x9EEE	黮 (<CJK Ideograph>)";
"18476	0x9EED	黭 (<CJK Ideograph>)";
"18477	0x9F1B	鼛 (<CJK Ideograph>)";
"18478	0x9F18	鼘 (<CJK Ideograph>)";
"18479	0x9F1A	鼚 (<CJK Ideograph>)";
"18480	0x9F31	鼱 (<CJK Ideograph>)";
"18481	0x9F4E	齎 (<CJK Ideograph>)";
"18482	0x9F65	齥 (<CJK Ideograph>)";
"18483	0x9F64	齤 (<CJK Ideograph>)";
"18484	0x9F92	龒 (<CJK Ideograph>)";
"18485	0x4EB9	亹 (<CJK Ideograph>)";
"18486	0x56C6	囆 (<CJK Ideograph>)";
"18487	0x56C5	囅 (<CJK Ideograph>)";
"18488	0x56CB	囋 (<CJK Ideograph>)";
"18489	0x5971	奱 (<CJK Ideograph>)";
"18490	0x5B4B	孋 (<CJK Ideograph>)";
"18491	0x5B4C	孌 (<CJK Ideograph>)";
"18492	0x5DD5	巕 (<CJK Ideograph>)";
"18493	0x5DD1	巑 (<CJK Ideograph>)";
"18494	0x5EF2	廲 (<CJK Ideograph>)";
"18495	0x6521	攡 (<CJK Ideograph>)";
"18496	0x6520	攠 (<CJK Ideograph>)";
"18497	0x6526	攦 (<CJK Ideograph>)";
"18498	0x6522	攢 (<CJK Ideograph>)";
"18499	0x6B0B	欋 (<CJK Ideograph>)";
"18500	0x6B08	欈 (<CJK Ideograph>)";
"18501	0x6B09	欉 (<CJK Ideograph>)";
"18502	0x6C0D	氍 (<CJK Ideograph>)";
"18503	0x7055	灕 (<CJK Ideograph>)";
"18504	0x7056	灖 (<CJK Ideograph>)";
"18505	0x7057	灗 (<CJK Ideograph>)";
"18506	0x7052	灒 (<CJK Ideograph>)";
"18507	0x721E	爞 (<CJK Ideograph>)";
"18508	0x721F	爟 (<CJK Ideograph>)";
"18509	0x72A9	犩 (<CJK Ideograph>)";
"18510	0x737F	獿 (<CJK Ideograph>)";
"18511	0x74D8	瓘 (<CJK Ideograph>)";
"18512	0x74D5	瓕 (<CJK Ideograph>)";
"18513	0x74D9	瓙 (<CJK Ideograph>)";
"18514	0x74D7	瓗 (<CJK Ideograph>)";
"18515	0x766D	癭 (<CJK Ideograph>)";
"18516	0x76AD	皭 (<CJK Ideograph>)";
"18517	0x7935	礵 (<CJK Ideograph>)";
"18518	0x79B4	禴 (<CJK Ideograph>)";
"18519	0x7A70	穰 (<CJK Ideograph>)";
"18520	0x7A71	穱 (<CJK Ideograph>)";
"18521	0x7C57	籗 (<CJK Ideograph>)";
"18522	0x7C5C	籜 (<CJK Ideograph>)";
"18523	0x7C59	籙 (<CJK Ideograph>)";
"18524	0x7C5B	籛 (<CJK Ideograph>)";
"18525	0x7C5A	籚 (<CJK Ideograph>)";
"18526	0x7CF4	糴 (<CJK Ideograph>)";
"18527	0x7CF1	糱 (<CJK Ideograph>)";
"18528	0x7E91	纑 (<CJK Ideograph>)";
"18529	0x7F4F	罏 (<CJK Ideograph>)";
"18530	0x7F87	羇 (<CJK Ideograph>)";
"18531	0x81DE	臞 (<CJK Ideograph>)";
"18532	0x826B	艫 (<CJK Ideograph>)";
"18533	0x8634	蘴 (<CJK Ideograph>)";
"18534	0x8635	蘵 (<CJK Ideograph>)";
"18535	0x8633	蘳 (<CJK Ideograph>)";
"18536	0x862C	蘬 (<CJK Ideograph>)";
"18537	0x8632	蘲 (<CJK Ideograph>)";
"18538	0x8636	蘶 (<CJK Ideograph>)";
"18539	0x882C	蠬 (<CJK Ideograph>)";
"18540	0x8828	蠨 (<CJK Ideograph>)";
"18541	0x8826	蠦 (<CJK Ideograph>)";
"18542	0x882A	蠪 (<CJK Ideograph>)";
"18543	0x8825	蠥 (<CJK Ideograph>)";
"18544	0x8971	襱 (<CJK Ideograph>)";
"18545	0x89BF	覿 (<CJK Ideograph>)";
"18546	0x89BE	覾 (<CJK Ideograph>)";
"18547	0x89FB	觻 (<CJK Ideograph>)";
"18548	0x8B7E	譾 (<CJK Ideograph>)";
"18549	0x8B84	讄 (<CJK Ideograph>)";
"18550	0x8B82	讂 (<CJK Ideograph>)";
"18551	0x8B86	讆 (<CJK Ideograph>)";
"18552	0x8B85	讅 (<CJK Ideograph>)";
"18553	0x8B7F	譿 (<CJK Ideograph>)";
"18554	0x8D15	贕 (<CJK Ideograph>)";
"18555	0x8E95	躕 (<CJK Ideograph>)";
"18556	0x8E94	躔 (<CJK Ideograph>)";
"18557	0x8E9A	躚 (<CJK Ideograph>)";
"18558	0x8E92	躒 (<CJK Ideograph>)";
"18559	0x8E90	躐 (<CJK Ideograph>)";
"18560	0x8E96	躖 (<CJK Ideograph>)";
"18561	0x8E97	躗 (<CJK Ideograph>)";
"18562	0x8F60	轠 (<CJK Ideograph>)";
"18563	0x8F62	轢 (<CJK Ideograph>)";
"18564	0x9147	酇 (<CJK Ideograph>)";
"18565	0x944C	鑌 (<CJK Ideograph>)";
"18566	0x9450	鑐 (<CJK Ideograph>)";
"18567	0x944A	鑊 (<CJK Ideograph>)";
"18568	0x944B	鑋 (<CJK Ideograph>)";
"18569	0x944F	鑏 (<CJK Ideograph>)";
"18570	0x9447	鑇 (<CJK Ideograph>)";
"18571	0x9445	鑅 (<CJK Ideograph>)";
"18572	0x9448	鑈 (<CJK Ideograph>)";
"18573	0x9449	鑉 (<CJK Ideograph>)";
"18574	0x9446	鑆 (<CJK Ideograph>)";
"18575	0x973F	霿 (<CJK Ideograph>)";
"18576	0x97E3	韣 (<CJK Ideograph>)";
"18577	0x986A	顪 (<CJK Ideograph>)";
"18578	0x9869	顩 (<CJK Ideograph>)";
"18579	0x98CB	飋 (<CJK Ideograph>)";
"18580	0x9954	饔 (<CJK Ideograph>)";
"18581	0x995B	饛 (<CJK Ideograph>)";
"18582	0x9A4E	驎 (<CJK Ideograph>)";
"18583	0x9A53	驓 (<CJK Ideograph>)";
"18584	0x9A54	驔 (<CJK Ideograph>)";
"18585	0x9A4C	驌 (<CJK Ideograph>)";
"18586	0x9A4F	驏 (<CJK Ideograph>)";
"18587	0x9A48	驈 (<CJK Ideograph>)";
"18588	0x9A4A	驊 (<CJK Ideograph>)";
"18589	0x9A49	驉 (<CJK Ideograph>)";
"18590	0x9A52	驒 (<CJK Ideograph>)";
"18591	0x9A50	驐 (<CJK Ideograph>)";
"18592	0x9AD0	髐 (<CJK Ideograph>)";
"18593	0x9B19	鬙 (<CJK Ideograph>)"
].
(* /repo/encoding_tables/whatwg/index-big5.txt:17409-17664 *)
Definition index_big5_txt_68 : list line := [
"18594	0x9B2B	鬫 (<CJK Ideograph>)";
"18595	0x9B3B	鬻 (<CJK Ideograph>)";
"18596	0x9B56	魖 (<CJK Ideograph>)";
"18597	0x9B55	魕 (<CJK Ideograph>)";
"18598	0x9C46	鱆 (<CJK Ideograph>)";
"18599	0x9C48	鱈 (<CJK Ideograph>)";
"18600	0x9C3F	鰿 (<CJK Ideograph>)";
"18601	0x9C44	鱄 (<CJK Ideograph>)";
"18602	0x9C39	鰹 (<CJK Ideograph>)";
"18603	0x9C33	鰳 (<CJK Ideograph>)";
"18604	0x9C41	鱁 (<CJK Ideograph>)";
"18605	0x9C3C	鰼 (<CJK Ideograph>)";
"18606	0x9C37	鰷 (<CJK Ideograph>)";
"18607	0x9C34	鰴 (<CJK Ideograph>)";
"18608	0x9C32	鰲 (<CJK Ideograph>)";
"18609	0x9C3D	鰽 (<CJK Ideograph>)";
"18610	0x9C36	鰶 (<CJK Ideograph>)";
"18611	0x9DDB	鷛 (<CJK Ideograph>)";
"18612	0x9DD2	鷒 (<CJK Ideograph>)";
"18613	0x9DDE	鷞 (<CJK Ideograph>)";
"18614	0x9DDA	鷚 (<CJK Ideograph>)";
"18615	0x9DCB	鷋 (<CJK Ideograph>)";
"18616	0x9DD0	鷐 (<CJK Ideograph>)";
"18617	0x9DDC	鷜 (<CJK Ideograph>)";
"18618	0x9DD1	鷑 (<CJK Ideograph>)";
"18619	0x9DDF	鷟 (<CJK Ideograph>)";
"18620	0x9DE9	鷩 (<CJK Ideograph>)";
"18621	0x9DD9	鷙 (<CJK Ideograph>)";
"18622	0x9DD8	鷘 (<CJK Ideograph>)";
"18623	0x9DD6	鷖 (<CJK Ideograph>)";
"18624	0x9DF5	鷵 (<CJK Ideograph>)";
"18625	0x9DD5	鷕 (<CJK Ideograph>)";
"18626	0x9DDD	鷝 (<CJK Ideograph>)";
"18627	0x9EB6	麶 (<CJK Ideograph>)";
"18628	0x9EF0	黰 (<CJK Ideograph>)";
"18629	0x9F35	鼵 (<CJK Ideograph>)";
"18630	0x9F33	鼳 (<CJK Ideograph>)";
"18631	0x9F32	鼲 (<CJK Ideograph>)";
"18632	0x9F42	齂 (<CJK Ideograph>)";
"18633	0x9F6B	齫 (<CJK Ideograph>)";
"18634	0x9F95	龕 (<CJK Ideograph>)";
"18635	0x9FA2	龢 (<CJK Ideograph>)";
"18636	0x513D	儽 (<CJK Ideograph>)";
"18637	0x5299	劙 (<CJK Ideograph>)";
"18638	0x58E8	壨 (<CJK Ideograph>)";
"18639	0x58E7	壧 (<CJK Ideograph>)";
"18640	0x5972	奲 (<CJK Ideograph>)";
"18641	0x5B4D	孍 (<CJK Ideograph>)";
"18642	0x5DD8	巘 (<CJK Ideograph>)";
"18643	0x882F	蠯 (<CJK Ideograph>)";
"18644	0x5F4F	彏 (<CJK Ideograph>)";
"18645	0x6201	戁 (<CJK Ideograph>)";
"18646	0x6203	戃 (<CJK Ideograph>)";
"18647	0x6204	戄 (<CJK Ideograph>)";
"18648	0x6529	攩 (<CJK Ideograph>)";
"18649	0x6525	攥 (<CJK Ideograph>)";
"18650	0x6596	斖 (<CJK Ideograph>)";
"18651	0x66EB	曫 (<CJK Ideograph>)";
"18652	0x6B11	欑 (<CJK Ideograph>)";
"18653	0x6B12	欒 (<CJK Ideograph>)";
"18654	0x6B0F	欏 (<CJK Ideograph>)";
"18655	0x6BCA	毊 (<CJK Ideograph>)";
"18656	0x705B	灛 (<CJK Ideograph>)";
"18657	0x705A	灚 (<CJK Ideograph>)";
"18658	0x7222	爢 (<CJK Ideograph>)";
"18659	0x7382	玂 (<CJK Ideograph>)";
"18660	0x7381	玁 (<CJK Ideograph>)";
"18661	0x7383	玃 (<CJK Ideograph>)";
"18662	0x7670	癰 (<CJK Ideograph>)";
"18663	0x77D4	矔 (<CJK Ideograph>)";
"18664	0x7C67	籧 (<CJK Ideograph>)";
"18665	0x7C66	籦 (<CJK Ideograph>)";
"18666	0x7E95	纕 (<CJK Ideograph>)";
"18667	0x826C	艬 (<CJK Ideograph>)";
"18668	0x863A	蘺 (<CJK Ideograph>)";
"18669	0x8640	虀 (<CJK Ideograph>)";
"18670	0x8639	蘹 (<CJK Ideograph>)";
"18671	0x863C	蘼 (<CJK Ideograph>)";
"18672	0x8631	蘱 (<CJK Ideograph>)";
"18673	0x863B	蘻 (<CJK Ideograph>)";
"18674	0x863E	蘾 (<CJK Ideograph>)";
"18675	0x8830	蠰 (<CJK Ideograph>)";
"18676	0x8832	蠲 (<CJK Ideograph>)";
"18677	0x882E	蠮 (<CJK Ideograph>)";
"18678	0x8833	蠳 (<CJK Ideograph>)";
"18679	0x8976	襶 (<CJK Ideograph>)";
"18680	0x8974	襴 (<CJK Ideograph>)";
"18681	0x8973	襳 (<CJK Ideograph>)";
"18682	0x89FE	觾 (<CJK Ideograph>)";
"18683	0x8B8C	讌 (<CJK Ideograph>)";
"18684	0x8B8E	讎 (<CJK Ideograph>)";
"18685	0x8B8B	讋 (<CJK Ideograph>)";
"18686	0x8B88	讈 (<CJK Ideograph>)";
"18687	0x8C45	豅 (<CJK Ideograph>)";
"18688	0x8D19	贙 (<CJK Ideograph>)";
"18689	0x8E98	躘 (<CJK Ideograph>)";
"18690	0x8F64	轤 (<CJK Ideograph>)";
"18691	0x8F63	轣 (<CJK Ideograph>)";
"18692	0x91BC	醼 (<CJK Ideograph>)";
"18693	0x9462	鑢 (<CJK Ideograph>)";
"18694	0x9455	鑕 (<CJK Ideograph>)";
"18695	0x945D	鑝 (<CJK Ideograph>)";
"18696	0x9457	鑗 (<CJK Ideograph>)";
"18697	0x945E	鑞 (<CJK Ideograph>)";
"18698	0x97C4	韄 (<CJK Ideograph>)";
"18699	0x97C5	韅 (<CJK Ideograph>)";
"18700	0x9800	頀 (<CJK Ideograph>)";
"18701	0x9A56	驖 (<CJK Ideograph>)";
"18702	0x9A59	驙 (<CJK Ideograph>)";
"18703	0x9B1E	鬞 (<CJK Ideograph>)";
"18704	0x9B1F	鬟 (<CJK Ideograph>)";
"18705	0x9B20	鬠 (<CJK Ideograph>)";
"18706	0x9C52	鱒 (<CJK Ideograph>)";
"18707	0x9C58	鱘 (<CJK Ideograph>)";
"18708	0x9C50	鱐 (<CJK Ideograph>)";
"18709	0x9C4A	鱊 (<CJK Ideograph>)";
"18710	0x9C4D	鱍 (<CJK Ideograph>)";
"18711	0x9C4B	鱋 (<CJK Ideograph>)";
"18712	0x9C55	鱕 (<CJK Ideograph>)";
"18713	0x9C59	鱙 (<CJK Ideograph>)";
"18714	0x9C4C	鱌 (<CJK Ideograph>)";
"18715	0x9C4E	鱎 (<CJK Ideograph>)";
"18716	0x9DFB	鷻 (<CJK Ideograph>)";
"18717	0x9DF7	鷷 (<CJK Ideograph>)";
"18718	0x9DEF	鷯 (<CJK Ideograph>)";
"18719	0x9DE3	鷣 (<CJK Ideograph>)";
"18720	0x9DEB	鷫 (<CJK Ideograph>)";
"18721	0x9DF8	鷸 (<CJK Ideograph>)";
"18722	0x9DE4	鷤 (<CJK Ideograph>)";
"18723	0x9DF6	鷶 (<CJK Ideograph>)";
"18724	0x9DE1	鷡 (<CJK Ideograph>)";
"18725	0x9DEE	鷮 (<CJK Ideograph>)";
"18726	0x9DE6	鷦 (<CJK Ideograph>)";
"18727	0x9DF2	鷲 (<CJK Ideograph>)";
"18728	0x9DF0	鷰 (<CJK Ideograph>)";
"18729	0x9DE2	鷢 (<CJK Ideograph>)";
"18730	0x9DEC	鷬 (<CJK Ideograph>)";
"18731	0x9DF4	鷴 (<CJK Ideograph>)";
"18732	0x9DF3	鷳 (<CJK Ideograph>)";
"18733	0x9DE8	鷨 (<CJK Ideograph>)";
"18734	0x9DED	鷭 (<CJK Ideograph>)";
"18735	0x9EC2	黂 (<CJK Ideograph>)";
"18736	0x9ED0	黐 (<CJK Ideograph>)";
"18737	0x9EF2	黲 (<CJK Ideograph>)";
"18738	0x9EF3	黳 (<CJK Ideograph>)";
"18739	0x9F06	鼆 (<CJK Ideograph>)";
"18740	0x9F1C	鼜 (<CJK Ideograph>)";
"18741	0x9F38	鼸 (<CJK Ideograph>)";
"18742	0x9F37	鼷 (<CJK Ideograph>)";
"18743	0x9F36	鼶 (<CJK Ideograph>)";
"18744	0x9F43	齃 (<CJK Ideograph>)";
"18745	0x9F4F	齏 (<CJK Ideograph>)";
"18746	0x9F71	齱 (<CJK Ideograph>)";
"18747	0x9F70	齰 (<CJK Ideograph>)";
"18748	0x9F6E	齮 (<CJK Ideograph>)";
"18749	0x9F6F	齯 (<CJK Ideograph>)";
"18750	0x56D3	囓 (<CJK Ideograph>)";
"18751	0x56CD	囍 (<CJK Ideograph>)";
"18752	0x5B4E	孎 (<CJK Ideograph>)";
"18753	0x5C6D	屭 (<CJK Ideograph>)";
"18754	0x652D	攭 (<CJK Ideograph>)";
"18755	0x66ED	曭 (<CJK Ideograph>)";
"18756	0x66EE	曮 (<CJK Ideograph>)";
"18757	0x6B13	欓 (<CJK Ideograph>)";
"18758	0x705F	灟 (<CJK Ideograph>)";
"18759	0x7061	灡 (<CJK Ideograph>)";
"18760	0x705D	灝 (<CJK Ideograph>)";
"18761	0x7060	灠 (<CJK Ideograph>)";
"18762	0x7223	爣 (<CJK Ideograph>)";
"18763	0x74DB	瓛 (<CJK Ideograph>)";
"18764	0x74E5	瓥 (<CJK Ideograph>)";
"18765	0x77D5	矕 (<CJK Ideograph>)";
"18766	0x7938	礸 (<CJK Ideograph>)";
"18767	0x79B7	禷 (<CJK Ideograph>)";
"18768	0x79B6	禶 (<CJK Ideograph>)";
"18769	0x7C6A	籪 (<CJK Ideograph>)";
"18770	0x7E97	纗 (<CJK Ideograph>)";
"18771	0x7F89	羉 (<CJK Ideograph>)";
"18772	0x826D	艭 (<CJK Ideograph>)";
"18773	0x8643	虃 (<CJK Ideograph>)";
"18774	0x8838	蠸 (<CJK Ideograph>)";
"18775	0x8837	蠷 (<CJK Ideograph>)";
"18776	0x8835	蠵 (<CJK Ideograph>)";
"18777	0x884B	衋 (<CJK Ideograph>)";
"18778	0x8B94	讔 (<CJK Ideograph>)";
"18779	0x8B95	讕 (<CJK Ideograph>)";
"18780	0x8E9E	躞 (<CJK Ideograph>)";
"18781	0x8E9F	躟 (<CJK Ideograph>)";
"18782	0x8EA0	躠 (<CJK Ideograph>)";
"18783	0x8E9D	躝 (<CJK Ideograph>)";
"18784	0x91BE	醾 (<CJK Ideograph>)";
"18785	0x91BD	醽 (<CJK Ideograph>)";
"18786	0x91C2	釂 (<CJK Ideograph>)";
"18787	0x946B	鑫 (<CJK Ideograph>)";
"18788	0x9468	鑨 (<CJK Ideograph>)";
"18789	0x9469	鑩 (<CJK Ideograph>)";
"18790	0x96E5	雥 (<CJK Ideograph>)";
"18791	0x9746	靆 (<CJK Ideograph>)";
"18792	0x9743	靃 (<CJK Ideograph>)";
"18793	0x9747	靇 (<CJK Ideograph>)";
"18794	0x97C7	韇 (<CJK Ideograph>)";
"18795	0x97E5	韥 (<CJK Ideograph>)";
"18796	0x9A5E	驞 (<CJK Ideograph>)";
"18797	0x9AD5	髕 (<CJK Ideograph>)";
"18798	0x9B59	魙 (<CJK Ideograph>)";
"18799	0x9C63	鱣 (<CJK Ideograph>)";
"18800	0x9C67	鱧 (<CJK Ideograph>)";
"18801	0x9C66	鱦 (<CJK Ideograph>)";
"18802	0x9C62	鱢 (<CJK Ideograph>)";
"18803	0x9C5E	鱞 (<CJK Ideograph>)";
"18804	0x9C60	鱠 (<CJK Ideograph>)";
"18805	0x9E02	鸂 (<CJK Ideograph>)";
"18806	0x9DFE	鷾 (<CJK Ideograph>)";
"18807	0x9E07	鸇 (<CJK Ideograph>)";
"18808	0x9E03	鸃 (<CJK Ideograph>)";
"18809	0x9E06	鸆 (<CJK Ideograph>)";
"18810	0x9E05	鸅 (<CJK Ideograph>)";
"18811	0x9E00	鸀 (<CJK Ideograph>)";
"18812	0x9E01	鸁 (<CJK Ideograph>)";
"18813	0x9E09	鸉 (<CJK Ideograph>)";
"18814	0x9DFF	鷿 (<CJK Ideograph>)";
"18815	0x9DFD	鷽 (<CJK Ideograph>)";
"18816	0x9E04	鸄 (<CJK Ideograph>)";
"18817	0x9EA0	麠 (<CJK Ideograph>)";
"18818	0x9F1E	鼞 (<CJK Ideograph>)";
"18819	0x9F46	齆 (<CJK Ideograph>)";
"18820	0x9F74	齴 (<CJK Ideograph>)";
"18821	0x9F75	齵 (<CJK Ideograph>)";
"18822	0x9F76	齶 (<CJK Ideograph>)";
"18823	0x56D4	囔 (<CJK Ideograph>)";
"18824	0x652E	攮 (<CJK Ideograph>)";
"18825	0x65B8	斸 (<CJK Ideograph>)";
"18826	0x6B18	欘 (<CJK Ideograph>)";
"18827	0x6B19	欙 (<CJK Ideograph>)";
"18828	0x6B17	欗 (<CJK Ideograph>)";
"18829	0x6B1A	欚 (<CJK Ideograph>)";
"18830	0x7062	灢 (<CJK Ideograph>)";
"18831	0x7226	爦 (<CJK Ideograph>)";
"18832	0x72AA	犪 (<CJK Ideograph>)";
"18833	0x77D8	矘 (<CJK Ideograph>)";
"18834	0x77D9	矙 (<CJK Ideograph>)";
"18835	0x7939	礹 (<CJK Ideograph>)";
"18836	0x7C69	籩 (<CJK Ideograph>)";
"18837	0x7C6B	籫 (<CJK Ideograph>)";
"18838	0x7CF6	糶 (<CJK Ideograph>)";
"18839	0x7E9A	纚 (<CJK Ideograph>)";
"18840	0x7E98	纘 (<CJK Ideograph>)";
"18841	0x7E9B	纛 (<CJK Ideograph>)";
"18842	0x7E99	纙 (<CJK Ideograph>)";
"18843	0x81E0	臠 (<CJK Ideograph>)";
"18844	0x81E1	臡 (<CJK Ideograph>)";
"18845	0x8646	虆 (<CJK Ideograph>)";
"18846	0x8647	虇 (<CJK Ideograph>)";
"18847	0x8648	虈 (<CJK Ideograph>)";
"18848	0x8979	襹 (<CJK Ideograph>)";
"18849	0x897A	襺 (<CJK Ideograph>)"
].
(* /repo/encoding_tables/whatwg/index-big5.txt:17665-17920 *)
Definition index_big5_txt_69 : list line := [
"18850	0x897C	襼 (<CJK Ideograph>)";
"18851	0x897B	襻 (<CJK Ideograph>)";
"18852	0x89FF	觿 (<CJK Ideograph>)";
"18853	0x8B98	讘 (<CJK Ideograph>)";
"18854	0x8B99	讙 (<CJK Ideograph>)";
"18855	0x8EA5	躥 (<CJK Ideograph>)";
"18856	0x8EA4	躤 (<CJK Ideograph>)";
"18857	0x8EA3	躣 (<CJK Ideograph>)";
"18858	0x946E	鑮 (<CJK Ideograph>)";
"18859	0x946D	鑭 (<CJK Ideograph>)";
"18860	0x946F	鑯 (<CJK Ideograph>)";
"18861	0x9471	鑱 (<CJK Ideograph>)";
"18862	0x9473	鑳 (<CJK Ideograph>)";
"18863	0x9749	靉 (<CJK Ideograph>)";
"18864	0x9872	顲 (<CJK Ideograph>)";
"18865	0x995F	饟 (<CJK Ideograph>)";
"18866	0x9C68	鱨 (<CJK Ideograph>)";
"18867	0x9C6E	鱮 (<CJK Ideograph>)";
"18868	0x9C6D	鱭 (<CJK Ideograph>)";
"18869	0x9E0B	鸋 (<CJK Ideograph>)";
"18870	0x9E0D	鸍 (<CJK Ideograph>)";
"18871	0x9E10	鸐 (<CJK Ideograph>)";
"18872	0x9E0F	鸏 (<CJK Ideograph>)";
"18873	0x9E12	鸒 (<CJK Ideograph>)";
"18874	0x9E11	鸑 (<CJK Ideograph>)";
"18875	0x9EA1	麡 (<CJK Ideograph>)";
"18876	0x9EF5	黵 (<CJK Ideograph>)";
"18877	0x9F09	鼉 (<CJK Ideograph>)";
"18878	0x9F47	齇 (<CJK Ideograph>)";
"18879	0x9F78	齸 (<CJK Ideograph>)";
"18880	0x9F7B	齻 (<CJK Ideograph>)";
"18881	0x9F7A	齺 (<CJK Ideograph>)";
"18882	0x9F79	齹 (<CJK Ideograph>)";
"18883	0x571E	圞 (<CJK Ideograph>)";
"18884	0x7066	灦 (<CJK Ideograph>)";
"18885	0x7C6F	籯 (<CJK Ideograph>)";
"18886	0x883C	蠼 (<CJK Ideograph>)";
"18887	0x8DB2	趲 (<CJK Ideograph>)";
"18888	0x8EA6	躦 (<CJK Ideograph>)";
"18889	0x91C3	釃 (<CJK Ideograph>)";
"18890	0x9474	鑴 (<CJK Ideograph>)";
"18891	0x9478	鑸 (<CJK Ideograph>)";
"18892	0x9476	鑶 (<CJK Ideograph>)";
"18893	0x9475	鑵 (<CJK Ideograph>)";
"18894	0x9A60	驠 (<CJK Ideograph>)";
"18895	0x9C74	鱴 (<CJK Ideograph>)";
"18896	0x9C73	鱳 (<CJK Ideograph>)";
"18897	0x9C71	鱱 (<CJK Ideograph>)";
"18898	0x9C75	鱵 (<CJK Ideograph>)";
"18899	0x9E14	鸔 (<CJK Ideograph>)";
"18900	0x9E13	鸓 (<CJK Ideograph>)";
"18901	0x9EF6	黶 (<CJK Ideograph>)";
"18902	0x9F0A	鼊 (<CJK Ideograph>)";
"18903	0x9FA4	龤 (<CJK Ideograph>)";
"18904	0x7068	灨 (<CJK Ideograph>)";
"18905	0x7065	灥 (<CJK Ideograph>)";
"18906	0x7CF7	糷 (<CJK Ideograph>)";
"18907	0x866A	虪 (<CJK Ideograph>)";
"18908	0x883E	蠾 (<CJK Ideograph>)";
"18909	0x883D	蠽 (<CJK Ideograph>)";
"18910	0x883F	蠿 (<CJK Ideograph>)";
"18911	0x8B9E	讞 (<CJK Ideograph>)";
"18912	0x8C9C	貜 (<CJK Ideograph>)";
"18913	0x8EA9	躩 (<CJK Ideograph>)";
"18914	0x8EC9	軉 (<CJK Ideograph>)";
"18915	0x974B	靋 (<CJK Ideograph>)";
"18916	0x9873	顳 (<CJK Ideograph>)";
"18917	0x9874	顴 (<CJK Ideograph>)";
"18918	0x98CC	飌 (<CJK Ideograph>)";
"18919	0x9961	饡 (<CJK Ideograph>)";
"18920	0x99AB	馫 (<CJK Ideograph>)";
"18921	0x9A64	驤 (<CJK Ideograph>)";
"18922	0x9A66	驦 (<CJK Ideograph>)";
"18923	0x9A67	驧 (<CJK Ideograph>)";
"18924	0x9B24	鬤 (<CJK Ideograph>)";
"18925	0x9E15	鸕 (<CJK Ideograph>)";
"18926	0x9E17	鸗 (<CJK Ideograph>)";
"18927	0x9F48	齈 (<CJK Ideograph>)";
"18928	0x6207	戇 (<CJK Ideograph>)";
"18929	0x6B1E	欞 (<CJK Ideograph>)";
"18930	0x7227	爧 (<CJK Ideograph>)";
"18931	0x864C	虌 (<CJK Ideograph>)";
"18932	0x8EA8	躨 (<CJK Ideograph>)";
"18933	0x9482	钂 (<CJK Ideograph>)";
"18934	0x9480	钀 (<CJK Ideograph>)";
"18935	0x9481	钁 (<CJK Ideograph>)";
"18936	0x9A69	驩 (<CJK Ideograph>)";
"18937	0x9A68	驨 (<CJK Ideograph>)";
"18938	0x9B2E	鬮 (<CJK Ideograph>)";
"18939	0x9E19	鸙 (<CJK Ideograph>)";
"18940	0x7229	爩 (<CJK Ideograph>)";
"18941	0x864B	虋 (<CJK Ideograph>)";
"18942	0x8B9F	讟 (<CJK Ideograph>)";
"18943	0x9483	钃 (<CJK Ideograph>)";
"18944	0x9C79	鱹 (<CJK Ideograph>)";
"18945	0x9EB7	麷 (<CJK Ideograph>)";
"18946	0x7675	癵 (<CJK Ideograph>)";
"18947	0x9A6B	驫 (<CJK Ideograph>)";
"18948	0x9C7A	鱺 (<CJK Ideograph>)";
"18949	0x9E1D	鸝 (<CJK Ideograph>)";
"18950	0x7069	灩 (<CJK Ideograph>)";
"18951	0x706A	灪 (<CJK Ideograph>)";
"18952	0x9EA4	麤 (<CJK Ideograph>)";
"18953	0x9F7E	齾 (<CJK Ideograph>)";
"18954	0x9F49	齉 (<CJK Ideograph>)";
"18955	0x9F98	龘 (<CJK Ideograph>)";
"18956	0x7881	碁 (<CJK Ideograph>)";
"18957	0x92B9	銹 (<CJK Ideograph>)";
"18958	0x88CF	裏 (<CJK Ideograph>)";
"18959	0x58BB	墻 (<CJK Ideograph>)";
"18960	0x6052	恒 (<CJK Ideograph>)";
"18961	0x7CA7	粧 (<CJK Ideograph>)";
"18962	0x5AFA	嫺 (<CJK Ideograph>)";
"18963	0x2554	╔ (BOX DRAWINGS DOUBLE DOWN AND RIGHT)";
"18964	0x2566	╦ (BOX DRAWINGS DOUBLE DOWN AND HORIZONTAL)";
"18965	0x2557	╗ (BOX DRAWINGS DOUBLE DOWN AND LEFT)";
"18966	0x2560	╠ (BOX DRAWINGS DOUBLE VERTICAL AND RIGHT)";
"18967	0x256C	╬ (BOX DRAWINGS DOUBLE VERTICAL AND HORIZONTAL)";
"18968	0x2563	╣ (BOX DRAWINGS DOUBLE VERTICAL AND LEFT)";
"18969	0x255A	╚ (BOX DRAWINGS DOUBLE UP AND RIGHT)";
"18970	0x2569	╩ (BOX DRAWINGS DOUBLE UP AND HORIZONTAL)";
"18971	0x255D	╝ (BOX DRAWINGS DOUBLE UP AND LEFT)";
"18972	0x2552	╒ (BOX DRAWINGS DOWN SINGLE AND RIGHT DOUBLE)";
"18973	0x2564	╤ (BOX DRAWINGS DOWN SINGLE AND HORIZONTAL DOUBLE)";
"18974	0x2555	╕ (BOX DRAWINGS DOWN SINGLE AND LEFT DOUBLE)";
"18975	0x255E	╞ (BOX DRAWINGS VERTICAL SINGLE AND RIGHT DOUBLE)";
"18976	0x256A	╪ (BOX DRAWINGS VERTICAL SINGLE AND HORIZONTAL DOUBLE)";
"18977	0x2561	╡ (BOX DRAWINGS VERTICAL SINGLE AND LEFT DOUBLE)";
"18978	0x2558	╘ (BOX DRAWINGS UP SINGLE AND RIGHT DOUBLE)";
"18979	0x2567	╧ (BOX DRAWINGS UP SINGLE AND HORIZONTAL DOUBLE)";
"18980	0x255B	╛ (BOX DRAWINGS UP SINGLE AND LEFT DOUBLE)";
"18981	0x2553	╓ (BOX DRAWINGS DOWN DOUBLE AND RIGHT SINGLE)";
"18982	0x2565	╥ (BOX DRAWINGS DOWN DOUBLE AND HORIZONTAL SINGLE)";
"18983	0x2556	╖ (BOX DRAWINGS DOWN DOUBLE AND LEFT SINGLE)";
"18984	0x255F	╟ (BOX DRAWINGS VERTICAL DOUBLE AND RIGHT SINGLE)";
"18985	0x256B	╫ (BOX DRAWINGS VERTICAL DOUBLE AND HORIZONTAL SINGLE)";
"18986	0x2562	╢ (BOX DRAWINGS VERTICAL DOUBLE AND LEFT SINGLE)";
"18987	0x2559	╙ (BOX DRAWINGS UP DOUBLE AND RIGHT SINGLE)";
"18988	0x2568	╨ (BOX DRAWINGS UP DOUBLE AND HORIZONTAL SINGLE)";
"18989	0x255C	╜ (BOX DRAWINGS UP DOUBLE AND LEFT SINGLE)";
"18990	0x2551	║ (BOX DRAWINGS DOUBLE VERTICAL)";
"18991	0x2550	═ (BOX DRAWINGS DOUBLE HORIZONTAL)";
"18992	0x256D	╭ (BOX DRAWINGS LIGHT ARC DOWN AND RIGHT)";
"18993	0x256E	╮ (BOX DRAWINGS LIGHT ARC DOWN AND LEFT)";
"18994	0x2570	╰ (BOX DRAWINGS LIGHT ARC UP AND RIGHT)";
"18995	0x256F	╯ (BOX DRAWINGS LIGHT ARC UP AND LEFT)";
"18996	0xFFED	￭ (HALFWIDTH BLACK SQUARE)";
"18997	0x20547	𠕇 (<CJK Ideograph Extension B>)";
"18998	0x92DB	鋛 (<CJK Ideograph>)";
"18999	0x205DF	𠗟 (<CJK Ideograph Extension B>)";
"19000	0x23FC5	𣿅 (<CJK Ideograph Extension B>)";
"19001	0x854C	蕌 (<CJK Ideograph>)";
"19002	0x42B5	䊵 (<CJK Ideograph Extension A>)";
"19003	0x73EF	珯 (<CJK Ideograph>)";
"19004	0x51B5	况 (<CJK Ideograph>)";
"19005	0x3649	㙉 (<CJK Ideograph Extension A>)";
"19006	0x24942	𤥂 (<CJK Ideograph Extension B>)";
"19007	0x289E4	𨧤 (<CJK Ideograph Extension B>)";
"19008	0x9344	鍄 (<CJK Ideograph>)";
"19009	0x219DB	𡧛 (<CJK Ideograph Extension B>)";
"19010	0x82EE	苮 (<CJK Ideograph>)";
"19011	0x23CC8	𣳈 (<CJK Ideograph Extension B>)";
"19012	0x783C	砼 (<CJK Ideograph>)";
"19013	0x6744	杄 (<CJK Ideograph>)";
"19014	0x62DF	拟 (<CJK Ideograph>)";
"19015	0x24933	𤤳 (<CJK Ideograph Extension B>)";
"19016	0x289AA	𨦪 (<CJK Ideograph Extension B>)";
"19017	0x202A0	𠊠 (<CJK Ideograph Extension B>)";
"19018	0x26BB3	𦮳 (<CJK Ideograph Extension B>)";
"19019	0x21305	𡌅 (<CJK Ideograph Extension B>)";
"19020	0x4FAB	侫 (<CJK Ideograph>)";
"19021	0x224ED	𢓭 (<CJK Ideograph Extension B>)";
"19022	0x5008	倈 (<CJK Ideograph>)";
"19023	0x26D29	𦴩 (<CJK Ideograph Extension B>)";
"19024	0x27A84	𧪄 (<CJK Ideograph Extension B>)";
"19025	0x23600	𣘀 (<CJK Ideograph Extension B>)";
"19026	0x24AB1	𤪱 (<CJK Ideograph Extension B>)";
"19027	0x22513	𢔓 (<CJK Ideograph Extension B>)";
"19028	0x5029	倩 (<CJK Ideograph>)";
"19029	0x2037E	𠍾 (<CJK Ideograph Extension B>)";
"19030	0x5FA4	徤 (<CJK Ideograph>)";
"19031	0x20380	𠎀 (<CJK Ideograph Extension B>)";
"19032	0x20347	𠍇 (<CJK Ideograph Extension B>)";
"19033	0x6EDB	滛 (<CJK Ideograph>)";
"19034	0x2041F	𠐟 (<CJK Ideograph Extension B>)";
"19035	0x507D	偽 (<CJK Ideograph>)";
"19036	0x5101	儁 (<CJK Ideograph>)";
"19037	0x347A	㑺 (<CJK Ideograph Extension A>)";
"19038	0x510E	儎 (<CJK Ideograph>)";
"19039	0x986C	顬 (<CJK Ideograph>)";
"19040	0x3743	㝃 (<CJK Ideograph Extension A>)";
"19041	0x8416	萖 (<CJK Ideograph>)";
"19042	0x249A4	𤦤 (<CJK Ideograph Extension B>)";
"19043	0x20487	𠒇 (<CJK Ideograph Extension B>)";
"19044	0x5160	兠 (<CJK Ideograph>)";
"19045	0x233B4	𣎴 (<CJK Ideograph Extension B>)";
"19046	0x516A	兪 (<CJK Ideograph>)";
"19047	0x20BFF	𠯿 (<CJK Ideograph Extension B>)";
"19048	0x220FC	𢃼 (<CJK Ideograph Extension B>)";
"19049	0x202E5	𠋥 (<CJK Ideograph Extension B>)";
"19050	0x22530	𢔰 (<CJK Ideograph Extension B>)";
"19051	0x2058E	𠖎 (<CJK Ideograph Extension B>)";
"19052	0x23233	𣈳 (<CJK Ideograph Extension B>)";
"19053	0x21983	𡦃 (<CJK Ideograph Extension B>)";
"19054	0x5B82	宂 (<CJK Ideograph>)";
"19055	0x877D	蝽 (<CJK Ideograph>)";
"19056	0x205B3	𠖳 (<CJK Ideograph Extension B>)";
"19057	0x23C99	𣲙 (<CJK Ideograph Extension B>)";
"19058	0x51B2	冲 (<CJK Ideograph>)";
"19059	0x51B8	冸 (<CJK Ideograph>)";
"19060	0x9D34	鴴 (<CJK Ideograph>)";
"19061	0x51C9	凉 (<CJK Ideograph>)";
"19062	0x51CF	减 (<CJK Ideograph>)";
"19063	0x51D1	凑 (<CJK Ideograph>)";
"19064	0x3CDC	㳜 (<CJK Ideograph Extension A>)";
"19065	0x51D3	凓 (<CJK Ideograph>)";
"19066	0x24AA6	𤪦 (<CJK Ideograph Extension B>)";
"19067	0x51B3	决 (<CJK Ideograph>)";
"19068	0x51E2	凢 (<CJK Ideograph>)";
"19069	0x5342	卂 (<CJK Ideograph>)";
"19070	0x51ED	凭 (<CJK Ideograph>)";
"19071	0x83CD	菍 (<CJK Ideograph>)";
"19072	0x693E	椾 (<CJK Ideograph>)";
"19073	0x2372D	𣜭 (<CJK Ideograph Extension B>)";
"19074	0x5F7B	彻 (<CJK Ideograph>)";
"19075	0x520B	刋 (<CJK Ideograph>)";
"19076	0x5226	刦 (<CJK Ideograph>)";
"19077	0x523C	刼 (<CJK Ideograph>)";
"19078	0x52B5	劵 (<CJK Ideograph>)";
"19079	0x5257	剗 (<CJK Ideograph>)";
"19080	0x5294	劔 (<CJK Ideograph>)";
"19081	0x52B9	効 (<CJK Ideograph>)";
"19082	0x52C5	勅 (<CJK Ideograph>)";
"19083	0x7C15	簕 (<CJK Ideograph>)";
"19084	0x8542	蕂 (<CJK Ideograph>)";
"19085	0x52E0	勠 (<CJK Ideograph>)";
"19086	0x860D	蘍 (<CJK Ideograph>)";
"19087	0x26B13	𦬓 (<CJK Ideograph Extension B>)";
"19088	0x5305	包 (<CJK Ideograph>)";
"19089	0x28ADE	𨫞 (<CJK Ideograph Extension B>)";
"19090	0x5549	啉 (<CJK Ideograph>)";
"19091	0x6ED9	滙 (<CJK Ideograph>)";
"19092	0x23F80	𣾀 (<CJK Ideograph Extension B>)";
"19093	0x20954	𠥔 (<CJK Ideograph Extension B>)";
"19094	0x23FEC	𣿬 (<CJK Ideograph Extension B>)";
"19095	0x5333	匳 (<CJK Ideograph>)";
"19096	0x5344	卄 (<CJK Ideograph>)";
"19097	0x20BE2	𠯢 (<CJK Ideograph Extension B>)";
"19098	0x6CCB	泋 (<CJK Ideograph>)";
"19099	0x21726	𡜦 (<CJK Ideograph Extension B>)";
"19100	0x681B	栛 (<CJK Ideograph>)";
"19101	0x73D5	珕 (<CJK Ideograph>)";
"19102	0x604A	恊 (<CJK Ideograph>)";
"19103	0x3EAA	㺪 (<CJK Ideograph Extension A>)";
"19104	0x38CC	㣌 (<CJK Ideograph Extension A>)";
"19105	0x216E8	𡛨 (<CJK Ideograph Extension B>)"
].
(* /repo/encoding_tables/whatwg/index-big5.txt:17921-18176 *)
Definition index_big5_txt_70 : list line := [
"19106	0x71DD	燝 (<CJK Ideograph>)";
"19107	0x44A2	䒢 (<CJK Ideograph Extension A>)";
"19108	0x536D	卭 (<CJK Ideograph>)";
"19109	0x5374	却 (<CJK Ideograph>)";
"19110	0x286AB	𨚫 (<CJK Ideograph Extension B>)";
"19111	0x537E	卾 (<CJK Ideograph>)";
"19112	0x537F	卿 (<CJK Ideograph>)";
"19113	0x21596	𡖖 (<CJK Ideograph Extension B>)";
"19114	0x21613	𡘓 (<CJK Ideograph Extension B>)";
"19115	0x77E6	矦 (<CJK Ideograph>)";
"19116	0x5393	厓 (<CJK Ideograph>)";
"19117	0x28A9B	𨪛 (<CJK Ideograph Extension B>)";
"19118	0x53A0	厠 (<CJK Ideograph>)";
"19119	0x53AB	厫 (<CJK Ideograph>)";
"19120	0x53AE	厮 (<CJK Ideograph>)";
"19121	0x73A7	玧 (<CJK Ideograph>)";
"19122	0x25772	𥝲 (<CJK Ideograph Extension B>)";
"19123	0x3F59	㽙 (<CJK Ideograph Extension A>)";
"19124	0x739C	玜 (<CJK Ideograph>)";
"19125	0x53C1	叁 (<CJK Ideograph>)";
"19126	0x53C5	叅 (<CJK Ideograph>)";
"19127	0x6C49	汉 (<CJK Ideograph>)";
"19128	0x4E49	义 (<CJK Ideograph>)";
"19129	0x57FE	埾 (<CJK Ideograph>)";
"19130	0x53D9	叙 (<CJK Ideograph>)";
"19131	0x3AAB	㪫 (<CJK Ideograph Extension A>)";
"19132	0x20B8F	𠮏 (<CJK Ideograph Extension B>)";
"19133	0x53E0	叠 (<CJK Ideograph>)";
"19134	0x23FEB	𣿫 (<CJK Ideograph Extension B>)";
"19135	0x22DA3	𢶣 (<CJK Ideograph Extension B>)";
"19136	0x53F6	叶 (<CJK Ideograph>)";
"19137	0x20C77	𠱷 (<CJK Ideograph Extension B>)";
"19138	0x5413	吓 (<CJK Ideograph>)";
"19139	0x7079	灹 (<CJK Ideograph>)";
"19140	0x552B	唫 (<CJK Ideograph>)";
"19141	0x6657	晗 (<CJK Ideograph>)";
"19142	0x6D5B	浛 (<CJK Ideograph>)";
"19143	0x546D	呭 (<CJK Ideograph>)";
"19144	0x26B53	𦭓 (<CJK Ideograph Extension B>)";
"19145	0x20D74	𠵴 (<CJK Ideograph Extension B>)";
"19146	0x555D	啝 (<CJK Ideograph>)";
"19147	0x548F	咏 (<CJK Ideograph>)";
"19148	0x54A4	咤 (<CJK Ideograph>)";
"19149	0x47A6	䞦 (<CJK Ideograph Extension A>)";
"19150	0x2170D	𡜍 (<CJK Ideograph Extension B>)";
"19151	0x20EDD	𠻝 (<CJK Ideograph Extension B>)";
"19152	0x3DB4	㶴 (<CJK Ideograph Extension A>)";
"19153	0x20D4D	𠵍 (<CJK Ideograph Extension B>)";
"19154	0x289BC	𨦼 (<CJK Ideograph Extension B>)";
"19155	0x22698	𢚘 (<CJK Ideograph Extension B>)";
"19156	0x5547	啇 (<CJK Ideograph>)";
"19157	0x4CED	䳭 (<CJK Ideograph Extension A>)";
"19158	0x542F	启 (<CJK Ideograph>)";
"19159	0x7417	琗 (<CJK Ideograph>)";
"19160	0x5586	喆 (<CJK Ideograph>)";
"19161	0x55A9	喩 (<CJK Ideograph>)";
"19162	0x5605	嘅 (<CJK Ideograph>)";
"19163	0x218D7	𡣗 (<CJK Ideograph Extension B>)";
"19164	0x2403A	𤀺 (<CJK Ideograph Extension B>)";
"19165	0x4552	䕒 (<CJK Ideograph Extension A>)";
"19166	0x24435	𤐵 (<CJK Ideograph Extension B>)";
"19167	0x66B3	暳 (<CJK Ideograph>)";
"19168	0x210B4	𡂴 (<CJK Ideograph Extension B>)";
"19169	0x5637	嘷 (<CJK Ideograph>)";
"19170	0x66CD	曍 (<CJK Ideograph>)";
"19171	0x2328A	𣊊 (<CJK Ideograph Extension B>)";
"19172	0x66A4	暤 (<CJK Ideograph>)";
"19173	0x66AD	暭 (<CJK Ideograph>)";
"19174	0x564D	噍 (<CJK Ideograph>)";
"19175	0x564F	噏 (<CJK Ideograph>)";
"19176	0x78F1	磱 (<CJK Ideograph>)";
"19177	0x56F1	囱 (<CJK Ideograph>)";
"19178	0x9787	鞇 (<CJK Ideograph>)";
"19179	0x53FE	叾 (<CJK Ideograph>)";
"19180	0x5700	圀 (<CJK Ideograph>)";
"19181	0x56EF	囯 (<CJK Ideograph>)";
"19182	0x56ED	园 (<CJK Ideograph>)";
"19183	0x28B66	𨭦 (<CJK Ideograph Extension B>)";
"19184	0x3623	㘣 (<CJK Ideograph Extension A>)";
"19185	0x2124F	𡉏 (<CJK Ideograph Extension B>)";
"19186	0x5746	坆 (<CJK Ideograph>)";
"19187	0x241A5	𤆥 (<CJK Ideograph Extension B>)";
"19188	0x6C6E	汮 (<CJK Ideograph>)";
"19189	0x708B	炋 (<CJK Ideograph>)";
"19190	0x5742	坂 (<CJK Ideograph>)";
"19191	0x36B1	㚱 (<CJK Ideograph Extension A>)";
"19192	0x26C7E	𦱾 (<CJK Ideograph Extension B>)";
"19193	0x57E6	埦 (<CJK Ideograph>)";
"19194	0x21416	𡐖 (<CJK Ideograph Extension B>)";
"19195	0x5803	堃 (<CJK Ideograph>)";
"19196	0x21454	𡑔 (<CJK Ideograph Extension B>)";
"19197	0x24363	𤍣 (<CJK Ideograph Extension B>)";
"19198	0x5826	堦 (<CJK Ideograph>)";
"19199	0x24BF5	𤯵 (<CJK Ideograph Extension B>)";
"19200	0x585C	塜 (<CJK Ideograph>)";
"19201	0x58AA	墪 (<CJK Ideograph>)";
"19202	0x3561	㕡 (<CJK Ideograph Extension A>)";
"19203	0x58E0	壠 (<CJK Ideograph>)";
"19204	0x58DC	壜 (<CJK Ideograph>)";
"19205	0x2123C	𡈼 (<CJK Ideograph Extension B>)";
"19206	0x58FB	壻 (<CJK Ideograph>)";
"19207	0x5BFF	寿 (<CJK Ideograph>)";
"19208	0x5743	坃 (<CJK Ideograph>)";
"19209	0x2A150	𪅐 (<CJK Ideograph Extension B>)";
"19210	0x24278	𤉸 (<CJK Ideograph Extension B>)";
"19211	0x93D3	鏓 (<CJK Ideograph>)";
"19212	0x35A1	㖡 (<CJK Ideograph Extension A>)";
"19213	0x591F	够 (<CJK Ideograph>)";
"19214	0x68A6	梦 (<CJK Ideograph>)";
"19215	0x36C3	㛃 (<CJK Ideograph Extension A>)";
"19216	0x6E59	湙 (<CJK Ideograph>)";
"19217	0x2163E	𡘾 (<CJK Ideograph Extension B>)";
"19218	0x5A24	娤 (<CJK Ideograph>)";
"19219	0x5553	啓 (<CJK Ideograph>)";
"19220	0x21692	𡚒 (<CJK Ideograph Extension B>)";
"19221	0x8505	蔅 (<CJK Ideograph>)";
"19222	0x59C9	姉 (<CJK Ideograph>)";
"19223	0x20D4E	𠵎 (<CJK Ideograph Extension B>)";
"19224	0x26C81	𦲁 (<CJK Ideograph Extension B>)";
"19225	0x26D2A	𦴪 (<CJK Ideograph Extension B>)";
"19226	0x217DC	𡟜 (<CJK Ideograph Extension B>)";
"19227	0x59D9	姙 (<CJK Ideograph>)";
"19228	0x217FB	𡟻 (<CJK Ideograph Extension B>)";
"19229	0x217B2	𡞲 (<CJK Ideograph Extension B>)";
"19230	0x26DA6	𦶦 (<CJK Ideograph Extension B>)";
"19231	0x6D71	浱 (<CJK Ideograph>)";
"19232	0x21828	𡠨 (<CJK Ideograph Extension B>)";
"19233	0x216D5	𡛕 (<CJK Ideograph Extension B>)";
"19234	0x59F9	姹 (<CJK Ideograph>)";
"19235	0x26E45	𦹅 (<CJK Ideograph Extension B>)";
"19236	0x5AAB	媫 (<CJK Ideograph>)";
"19237	0x5A63	婣 (<CJK Ideograph>)";
"19238	0x36E6	㛦 (<CJK Ideograph Extension A>)";
"19239	0x249A9	𤦩 (<CJK Ideograph Extension B>)";
"19240	0x5A77	婷 (<CJK Ideograph>)";
"19241	0x3708	㜈 (<CJK Ideograph Extension A>)";
"19242	0x5A96	媖 (<CJK Ideograph>)";
"19243	0x7465	瑥 (<CJK Ideograph>)";
"19244	0x5AD3	嫓 (<CJK Ideograph>)";
"19245	0x26FA1	𦾡 (<CJK Ideograph Extension B>)";
"19246	0x22554	𢕔 (<CJK Ideograph Extension B>)";
"19247	0x3D85	㶅 (<CJK Ideograph Extension A>)";
"19248	0x21911	𡤑 (<CJK Ideograph Extension B>)";
"19249	0x3732	㜲 (<CJK Ideograph Extension A>)";
"19250	0x216B8	𡚸 (<CJK Ideograph Extension B>)";
"19251	0x5E83	広 (<CJK Ideograph>)";
"19252	0x52D0	勐 (<CJK Ideograph>)";
"19253	0x5B76	孶 (<CJK Ideograph>)";
"19254	0x6588	斈 (<CJK Ideograph>)";
"19255	0x5B7C	孼 (<CJK Ideograph>)";
"19256	0x27A0E	𧨎 (<CJK Ideograph Extension B>)";
"19257	0x4004	䀄 (<CJK Ideograph Extension A>)";
"19258	0x485D	䡝 (<CJK Ideograph Extension A>)";
"19259	0x20204	𠈄 (<CJK Ideograph Extension B>)";
"19260	0x5BD5	寕 (<CJK Ideograph>)";
"19261	0x6160	慠 (<CJK Ideograph>)";
"19262	0x21A34	𡨴 (<CJK Ideograph Extension B>)";
"19263	0x259CC	𥧌 (<CJK Ideograph Extension B>)";
"19264	0x205A5	𠖥 (<CJK Ideograph Extension B>)";
"19265	0x5BF3	寳 (<CJK Ideograph>)";
"19266	0x5B9D	宝 (<CJK Ideograph>)";
"19267	0x4D10	䴐 (<CJK Ideograph Extension A>)";
"19268	0x5C05	尅 (<CJK Ideograph>)";
"19269	0x21B44	𡭄 (<CJK Ideograph Extension B>)";
"19270	0x5C13	尓 (<CJK Ideograph>)";
"19271	0x73CE	珎 (<CJK Ideograph>)";
"19272	0x5C14	尔 (<CJK Ideograph>)";
"19273	0x21CA5	𡲥 (<CJK Ideograph Extension B>)";
"19274	0x26B28	𦬨 (<CJK Ideograph Extension B>)";
"19275	0x5C49	屉 (<CJK Ideograph>)";
"19276	0x48DD	䣝 (<CJK Ideograph Extension A>)";
"19277	0x5C85	岅 (<CJK Ideograph>)";
"19278	0x5CE9	峩 (<CJK Ideograph>)";
"19279	0x5CEF	峯 (<CJK Ideograph>)";
"19280	0x5D8B	嶋 (<CJK Ideograph>)";
"19281	0x21DF9	𡷹 (<CJK Ideograph Extension B>)";
"19282	0x21E37	𡸷 (<CJK Ideograph Extension B>)";
"19283	0x5D10	崐 (<CJK Ideograph>)";
"19284	0x5D18	崘 (<CJK Ideograph>)";
"19285	0x5D46	嵆 (<CJK Ideograph>)";
"19286	0x21EA4	𡺤 (<CJK Ideograph Extension B>)";
"19287	0x5CBA	岺 (<CJK Ideograph>)";
"19288	0x5DD7	巗 (<CJK Ideograph>)";
"19289	0x82FC	苼 (<CJK Ideograph>)";
"19290	0x382D	㠭 (<CJK Ideograph Extension A>)";
"19291	0x24901	𤤁 (<CJK Ideograph Extension B>)";
"19292	0x22049	𢁉 (<CJK Ideograph Extension B>)";
"19293	0x22173	𢅳 (<CJK Ideograph Extension B>)";
"19294	0x8287	芇 (<CJK Ideograph>)";
"19295	0x3836	㠶 (<CJK Ideograph Extension A>)";
"19296	0x3BC2	㯂 (<CJK Ideograph Extension A>)";
"19297	0x5E2E	帮 (<CJK Ideograph>)";
"19298	0x6A8A	檊 (<CJK Ideograph>)";
"19299	0x5E75	幵 (<CJK Ideograph>)";
"19300	0x5E7A	幺 (<CJK Ideograph>)";
"19301	0x244BC	𤒼 (<CJK Ideograph Extension B>)";
"19302	0x20CD3	𠳓 (<CJK Ideograph Extension B>)";
"19303	0x53A6	厦 (<CJK Ideograph>)";
"19304	0x4EB7	亷 (<CJK Ideograph>)";
"19305	0x5ED0	廐 (<CJK Ideograph>)";
"19306	0x53A8	厨 (<CJK Ideograph>)";
"19307	0x21771	𡝱 (<CJK Ideograph Extension B>)";
"19308	0x5E09	帉 (<CJK Ideograph>)";
"19309	0x5EF4	廴 (<CJK Ideograph>)";
"19310	0x28482	𨒂 (<CJK Ideograph Extension B>)";
"19311	0x5EF9	廹 (<CJK Ideograph>)";
"19312	0x5EFB	廻 (<CJK Ideograph>)";
"19313	0x38A0	㢠 (<CJK Ideograph Extension A>)";
"19314	0x5EFC	廼 (<CJK Ideograph>)";
"19315	0x683E	栾 (<CJK Ideograph>)";
"19316	0x941B	鐛 (<CJK Ideograph>)";
"19317	0x5F0D	弍 (<CJK Ideograph>)";
"19318	0x201C1	𠇁 (<CJK Ideograph Extension B>)";
"19319	0x2F894	弢 (CJK COMPATIBILITY IDEOGRAPH-2F894)";
"19320	0x3ADE	㫞 (<CJK Ideograph Extension A>)";
"19321	0x48AE	䢮 (<CJK Ideograph Extension A>)";
"19322	0x2133A	𡌺 (<CJK Ideograph Extension B>)";
"19323	0x5F3A	强 (<CJK Ideograph>)";
"19324	0x26888	𦢈 (<CJK Ideograph Extension B>)";
"19325	0x223D0	𢏐 (<CJK Ideograph Extension B>)";
"19326	0x5F58	彘 (<CJK Ideograph>)";
"19327	0x22471	𢑱 (<CJK Ideograph Extension B>)";
"19328	0x5F63	彣 (<CJK Ideograph>)";
"19329	0x97BD	鞽 (<CJK Ideograph>)";
"19330	0x26E6E	𦹮 (<CJK Ideograph Extension B>)";
"19331	0x5F72	彲 (<CJK Ideograph>)";
"19332	0x9340	鍀 (<CJK Ideograph>)";
"19333	0x28A36	𨨶 (<CJK Ideograph Extension B>)";
"19334	0x5FA7	徧 (<CJK Ideograph>)";
"19335	0x5DB6	嶶 (<CJK Ideograph>)";
"19336	0x3D5F	㵟 (<CJK Ideograph Extension A>)";
"19337	0x25250	𥉐 (<CJK Ideograph Extension B>)";
"19338	0x21F6A	𡽪 (<CJK Ideograph Extension B>)";
"19339	0x270F8	𧃸 (<CJK Ideograph Extension B>)";
"19340	0x22668	𢙨 (<CJK Ideograph Extension B>)";
"19341	0x91D6	釖 (<CJK Ideograph>)";
"19342	0x2029E	𠊞 (<CJK Ideograph Extension B>)";
"19343	0x28A29	𨨩 (<CJK Ideograph Extension B>)";
"19344	0x6031	怱 (<CJK Ideograph>)";
"19345	0x6685	暅 (<CJK Ideograph>)";
"19346	0x21877	𡡷 (<CJK Ideograph Extension B>)";
"19347	0x3963	㥣 (<CJK Ideograph Extension A>)";
"19348	0x3DC7	㷇 (<CJK Ideograph Extension A>)";
"19349	0x3639	㘹 (<CJK Ideograph Extension A>)";
"19350	0x5790	垐 (<CJK Ideograph>)";
"19351	0x227B4	𢞴 (<CJK Ideograph Extension B>)";
"19352	0x7971	祱 (<CJK Ideograph>)";
"19353	0x3E40	㹀 (<CJK Ideograph Extension A>)";
"19354	0x609E	悞 (<CJK Ideograph>)";
"19355	0x60A4	悤 (<CJK Ideograph>)";
"19356	0x60B3	悳 (<CJK Ideograph>)";
"19357	0x24982	𤦂 (<CJK Ideograph Extension B>)";
"19358	0x2498F	𤦏 (<CJK Ideograph Extension B>)";
"19359	0x27A53	𧩓 (<CJK Ideograph Extension B>)";
"19360	0x74A4	璤 (<CJK Ideograph>)";
"19361	0x50E1	僡 (<CJK Ideograph>)"
].
(* /repo/encoding_tables/whatwg/index-big5.txt:18177-18432 *)
Definition index_big5_txt_71 : list line := [
"19362	0x5AA0	媠 (<CJK Ideograph>)";
"19363	0x6164	慤 (<CJK Ideograph>)";
"19364	0x8424	萤 (<CJK Ideograph>)";
"19365	0x6142	慂 (<CJK Ideograph>)";
"19366	0x2F8A6	慈 (CJK COMPATIBILITY IDEOGRAPH-2F8A6)";
"19367	0x26ED2	𦻒 (<CJK Ideograph Extension B>)";
"19368	0x6181	憁 (<CJK Ideograph>)";
"19369	0x51F4	凴 (<CJK Ideograph>)";
"19370	0x20656	𠙖 (<CJK Ideograph Extension B>)";
"19371	0x6187	憇 (<CJK Ideograph>)";
"19372	0x5BAA	宪 (<CJK Ideograph>)";
"19373	0x23FB7	𣾷 (<CJK Ideograph Extension B>)";
"19374	0x2285F	𢡟 (<CJK Ideograph Extension B>)";
"19375	0x61D3	懓 (<CJK Ideograph>)";
"19376	0x28B9D	𨮝 (<CJK Ideograph Extension B>)";
"19377	0x2995D	𩥝 (<CJK Ideograph Extension B>)";
"19378	0x61D0	懐 (<CJK Ideograph>)";
"19379	0x3932	㤲 (<CJK Ideograph Extension A>)";
"19380	0x22980	𢦀 (<CJK Ideograph Extension B>)";
"19381	0x228C1	𢣁 (<CJK Ideograph Extension B>)";
"19382	0x6023	怣 (<CJK Ideograph>)";
"19383	0x615C	慜 (<CJK Ideograph>)";
"19384	0x651E	攞 (<CJK Ideograph>)";
"19385	0x638B	掋 (<CJK Ideograph>)";
"19386	0x20118	𠄘 (<CJK Ideograph Extension B>)";
"19387	0x62C5	担 (<CJK Ideograph>)";
"19388	0x21770	𡝰 (<CJK Ideograph Extension B>)";
"19389	0x62D5	拕 (<CJK Ideograph>)";
"19390	0x22E0D	𢸍 (<CJK Ideograph Extension B>)";
"19391	0x636C	捬 (<CJK Ideograph>)";
"19392	0x249DF	𤧟 (<CJK Ideograph Extension B>)";
"19393	0x3A17	㨗 (<CJK Ideograph Extension A>)";
"19394	0x6438	搸 (<CJK Ideograph>)";
"19395	0x63F8	揸 (<CJK Ideograph>)";
"19396	0x2138E	𡎎 (<CJK Ideograph Extension B>)";
"19397	0x217FC	𡟼 (<CJK Ideograph Extension B>)";
"19398	0x6490	撐 (<CJK Ideograph>)";
"19399	0x6F8A	澊 (<CJK Ideograph>)";
"19400	0x22E36	𢸶 (<CJK Ideograph Extension B>)";
"19401	0x9814	頔 (<CJK Ideograph>)";
"19402	0x2408C	𤂌 (<CJK Ideograph Extension B>)";
"19403	0x2571D	𥜝 (<CJK Ideograph Extension B>)";
"19404	0x64E1	擡 (<CJK Ideograph>)";
"19405	0x64E5	擥 (<CJK Ideograph>)";
"19406	0x947B	鑻 (<CJK Ideograph>)";
"19407	0x3A66	㩦 (<CJK Ideograph Extension A>)";
"19408	0x643A	携 (<CJK Ideograph>)";
"19409	0x3A57	㩗 (<CJK Ideograph Extension A>)";
"19410	0x654D	敍 (<CJK Ideograph>)";
"19411	0x6F16	漖 (<CJK Ideograph>)";
"19412	0x24A28	𤨨 (<CJK Ideograph Extension B>)";
"19413	0x24A23	𤨣 (<CJK Ideograph Extension B>)";
"19414	0x6585	斅 (<CJK Ideograph>)";
"19415	0x656D	敭 (<CJK Ideograph>)";
"19416	0x655F	敟 (<CJK Ideograph>)";
"19417	0x2307E	𣁾 (<CJK Ideograph Extension B>)";
"19418	0x65B5	斵 (<CJK Ideograph>)";
"19419	0x24940	𤥀 (<CJK Ideograph Extension B>)";
"19420	0x4B37	䬷 (<CJK Ideograph Extension A>)";
"19421	0x65D1	旑 (<CJK Ideograph>)";
"19422	0x40D8	䃘 (<CJK Ideograph Extension A>)";
"19423	0x21829	𡠩 (<CJK Ideograph Extension B>)";
"19424	0x65E0	无 (<CJK Ideograph>)";
"19425	0x65E3	旣 (<CJK Ideograph>)";
"19426	0x5FDF	忟 (<CJK Ideograph>)";
"19427	0x23400	𣐀 (<CJK Ideograph Extension B>)";
"19428	0x6618	昘 (<CJK Ideograph>)";
"19429	0x231F7	𣇷 (<CJK Ideograph Extension B>)";
"19430	0x231F8	𣇸 (<CJK Ideograph Extension B>)";
"19431	0x6644	晄 (<CJK Ideograph>)";
"19432	0x231A4	𣆤 (<CJK Ideograph Extension B>)";
"19433	0x231A5	𣆥 (<CJK Ideograph Extension B>)";
"19434	0x664B	晋 (<CJK Ideograph>)";
"19435	0x20E75	𠹵 (<CJK Ideograph Extension B>)";
"19436	0x6667	晧 (<CJK Ideograph>)";
"19437	0x251E6	𥇦 (<CJK Ideograph Extension B>)";
"19438	0x6673	晳 (<CJK Ideograph>)";
"19439	0x6674	晴 (<CJK Ideograph>)";
"19440	0x21E3D	𡸽 (<CJK Ideograph Extension B>)";
"19441	0x23231	𣈱 (<CJK Ideograph Extension B>)";
"19442	0x285F4	𨗴 (<CJK Ideograph Extension B>)";
"19443	0x231C8	𣇈 (<CJK Ideograph Extension B>)";
"19444	0x25313	𥌓 (<CJK Ideograph Extension B>)";
"19445	0x77C5	矅 (<CJK Ideograph>)";
"19446	0x228F7	𢣷 (<CJK Ideograph Extension B>)";
"19447	0x99A4	馤 (<CJK Ideograph>)";
"19448	0x6702	朂 (<CJK Ideograph>)";
"19449	0x2439C	𤎜 (<CJK Ideograph Extension B>)";
"19450	0x24A21	𤨡 (<CJK Ideograph Extension B>)";
"19451	0x3B2B	㬫 (<CJK Ideograph Extension A>)";
"19452	0x69FA	槺 (<CJK Ideograph>)";
"19453	0x237C2	𣟂 (<CJK Ideograph Extension B>)";
"19454	0x675E	杞 (<CJK Ideograph>)";
"19455	0x6767	杧 (<CJK Ideograph>)";
"19456	0x6762	杢 (<CJK Ideograph>)";
"19457	0x241CD	𤇍 (<CJK Ideograph Extension B>)";
"19458	0x290ED	𩃭 (<CJK Ideograph Extension B>)";
"19459	0x67D7	柗 (<CJK Ideograph>)";
"19460	0x44E9	䓩 (<CJK Ideograph Extension A>)";
"19461	0x6822	栢 (<CJK Ideograph>)";
"19462	0x6E50	湐 (<CJK Ideograph>)";
"19463	0x923C	鈼 (<CJK Ideograph>)";
"19464	0x6801	栁 (<CJK Ideograph>)";
"19465	0x233E6	𣏦 (<CJK Ideograph Extension B>)";
"19466	0x26DA0	𦶠 (<CJK Ideograph Extension B>)";
"19467	0x685D	桝 (<CJK Ideograph>)";
"19468	0x2346F	𣑯 (<CJK Ideograph Extension B>)";
"19469	0x69E1	槡 (<CJK Ideograph>)";
"19470	0x6A0B	樋 (<CJK Ideograph>)";
"19471	0x28ADF	𨫟 (<CJK Ideograph Extension B>)";
"19472	0x6973	楳 (<CJK Ideograph>)";
"19473	0x68C3	棃 (<CJK Ideograph>)";
"19474	0x235CD	𣗍 (<CJK Ideograph Extension B>)";
"19475	0x6901	椁 (<CJK Ideograph>)";
"19476	0x6900	椀 (<CJK Ideograph>)";
"19477	0x3D32	㴲 (<CJK Ideograph Extension A>)";
"19478	0x3A01	㨁 (<CJK Ideograph Extension A>)";
"19479	0x2363C	𣘼 (<CJK Ideograph Extension B>)";
"19480	0x3B80	㮀 (<CJK Ideograph Extension A>)";
"19481	0x67AC	枬 (<CJK Ideograph>)";
"19482	0x6961	楡 (<CJK Ideograph>)";
"19483	0x28A4A	𨩊 (<CJK Ideograph Extension B>)";
"19484	0x42FC	䋼 (<CJK Ideograph Extension A>)";
"19485	0x6936	椶 (<CJK Ideograph>)";
"19486	0x6998	榘 (<CJK Ideograph>)";
"19487	0x3BA1	㮡 (<CJK Ideograph Extension A>)";
"19488	0x203C9	𠏉 (<CJK Ideograph Extension B>)";
"19489	0x8363	荣 (<CJK Ideograph>)";
"19490	0x5090	傐 (<CJK Ideograph>)";
"19491	0x69F9	槹 (<CJK Ideograph>)";
"19492	0x23659	𣙙 (<CJK Ideograph Extension B>)";
"19493	0x2212A	𢄪 (<CJK Ideograph Extension B>)";
"19494	0x6A45	橅 (<CJK Ideograph>)";
"19495	0x23703	𣜃 (<CJK Ideograph Extension B>)";
"19496	0x6A9D	檝 (<CJK Ideograph>)";
"19497	0x3BF3	㯳 (<CJK Ideograph Extension A>)";
"19498	0x67B1	枱 (<CJK Ideograph>)";
"19499	0x6AC8	櫈 (<CJK Ideograph>)";
"19500	0x2919C	𩆜 (<CJK Ideograph Extension B>)";
"19501	0x3C0D	㰍 (<CJK Ideograph Extension A>)";
"19502	0x6B1D	欝 (<CJK Ideograph>)";
"19503	0x20923	𠤣 (<CJK Ideograph Extension B>)";
"19504	0x60DE	惞 (<CJK Ideograph>)";
"19505	0x6B35	欵 (<CJK Ideograph>)";
"19506	0x6B74	歴 (<CJK Ideograph>)";
"19507	0x227CD	𢟍 (<CJK Ideograph Extension B>)";
"19508	0x6EB5	溵 (<CJK Ideograph>)";
"19509	0x23ADB	𣫛 (<CJK Ideograph Extension B>)";
"19510	0x203B5	𠎵 (<CJK Ideograph Extension B>)";
"19511	0x21958	𡥘 (<CJK Ideograph Extension B>)";
"19512	0x3740	㝀 (<CJK Ideograph Extension A>)";
"19513	0x5421	吡 (<CJK Ideograph>)";
"19514	0x23B5A	𣭚 (<CJK Ideograph Extension B>)";
"19515	0x6BE1	毡 (<CJK Ideograph>)";
"19516	0x23EFC	𣻼 (<CJK Ideograph Extension B>)";
"19517	0x6BDC	毜 (<CJK Ideograph>)";
"19518	0x6C37	氷 (<CJK Ideograph>)";
"19519	0x2248B	𢒋 (<CJK Ideograph Extension B>)";
"19520	0x248F1	𤣱 (<CJK Ideograph Extension B>)";
"19521	0x26B51	𦭑 (<CJK Ideograph Extension B>)";
"19522	0x6C5A	汚 (<CJK Ideograph>)";
"19523	0x8226	舦 (<CJK Ideograph>)";
"19524	0x6C79	汹 (<CJK Ideograph>)";
"19525	0x23DBC	𣶼 (<CJK Ideograph Extension B>)";
"19526	0x44C5	䓅 (<CJK Ideograph Extension A>)";
"19527	0x23DBD	𣶽 (<CJK Ideograph Extension B>)";
"19528	0x241A4	𤆤 (<CJK Ideograph Extension B>)";
"19529	0x2490C	𤤌 (<CJK Ideograph Extension B>)";
"19530	0x24900	𤤀 (<CJK Ideograph Extension B>)";
"19531	0x23CC9	𣳉 (<CJK Ideograph Extension B>)";
"19532	0x36E5	㛥 (<CJK Ideograph Extension A>)";
"19533	0x3CEB	㳫 (<CJK Ideograph Extension A>)";
"19534	0x20D32	𠴲 (<CJK Ideograph Extension B>)";
"19535	0x9B83	鮃 (<CJK Ideograph>)";
"19536	0x231F9	𣇹 (<CJK Ideograph Extension B>)";
"19537	0x22491	𢒑 (<CJK Ideograph Extension B>)";
"19538	0x7F8F	羏 (<CJK Ideograph>)";
"19539	0x6837	样 (<CJK Ideograph>)";
"19540	0x26D25	𦴥 (<CJK Ideograph Extension B>)";
"19541	0x26DA1	𦶡 (<CJK Ideograph Extension B>)";
"19542	0x26DEB	𦷫 (<CJK Ideograph Extension B>)";
"19543	0x6D96	涖 (<CJK Ideograph>)";
"19544	0x6D5C	浜 (<CJK Ideograph>)";
"19545	0x6E7C	湼 (<CJK Ideograph>)";
"19546	0x6F04	漄 (<CJK Ideograph>)";
"19547	0x2497F	𤥿 (<CJK Ideograph Extension B>)";
"19548	0x24085	𤂅 (<CJK Ideograph Extension B>)";
"19549	0x26E72	𦹲 (<CJK Ideograph Extension B>)";
"19550	0x8533	蔳 (<CJK Ideograph>)";
"19551	0x26F74	𦽴 (<CJK Ideograph Extension B>)";
"19552	0x51C7	凇 (<CJK Ideograph>)";
"19553	0x6C9C	沜 (<CJK Ideograph>)";
"19554	0x6E1D	渝 (<CJK Ideograph>)";
"19555	0x842E	萮 (<CJK Ideograph>)";
"19556	0x28B21	𨬡 (<CJK Ideograph Extension B>)";
"19557	0x6E2F	港 (<CJK Ideograph>)";
"19558	0x23E2F	𣸯 (<CJK Ideograph Extension B>)";
"19559	0x7453	瑓 (<CJK Ideograph>)";
"19560	0x23F82	𣾂 (<CJK Ideograph Extension B>)";
"19561	0x79CC	秌 (<CJK Ideograph>)";
"19562	0x6E4F	湏 (<CJK Ideograph>)";
"19563	0x5A91	媑 (<CJK Ideograph>)";
"19564	0x2304B	𣁋 (<CJK Ideograph Extension B>)";
"19565	0x6FF8	濸 (<CJK Ideograph>)";
"19566	0x370D	㜍 (<CJK Ideograph Extension A>)";
"19567	0x6F9D	澝 (<CJK Ideograph>)";
"19568	0x23E30	𣸰 (<CJK Ideograph Extension B>)";
"19569	0x6EFA	滺 (<CJK Ideograph>)";
"19570	0x21497	𡒗 (<CJK Ideograph Extension B>)";
"19571	0x2403D	𤀽 (<CJK Ideograph Extension B>)";
"19572	0x4555	䕕 (<CJK Ideograph Extension A>)";
"19573	0x93F0	鏰 (<CJK Ideograph>)";
"19574	0x6F44	潄 (<CJK Ideograph>)";
"19575	0x6F5C	潜 (<CJK Ideograph>)";
"19576	0x3D4E	㵎 (<CJK Ideograph Extension A>)";
"19577	0x6F74	潴 (<CJK Ideograph>)";
"19578	0x29170	𩅰 (<CJK Ideograph Extension B>)";
"19579	0x3D3B	㴻 (<CJK Ideograph Extension A>)";
"19580	0x6F9F	澟 (<CJK Ideograph>)";
"19581	0x24144	𤅄 (<CJK Ideograph Extension B>)";
"19582	0x6FD3	濓 (<CJK Ideograph>)";
"19583	0x24091	𤂑 (<CJK Ideograph Extension B>)";
"19584	0x24155	𤅕 (<CJK Ideograph Extension B>)";
"19585	0x24039	𤀹 (<CJK Ideograph Extension B>)";
"19586	0x23FF0	𣿰 (<CJK Ideograph Extension B>)";
"19587	0x23FB4	𣾴 (<CJK Ideograph Extension B>)";
"19588	0x2413F	𤄿 (<CJK Ideograph Extension B>)";
"19589	0x51DF	凟 (<CJK Ideograph>)";
"19590	0x24156	𤅖 (<CJK Ideograph Extension B>)";
"19591	0x24157	𤅗 (<CJK Ideograph Extension B>)";
"19592	0x24140	𤅀 (<CJK Ideograph Extension B>)";
"19593	0x261DD	𦇝 (<CJK Ideograph Extension B>)";
"19594	0x704B	灋 (<CJK Ideograph>)";
"19595	0x707E	灾 (<CJK Ideograph>)";
"19596	0x70A7	炧 (<CJK Ideograph>)";
"19597	0x7081	炁 (<CJK Ideograph>)";
"19598	0x70CC	烌 (<CJK Ideograph>)";
"19599	0x70D5	烕 (<CJK Ideograph>)";
"19600	0x70D6	烖 (<CJK Ideograph>)";
"19601	0x70DF	烟 (<CJK Ideograph>)";
"19602	0x4104	䄄 (<CJK Ideograph Extension A>)";
"19603	0x3DE8	㷨 (<CJK Ideograph Extension A>)";
"19604	0x71B4	熴 (<CJK Ideograph>)";
"19605	0x7196	熖 (<CJK Ideograph>)";
"19606	0x24277	𤉷 (<CJK Ideograph Extension B>)";
"19607	0x712B	焫 (<CJK Ideograph>)";
"19608	0x7145	煅 (<CJK Ideograph>)";
"19609	0x5A88	媈 (<CJK Ideograph>)";
"19610	0x714A	煊 (<CJK Ideograph>)";
"19611	0x716E	煮 (<CJK Ideograph>)";
"19612	0x5C9C	岜 (<CJK Ideograph>)";
"19613	0x24365	𤍥 (<CJK Ideograph Extension B>)";
"19614	0x714F	煏 (<CJK Ideograph>)";
"19615	0x9362	鍢 (<CJK Ideograph>)";
"19616	0x242C1	𤋁 (<CJK Ideograph Extension B>)";
"19617	0x712C	焬 (<CJK Ideograph>)"
].
(* /repo/encoding_tables/whatwg/index-big5.txt:18433-18596 *)
Definition index_big5_txt_72 : list line := [
"19618	0x2445A	𤑚 (<CJK Ideograph Extension B>)";
"19619	0x24A27	𤨧 (<CJK Ideograph Extension B>)";
"19620	0x24A22	𤨢 (<CJK Ideograph Extension B>)";
"19621	0x71BA	熺 (<CJK Ideograph>)";
"19622	0x28BE8	𨯨 (<CJK Ideograph Extension B>)";
"19623	0x70BD	炽 (<CJK Ideograph>)";
"19624	0x720E	爎 (<CJK Ideograph>)";
"19625	0x9442	鑂 (<CJK Ideograph>)";
"19626	0x7215	爕 (<CJK Ideograph>)";
"19627	0x5911	夑 (<CJK Ideograph>)";
"19628	0x9443	鑃 (<CJK Ideograph>)";
"19629	0x7224	爤 (<CJK Ideograph>)";
"19630	0x9341	鍁 (<CJK Ideograph>)";
"19631	0x25605	𥘅 (<CJK Ideograph Extension B>)";
"19632	0x722E	爮 (<CJK Ideograph>)";
"19633	0x7240	牀 (<CJK Ideograph>)";
"19634	0x24974	𤥴 (<CJK Ideograph Extension B>)";
"19635	0x68BD	梽 (<CJK Ideograph>)";
"19636	0x7255	牕 (<CJK Ideograph>)";
"19637	0x7257	牗 (<CJK Ideograph>)";
"19638	0x3E55	㹕 (<CJK Ideograph Extension A>)";
"19639	0x23044	𣁄 (<CJK Ideograph Extension B>)";
"19640	0x680D	栍 (<CJK Ideograph>)";
"19641	0x6F3D	漽 (<CJK Ideograph>)";
"19642	0x7282	犂 (<CJK Ideograph>)";
"19643	0x732A	猪 (<CJK Ideograph>)";
"19644	0x732B	猫 (<CJK Ideograph>)";
"19645	0x24823	𤠣 (<CJK Ideograph Extension B>)";
"19646	0x2882B	𨠫 (<CJK Ideograph Extension B>)";
"19647	0x48ED	䣭 (<CJK Ideograph Extension A>)";
"19648	0x28804	𨠄 (<CJK Ideograph Extension B>)";
"19649	0x7328	猨 (<CJK Ideograph>)";
"19650	0x732E	献 (<CJK Ideograph>)";
"19651	0x73CF	珏 (<CJK Ideograph>)";
"19652	0x73AA	玪 (<CJK Ideograph>)";
"19653	0x20C3A	𠰺 (<CJK Ideograph Extension B>)";
"19654	0x26A2E	𦨮 (<CJK Ideograph Extension B>)";
"19655	0x73C9	珉 (<CJK Ideograph>)";
"19656	0x7449	瑉 (<CJK Ideograph>)";
"19657	0x241E2	𤇢 (<CJK Ideograph Extension B>)";
"19658	0x216E7	𡛧 (<CJK Ideograph Extension B>)";
"19659	0x24A24	𤨤 (<CJK Ideograph Extension B>)";
"19660	0x6623	昣 (<CJK Ideograph>)";
"19661	0x36C5	㛅 (<CJK Ideograph Extension A>)";
"19662	0x249B7	𤦷 (<CJK Ideograph Extension B>)";
"19663	0x2498D	𤦍 (<CJK Ideograph Extension B>)";
"19664	0x249FB	𤧻 (<CJK Ideograph Extension B>)";
"19665	0x73F7	珷 (<CJK Ideograph>)";
"19666	0x7415	琕 (<CJK Ideograph>)";
"19667	0x6903	椃 (<CJK Ideograph>)";
"19668	0x24A26	𤨦 (<CJK Ideograph Extension B>)";
"19669	0x7439	琹 (<CJK Ideograph>)";
"19670	0x205C3	𠗃 (<CJK Ideograph Extension B>)";
"19671	0x3ED7	㻗 (<CJK Ideograph Extension A>)";
"19672	0x745C	瑜 (<CJK Ideograph>)";
"19673	0x228AD	𢢭 (<CJK Ideograph Extension B>)";
"19674	0x7460	瑠 (<CJK Ideograph>)";
"19675	0x28EB2	𨺲 (<CJK Ideograph Extension B>)";
"19676	0x7447	瑇 (<CJK Ideograph>)";
"19677	0x73E4	珤 (<CJK Ideograph>)";
"19678	0x7476	瑶 (<CJK Ideograph>)";
"19679	0x83B9	莹 (<CJK Ideograph>)";
"19680	0x746C	瑬 (<CJK Ideograph>)";
"19681	0x3730	㜰 (<CJK Ideograph Extension A>)";
"19682	0x7474	瑴 (<CJK Ideograph>)";
"19683	0x93F1	鏱 (<CJK Ideograph>)";
"19684	0x6A2C	樬 (<CJK Ideograph>)";
"19685	0x7482	璂 (<CJK Ideograph>)";
"19686	0x4953	䥓 (<CJK Ideograph Extension A>)";
"19687	0x24A8C	𤪌 (<CJK Ideograph Extension B>)";
"19688	0x2415F	𤅟 (<CJK Ideograph Extension B>)";
"19689	0x24A79	𤩹 (<CJK Ideograph Extension B>)";
"19690	0x28B8F	𨮏 (<CJK Ideograph Extension B>)";
"19691	0x5B46	孆 (<CJK Ideograph>)";
"19692	0x28C03	𨰃 (<CJK Ideograph Extension B>)";
"19693	0x2189E	𡢞 (<CJK Ideograph Extension B>)";
"19694	0x74C8	瓈 (<CJK Ideograph>)";
"19695	0x21988	𡦈 (<CJK Ideograph Extension B>)";
"19696	0x750E	甎 (<CJK Ideograph>)";
"19697	0x74E9	瓩 (<CJK Ideograph>)";
"19698	0x751E	甞 (<CJK Ideograph>)";
"19699	0x28ED9	𨻙 (<CJK Ideograph Extension B>)";
"19700	0x21A4B	𡩋 (<CJK Ideograph Extension B>)";
"19701	0x5BD7	寗 (<CJK Ideograph>)";
"19702	0x28EAC	𨺬 (<CJK Ideograph Extension B>)";
"19703	0x9385	鎅 (<CJK Ideograph>)";
"19704	0x754D	畍 (<CJK Ideograph>)";
"19705	0x754A	畊 (<CJK Ideograph>)";
"19706	0x7567	畧 (<CJK Ideograph>)";
"19707	0x756E	畮 (<CJK Ideograph>)";
"19708	0x24F82	𤾂 (<CJK Ideograph Extension B>)";
"19709	0x3F04	㼄 (<CJK Ideograph Extension A>)";
"19710	0x24D13	𤴓 (<CJK Ideograph Extension B>)";
"19711	0x758E	疎 (<CJK Ideograph>)";
"19712	0x745D	瑝 (<CJK Ideograph>)";
"19713	0x759E	疞 (<CJK Ideograph>)";
"19714	0x75B4	疴 (<CJK Ideograph>)";
"19715	0x7602	瘂 (<CJK Ideograph>)";
"19716	0x762C	瘬 (<CJK Ideograph>)";
"19717	0x7651	癑 (<CJK Ideograph>)";
"19718	0x764F	癏 (<CJK Ideograph>)";
"19719	0x766F	癯 (<CJK Ideograph>)";
"19720	0x7676	癶 (<CJK Ideograph>)";
"19721	0x263F5	𦏵 (<CJK Ideograph Extension B>)";
"19722	0x7690	皐 (<CJK Ideograph>)";
"19723	0x81EF	臯 (<CJK Ideograph>)";
"19724	0x37F8	㟸 (<CJK Ideograph Extension A>)";
"19725	0x26911	𦤑 (<CJK Ideograph Extension B>)";
"19726	0x2690E	𦤎 (<CJK Ideograph Extension B>)";
"19727	0x76A1	皡 (<CJK Ideograph>)";
"19728	0x76A5	皥 (<CJK Ideograph>)";
"19729	0x76B7	皷 (<CJK Ideograph>)";
"19730	0x76CC	盌 (<CJK Ideograph>)";
"19731	0x26F9F	𦾟 (<CJK Ideograph Extension B>)";
"19732	0x8462	葢 (<CJK Ideograph>)";
"19733	0x2509D	𥂝 (<CJK Ideograph Extension B>)";
"19734	0x2517D	𥅽 (<CJK Ideograph Extension B>)";
"19735	0x21E1C	𡸜 (<CJK Ideograph Extension B>)";
"19736	0x771E	眞 (<CJK Ideograph>)";
"19737	0x7726	眦 (<CJK Ideograph>)";
"19738	0x7740	着 (<CJK Ideograph>)";
"19739	0x64AF	撯 (<CJK Ideograph>)";
"19740	0x25220	𥈠 (<CJK Ideograph Extension B>)";
"19741	0x7758	睘 (<CJK Ideograph>)";
"19742	0x232AC	𣊬 (<CJK Ideograph Extension B>)";
"19743	0x77AF	瞯 (<CJK Ideograph>)";
"19744	0x28964	𨥤 (<CJK Ideograph Extension B>)";
"19745	0x28968	𨥨 (<CJK Ideograph Extension B>)";
"19746	0x216C1	𡛁 (<CJK Ideograph Extension B>)";
"19747	0x77F4	矴 (<CJK Ideograph>)";
"19748	0x7809	砉 (<CJK Ideograph>)";
"19749	0x21376	𡍶 (<CJK Ideograph Extension B>)";
"19750	0x24A12	𤨒 (<CJK Ideograph Extension B>)";
"19751	0x68CA	棊 (<CJK Ideograph>)";
"19752	0x78AF	碯 (<CJK Ideograph>)";
"19753	0x78C7	磇 (<CJK Ideograph>)";
"19754	0x78D3	磓 (<CJK Ideograph>)";
"19755	0x96A5	隥 (<CJK Ideograph>)";
"19756	0x792E	礮 (<CJK Ideograph>)";
"19757	0x255E0	𥗠 (<CJK Ideograph Extension B>)";
"19758	0x78D7	磗 (<CJK Ideograph>)";
"19759	0x7934	礴 (<CJK Ideograph>)";
"19760	0x78B1	碱 (<CJK Ideograph>)";
"19761	0x2760C	𧘌 (<CJK Ideograph Extension B>)";
"19762	0x8FB8	辸 (<CJK Ideograph>)";
"19763	0x8884	袄 (<CJK Ideograph>)";
"19764	0x28B2B	𨬫 (<CJK Ideograph Extension B>)";
"19765	0x26083	𦂃 (<CJK Ideograph Extension B>)";
"19766	0x2261C	𢘜 (<CJK Ideograph Extension B>)";
"19767	0x7986	禆 (<CJK Ideograph>)";
"19768	0x8900	褀 (<CJK Ideograph>)";
"19769	0x6902	椂 (<CJK Ideograph>)";
"19770	0x7980	禀 (<CJK Ideograph>)";
"19771	0x25857	𥡗 (<CJK Ideograph Extension B>)";
"19772	0x799D	禝 (<CJK Ideograph>)";
"19773	0x27B39	𧬹 (<CJK Ideograph Extension B>)";
"19774	0x793C	礼 (<CJK Ideograph>)";
"19775	0x79A9	禩 (<CJK Ideograph>)";
"19776	0x6E2A	渪 (<CJK Ideograph>)";
"19777	0x27126	𧄦 (<CJK Ideograph Extension B>)";
"19778	0x3EA8	㺨 (<CJK Ideograph Extension A>)";
"19779	0x79C6	秆 (<CJK Ideograph>)";
"19780	0x2910D	𩄍 (<CJK Ideograph Extension B>)";
"19781	0x79D4	秔 (<CJK Ideograph>)"
].
(* /repo/encoding_tables/whatwg/index-big5.txt *)
Definition index_big5_txt : list line :=
  index_big5_txt_0 ++
  index_big5_txt_1 ++
  index_big5_txt_2 ++
  index_big5_txt_3 ++
  index_big5_txt_4 ++
  index_big5_txt_5 ++
  index_big5_txt_6 ++
  index_big5_txt_7 ++
  index_big5_txt_8 ++
  index_big5_txt_9 ++
  index_big5_txt_10 ++
  index_big5_txt_11 ++
  index_big5_txt_12 ++
  index_big5_txt_13 ++
  index_big5_txt_14 ++
  index_big5_txt_15 ++
  index_big5_txt_16 ++
  index_big5_txt_17 ++
  index_big5_txt_18 ++
  index_big5_txt_19 ++
  index_big5_txt_20 ++
  index_big5_txt_21 ++
  index_big5_txt_22 ++
  index_big5_txt_23 ++
  index_big5_txt_24 ++
  index_big5_txt_25 ++
  index_big5_txt_26 ++
  index_big5_txt_27 ++
  index_big5_txt_28 ++
  index_big5_txt_29 ++
  index_big5_txt_30 ++
  index_big5_txt_31 ++
  index_big5_txt_32 ++
  index_big5_txt_33 ++
  index_big5_txt_34 ++
  index_big5_txt_35 ++
  index_big5_txt_36 ++
  index_big5_txt_37 ++
  index_big5_txt_38 ++
  index_big5_txt_39 ++
  index_big5_txt_40 ++
  index_big5_txt_41 ++
  index_big5_txt_42 ++
  index_big5_txt_43 ++
  index_big5_txt_44 ++
  index_big5_txt_45 ++
  index_big5_txt_46 ++
  index_big5_txt_47 ++
  index_big5_txt_48 ++
  index_big5_txt_49 ++
  index_big5_txt_50 ++
  index_big5_txt_51 ++
  index_big5_txt_52 ++
  index_big5_txt_53 ++
  index_big5_txt_54 ++
  index_big5_txt_55 ++
  index_big5_txt_56 ++
  index_big5_txt_57 ++
  index_big5_txt_58 ++
  index_big5_txt_59 ++
  index_big5_txt_60 ++
  index_big5_txt_61 ++
  index_big5_txt_62 ++
  index_big5_txt_63 ++
  index_big5_txt_64 ++
  index_big5_txt_65 ++
  index_big5_txt_66 ++
  index_big5_txt_67 ++
  index_big5_txt_68 ++
  index_big5_txt_69 ++
  index_big5_txt_70 ++
  index_big5_txt_71 ++
  index_big5_txt_72.
Global Opaque index_big5_txt.

(* /repo/src/generated/whatwg/big5_whatwg_tables.rs.inc:1-256 *)
Definition big5_inc_0 : list line := [
"// This file is auto-generated.  Please see `encoding_tables/whatwg/`";
"// from the root directory for the files that generate this.";
"";
"const DECODE_TABLE: [char; 19782] = [";
"    '�','�','�','�','�','�','�','�',";
"    '�','�','�','�','�','�','�','�',";
"    '�','�','�','�','�','�','�','�',";
"    '�','�','�','�','�','�','�','�',";
"    '�','�','�','�','�','�','�','�',";
"    '�','�','�','�','�','�','�','�',";
"    '�','�','�','�','�','�','�','�',";
"    '�','�','�','�','�','�','�','�',";
"    '�','�','�','�','�','�','�','�',";
"    '�','�','�','�','�','�','�','�',";
"    '�','�','�','�','�','�','�','�',";
"    '�','�','�','�','�','�','�','�',";
"    '�','�','�','�','�','�','�','�',";
"    '�','�','�','�','�','�','�','�',";
"    '�','�','�','�','�','�','�','�',";
"    '�','�','�','�','�','�','�','�',";
"    '�','�','�','�','�','�','�','�',";
"    '�','�','�','�','�','�','�','�',";
"    '�','�','�','�','�','�','�','�',";
"    '�','�','�','�','�','�','�','�',";
"    '�','�','�','�','�','�','�','�',";
"    '�','�','�','�','�','�','�','�',";
"    '�','�','�','�','�','�','�','�',";
"    '�','�','�','�','�','�','�','�',";
"    '�','�','�','�','�','�','�','�',";
"    '�','�','�','�','�','�','�','�',";
"    '�','�','�','�','�','�','�','�',";
"    '�','�','�','�','�','�','�','�',";
"    '�','�','�','�','�','�','�','�',";
"    '�','�','�','�','�','�','�','�',";
"    '�','�','�','�','�','�','�','�',";
"    '�','�','�','�','�','�','�','�',";
"    '�','�','�','�','�','�','�','�',";
"    '�','�','�','�','�','�','�','�',";
"    '�','�','�','�','�','�','�','�',";
"    '�','�','�','�','�','�','�','�',";
"    '�','�','�','�','�','�','�','�',";
"    '�','�','�','�','�','�','�','�',";
"    '�','�','�','�','�','�','�','�',";
"    '�','�','�','�','�','�','�','�',";
"    '�','�','�','�','�','�','�','�',";
"    '�','�','�','�','�','�','�','�',";
"    '�','�','�','�','�','�','�','�',";
"    '�','�','�','�','�','�','�','�',";
"    '�','�','�','�','�','�','�','�',";
"    '�','�','�','�','�','�','�','�',";
"    '�','�','�','�','�','�','�','�',";
"    '�','�','�','�','�','�','�','�',";
"    '�','�','�','�','�','�','�','�',";
"    '�','�','�','�','�','�','�','�',";
"    '�','�','�','�','�','�','�','�',";
"    '�','�','�','�','�','�','�','�',";
"    '�','�','�','�','�','�','�','�',";
"    '�','�','�','�','�','�','�','�',";
"    '�','�','�','�','�','�','�','�',";
"    '�','�','�','�','�','�','�','�',";
"    '�','�','�','�','�','�','�','�',";
"    '�','�','�','�','�','�','�','�',";
"    '�','�','�','�','�','�','�','�',";
"    '�','�','�','�','�','�','�','�',";
"    '�','�','�','�','�','�','�','�',";
"    '�','�','�','�','�','�','�','�',";
"    '�','�','�','�','�','�','�','�',";
"    '�','�','�','�','�','�','�','�',";
"    '�','�','�','�','�','�','�','�',";
"    '�','�','�','�','�','�','�','�',";
"    '�','�','�','�','�','�','�','�',";
"    '�','�','�','�','�','�','�','�',";
"    '�','�','�','�','�','�','�','�',";
"    '�','�','�','�','�','�','�','�',";
"    '�','�','�','�','�','�','�','�',";
"    '�','�','�','�','�','�','�','�',";
"    '�','�','�','�','�','�','�','�',";
"    '�','�','�','�','�','�','�','�',";
"    '�','�','�','�','�','�','�','�',";
"    '�','�','�','�','�','�','�','�',";
"    '�','�','�','�','�','�','�','�',";
"    '�','�','�','�','�','�','�','�',";
"    '�','�','�','�','�','�','�','�',";
"    '�','�','�','�','�','�','�','�',";
"    '�','�','�','�','�','�','�','�',";
"    '�','�','�','�','�','�','�','�',";
"    '�','�','�','�','�','�','�','�',";
"    '�','�','�','�','�','�','�','�',";
"    '�','�','�','�','�','�','�','�',";
"    '�','�','�','�','�','�','�','�',";
"    '�','�','�','�','�','�','�','�',";
"    '�','�','�','�','�','�','�','�',";
"    '�','�','�','�','�','�','�','�',";
"    '�','�','�','�','�','�','�','�',";
"    '�','�','�','�','�','�','�','�',";
"    '�','�','�','�','�','�','�','�',";
"    '�','�','�','�','�','�','�','�',";
"    '�','�','�','�','�','�','�','�',";
"    '�','�','�','�','�','�','�','�',";
"    '�','�','�','�','�','�','�','�',";
"    '�','�','�','�','�','�','�','�',";
"    '�','�','�','�','�','�','�','�',";
"    '�','�','�','�','�','�','�','�',";
"    '�','�','�','�','�','�','�','�',";
"    '�','�','�','�','�','�','�','�',";
"    '�','�','�','�','�','�','�','�',";
"    '�','�','�','�','�','�','�','�',";
"    '�','�','�','�','�','�','�','�',";
"    '�','�','�','�','�','�','�','�',";
"    '�','�','�','�','�','�','�','�',";
"    '�','�','�','�','�','�','�','�',";
"    '�','�','�','�','�','�','�','�',";
"    '�','�','�','�','�','�','�','�',";
"    '�','�','�','�','�','�','�','�',";
"    '�','�','�','�','�','�','�','�',";
"    '�','�','�','�','�','�','�','�',";
"    '�','�','�','�','�','�','�','�',";
"    '�','�','�','�','�','�','�','�',";
"    '�','�','�','�','�','�','�','�',";
"    '�','�','�','�','�','�','�','�',";
"    '�','�','�','�','�','�','�','�',";
"    '�','�','�','�','�','�','\u{43F0}','\u{4C32}',";
"    '\u{4603}','\u{45A6}','\u{4578}','\u{27267}','\u{4D77}','\u{45B3}','\u{27CB1}','\u{4CE2}',";
"    '\u{27CC5}','\u{3B95}','\u{4736}','\u{4744}','\u{4C47}','\u{4C40}','\u{242BF}','\u{23617}',";
"    '\u{27352}','\u{26E8B}','\u{270D2}','\u{4C57}','\u{2A351}','\u{474F}','\u{45DA}','\u{4C85}',";
"    '\u{27C6C}','\u{4D07}','\u{4AA4}','\u{46A1}','\u{26B23}','\u{7225}','\u{25A54}','\u{21A63}',";
"    '\u{23E06}','\u{23F61}','\u{664D}','\u{56FB}','�','\u{7D95}','\u{591D}','\u{28BB9}',";
"    '\u{3DF4}','\u{9734}','\u{27BEF}','\u{5BDB}','\u{21D5E}','\u{5AA4}','\u{3625}','\u{29EB0}',";
"    '\u{5AD1}','\u{5BB7}','\u{5CFC}','\u{676E}','\u{8593}','\u{29945}','\u{7461}','\u{749D}',";
"    '\u{3875}','\u{21D53}','\u{2369E}','\u{26021}','\u{3EEC}','\u{258DE}','\u{3AF5}','\u{7AFC}',";
"    '\u{9F97}','\u{24161}','\u{2890D}','\u{231EA}','\u{20A8A}','\u{2325E}','\u{430A}','\u{8484}',";
"    '\u{9F96}','\u{942F}','\u{4930}','\u{8613}','\u{5896}','\u{974A}','\u{9218}','\u{79D0}',";
"    '\u{7A32}','\u{6660}','\u{6A29}','\u{889D}','\u{744C}','\u{7BC5}','\u{6782}','\u{7A2C}',";
"    '\u{524F}','\u{9046}','\u{34E6}','\u{73C4}','\u{25DB9}','\u{74C6}','\u{9FC7}','\u{57B3}',";
"    '\u{492F}','\u{544C}','\u{4131}','\u{2368E}','\u{5818}','\u{7A72}','\u{27B65}','\u{8B8F}',";
"    '\u{46AE}','\u{26E88}','\u{4181}','\u{25D99}','\u{7BAE}','\u{224BC}','\u{9FC8}','\u{224C1}',";
"    '\u{224C9}','\u{224CC}','\u{9FC9}','\u{8504}','\u{235BB}','\u{40B4}','\u{9FCA}','\u{44E1}',";
"    '\u{2ADFF}','\u{62C1}','\u{706E}','\u{9FCB}','�','�','�','�',";
"    '�','�','�','�','�','�','�','�',";
"    '�','�','�','�','�','�','�','�',";
"    '�','�','�','�','�','�','�','�',";
"    '�','�','�','\u{31C0}','\u{31C1}','\u{31C2}','\u{31C3}','\u{31C4}',";
"    '\u{2010C}','\u{31C5}','\u{200D1}','\u{200CD}','\u{31C6}','\u{31C7}','\u{200CB}','\u{21FE8}',";
"    '\u{31C8}','\u{200CA}','\u{31C9}','\u{31CA}','\u{31CB}','\u{31CC}','\u{2010E}','\u{31CD}',";
"    '\u{31CE}','\u{0100}','\u{00C1}','\u{01CD}','\u{00C0}','\u{0112}','\u{00C9}','\u{011A}',";
"    '\u{00C8}','\u{014C}','\u{00D3}','\u{01D1}','\u{00D2}','�','\u{1EBE}','�',";
"    '\u{1EC0}','\u{00CA}','\u{0101}','\u{00E1}','\u{01CE}','\u{00E0}','\u{0251}','\u{0113}',";
"    '\u{00E9}','\u{011B}','\u{00E8}','\u{012B}','\u{00ED}','\u{01D0}','\u{00EC}','\u{014D}',";
"    '\u{00F3}','\u{01D2}','\u{00F2}','\u{016B}','\u{00FA}','\u{01D4}','\u{00F9}','\u{01D6}',";
"    '\u{01D8}','\u{01DA}','\u{01DC}','\u{00FC}','�','\u{1EBF}','�','\u{1EC1}',";
"    '\u{00EA}','\u{0261}','\u{23DA}','\u{23DB}','�','�','�','�',";
"    '�','�','�','�','�','�','�','�',";
"    '�','�','�','�','�','�','�','�',";
"    '�','�','�','�','�','�','�','�',";
"    '�','�','�','�','�','�','�','�',";
"    '�','�','�','�','�','�','�','�',";
"    '�','�','�','�','�','�','�','�',";
"    '�','�','�','�','�','�','�','�',";
"    '�','�','�','�','�','�','�','�',";
"    '�','�','�','�','�','�','�','�',";
"    '�','�','�','�','�','�','�','�',";
"    '\u{2A3A9}','\u{21145}','�','\u{650A}','�','�','\u{4E3D}','\u{6EDD}',";
"    '\u{9D4E}','\u{91DF}','�','�','\u{27735}','\u{6491}','\u{4F1A}','\u{4F28}',";
"    '\u{4FA8}','\u{5156}','\u{5174}','\u{519C}','\u{51E4}','\u{52A1}','\u{52A8}','\u{533B}',";
"    '\u{534E}','\u{53D1}','\u{53D8}','\u{56E2}','\u{58F0}','\u{5904}','\u{5907}','\u{5932}',";
"    '\u{5934}','\u{5B66}','\u{5B9E}','\u{5B9F}','\u{5C9A}','\u{5E86}','\u{603B}','\u{6589}',";
"    '\u{67FE}','\u{6804}','\u{6865}','\u{6D4E}','\u{70BC}','\u{7535}','\u{7EA4}','\u{7EAC}',";
"    '\u{7EBA}','\u{7EC7}','\u{7ECF}','\u{7EDF}','\u{7F06}','\u{7F37}','\u{827A}','\u{82CF}',";
"    '\u{836F}','\u{89C6}','\u{8BBE}','\u{8BE2}','\u{8F66}','\u{8F67}','\u{8F6E}','\u{7411}',";
"    '\u{7CFC}','\u{7DCD}','\u{6946}','\u{7AC9}','\u{5227}','�','�','�',";
"    '�','\u{918C}','\u{78B8}','\u{915E}','\u{80BC}','�','\u{8D0B}','\u{80F6}',";
"    '\u{209E7}','�','�','\u{809F}','\u{9EC7}','\u{4CCD}','\u{9DC9}','\u{9E0C}',";
"    '\u{4C3E}','\u{29DF6}','\u{2700E}','\u{9E0A}','\u{2A133}','\u{35C1}','�','\u{6E9A}',";
"    '\u{823E}','\u{7519}','�','\u{4911}','\u{9A6C}','\u{9A8F}','\u{9F99}','\u{7987}',";
"    '\u{2846C}','\u{21DCA}','\u{205D0}','\u{22AE6}','\u{4E24}','\u{4E81}','\u{4E80}','\u{4E87}',";
"    '\u{4EBF}','\u{4EEB}','\u{4F37}','\u{344C}','\u{4FBD}','\u{3E48}','\u{5003}','\u{5088}',";
"    '\u{347D}','\u{3493}','\u{34A5}','\u{5186}','\u{5905}','\u{51DB}','\u{51FC}','\u{5205}',";
"    '\u{4E89}','\u{5279}','\u{5290}','\u{5327}','\u{35C7}','\u{53A9}','\u{3551}','\u{53B0}',";
"    '\u{3553}','\u{53C2}','\u{5423}','\u{356D}','\u{3572}','\u{3681}','\u{5493}','\u{54A3}',";
"    '\u{54B4}','\u{54B9}','\u{54D0}','\u{54EF}','\u{5518}','\u{5523}','\u{5528}','\u{3598}',";
"    '\u{553F}','\u{35A5}','\u{35BF}','\u{55D7}','\u{35C5}','\u{27D84}','\u{5525}','�',";
"    '\u{20C42}','\u{20D15}','\u{2512B}','\u{5590}','\u{22CC6}','\u{39EC}','\u{20341}','\u{8E46}',";
"    '\u{24DB8}','\u{294E5}','\u{4053}','\u{280BE}','\u{777A}','\u{22C38}','\u{3A34}','\u{47D5}',";
"    '\u{2815D}','\u{269F2}','\u{24DEA}','\u{64DD}','\u{20D7C}','\u{20FB4}','\u{20CD5}','\u{210F4}',";
"    '\u{648D}','\u{8E7E}','\u{20E96}','\u{20C0B}','\u{20F64}','\u{22CA9}','\u{28256}','\u{244D3}',";
"    '�','\u{20D46}','\u{29A4D}','\u{280E9}','\u{47F4}','\u{24EA7}','\u{22CC2}','\u{9AB2}',";
"    '\u{3A67}','\u{295F4}','\u{3FED}','\u{3506}','\u{252C7}','\u{297D4}','\u{278C8}','\u{22D44}',";
"    '\u{9D6E}','\u{9815}','�','\u{43D9}','\u{260A5}','\u{64B4}','\u{54E3}','\u{22D4C}',";
"    '\u{22BCA}','\u{21077}','\u{39FB}','\u{2106F}','\u{266DA}','\u{26716}','\u{279A0}','\u{64EA}',";
"    '\u{25052}','\u{20C43}','\u{8E68}','\u{221A1}','\u{28B4C}','\u{20731}','�','\u{480B}',";
"    '\u{201A9}','\u{3FFA}','\u{5873}','\u{22D8D}','�','\u{245C8}','\u{204FC}','\u{26097}',";
"    '\u{20F4C}','\u{20D96}','\u{5579}','\u{40BB}','\u{43BA}','�','\u{4AB4}','\u{22A66}',";
"    '\u{2109D}','\u{81AA}','\u{98F5}','\u{20D9C}','\u{6379}','\u{39FE}','\u{22775}','\u{8DC0}',";
"    '\u{56A1}','\u{647C}','\u{3E43}','�','\u{2A601}','\u{20E09}','\u{22ACF}','\u{22CC9}',";
"    '�','\u{210C8}','\u{239C2}','\u{3992}','\u{3A06}','\u{2829B}','\u{3578}','\u{25E49}',";
"    '\u{220C7}','\u{5652}','\u{20F31}','\u{22CB2}','\u{29720}','\u{34BC}','\u{6C3D}','\u{24E3B}',";
"    '�','�','\u{27574}','\u{22E8B}','\u{22208}','\u{2A65B}','\u{28CCD}','\u{20E7A}',";
"    '\u{20C34}','\u{2681C}','\u{7F93}','\u{210CF}','\u{22803}','\u{22939}','\u{35FB}','\u{251E3}',";
"    '\u{20E8C}','\u{20F8D}','\u{20EAA}','\u{3F93}','\u{20F30}','\u{20D47}','\u{2114F}','\u{20E4C}',";
"    '�','\u{20EAB}','\u{20BA9}','\u{20D48}','\u{210C0}','\u{2113D}','\u{3FF9}','\u{22696}',";
"    '\u{6432}','\u{20FAD}','\u{233F4}','\u{27639}','\u{22BCE}','\u{20D7E}','\u{20D7F}','\u{22C51}',";
"    '\u{22C55}','\u{3A18}','\u{20E98}','\u{210C7}','\u{20F2E}','\u{2A632}','\u{26B50}','\u{28CD2}',";
"    '\u{28D99}','\u{28CCA}','\u{95AA}','\u{54CC}','\u{82C4}','\u{55B9}','�','\u{29EC3}',";
"    '\u{9C26}','\u{9AB6}','\u{2775E}','\u{22DEE}','\u{7140}','\u{816D}','\u{80EC}','\u{5C1C}',";
"    '\u{26572}','\u{8134}','\u{3797}','\u{535F}','\u{280BD}','\u{91B6}','\u{20EFA}','\u{20E0F}',";
"    '\u{20E77}','\u{20EFB}','\u{35DD}','\u{24DEB}','\u{3609}','\u{20CD6}','\u{56AF}','\u{227B5}',";
"    '\u{210C9}','\u{20E10}','\u{20E78}','\u{21078}','\u{21148}','\u{28207}','\u{21455}','\u{20E79}',";
"    '\u{24E50}','\u{22DA4}','\u{5A54}','\u{2101D}','\u{2101E}','\u{210F5}','\u{210F6}','\u{579C}',";
"    '\u{20E11}','\u{27694}','\u{282CD}','\u{20FB5}','\u{20E7B}','\u{2517E}','\u{3703}','\u{20FB6}',";
"    '\u{21180}','\u{252D8}','\u{2A2BD}','\u{249DA}','\u{2183A}','\u{24177}','\u{2827C}','\u{5899}',";
"    '\u{5268}','\u{361A}','\u{2573D}','\u{7BB2}','\u{5B68}','\u{4800}','\u{4B2C}','\u{9F27}',";
"    '\u{49E7}','\u{9C1F}','\u{9B8D}','\u{25B74}','\u{2313D}','\u{55FB}','\u{35F2}','\u{5689}',";
"    '\u{4E28}','\u{5902}','\u{21BC1}','\u{2F878}','\u{9751}','\u{20086}','\u{4E5B}','\u{4EBB}',";
"    '\u{353E}','\u{5C23}','\u{5F51}','\u{5FC4}','\u{38FA}','\u{624C}','\u{6535}','\u{6B7A}',";
"    '\u{6C35}','\u{6C3A}','\u{706C}','\u{722B}','\u{4E2C}','\u{72AD}','\u{248E9}','\u{7F52}',";
"    '\u{793B}','\u{7CF9}','\u{7F53}','\u{2626A}','\u{34C1}','�','\u{2634B}','\u{8002}',";
"    '\u{8080}','\u{26612}','\u{26951}','\u{535D}','\u{8864}','\u{89C1}','\u{278B2}','\u{8BA0}',";
"    '\u{8D1D}','\u{9485}','\u{9578}','\u{957F}','\u{95E8}','\u{28E0F}','\u{97E6}','\u{9875}',";
"    '\u{98CE}','\u{98DE}','\u{9963}','\u{29810}','\u{9C7C}','\u{9E1F}','\u{9EC4}','\u{6B6F}',";
"    '\u{F907}','\u{4E37}','\u{20087}','\u{961D}','\u{6237}','\u{94A2}','�','\u{503B}',";
"    '\u{6DFE}','\u{29C73}','\u{9FA6}','\u{3DC9}','\u{888F}','\u{2414E}','\u{7077}','\u{5CF5}',";
"    '\u{4B20}','\u{251CD}','\u{3559}','\u{25D30}','\u{6122}','\u{28A32}','\u{8FA7}','\u{91F6}',";
"    '\u{7191}','\u{6719}','\u{73BA}','\u{23281}','\u{2A107}','\u{3C8B}','\u{21980}','\u{4B10}',";
"    '\u{78E4}','\u{7402}','\u{51AE}','\u{2870F}','\u{4009}','\u{6A63}','\u{2A2BA}','\u{4223}',";
"    '\u{860F}','\u{20A6F}','\u{7A2A}','\u{29947}','\u{28AEA}','\u{9755}','\u{704D}','\u{5324}',";
"    '\u{2207E}','\u{93F4}','\u{76D9}','\u{289E3}','\u{9FA7}','\u{77DD}','\u{4EA3}','\u{4FF0}',";
"    '\u{50BC}','\u{4E2F}','\u{4F17}','\u{9FA8}','\u{5434}','\u{7D8B}','\u{5892}','\u{58D0}',";
"    '\u{21DB6}','\u{5E92}','\u{5E99}','\u{5FC2}','\u{22712}','\u{658B}','\u{233F9}','\u{6919}',";
"    '\u{6A43}','\u{23C63}','\u{6CFF}','�','\u{7200}','\u{24505}','\u{738C}','\u{3EDB}',";
"    '\u{24A13}','\u{5B15}','\u{74B9}','\u{8B83}','\u{25CA4}','\u{25695}','\u{7A93}','\u{7BEC}',";
"    '\u{7CC3}','\u{7E6C}','\u{82F8}','\u{8597}','\u{9FA9}','\u{8890}','\u{9FAA}','\u{8EB9}',";
"    '\u{9FAB}','\u{8FCF}','\u{855F}','\u{99E0}','\u{9221}','\u{9FAC}','\u{28DB9}','\u{2143F}',";
"    '\u{4071}','\u{42A2}','\u{5A1A}','�','�','�','\u{9868}','\u{676B}',";
"    '\u{4276}','\u{573D}','�','\u{85D6}','\u{2497B}','\u{82BF}','\u{2710D}','\u{4C81}',";
"    '\u{26D74}','\u{5D7B}','\u{26B15}','\u{26FBE}','\u{9FAD}','\u{9FAE}','\u{5B96}','\u{9FAF}',";
"    '\u{66E7}','\u{7E5B}','\u{6E57}','\u{79CA}','\u{3D88}','\u{44C3}','\u{23256}','\u{22796}',";
"    '\u{439A}','\u{4536}','�','\u{5CD5}','\u{23B1A}','\u{8AF9}','\u{5C78}','\u{3D12}',";
"    '\u{23551}','\u{5D78}','\u{9FB2}','\u{7157}','\u{4558}','\u{240EC}','\u{21E23}','\u{4C77}',";
"    '\u{3978}','\u{344A}','\u{201A4}','\u{26C41}','\u{8ACC}','\u{4FB4}','\u{20239}','\u{59BF}',";
"    '\u{816C}','\u{9856}','\u{298FA}','\u{5F3B}','\u{20B9F}','�','\u{221C1}','\u{2896D}',";
"    '\u{4102}','\u{46BB}','\u{29079}','\u{3F07}','\u{9FB3}','\u{2A1B5}','\u{40F8}','\u{37D6}',";
"    '\u{46F7}','\u{26C46}','\u{417C}','\u{286B2}','\u{273FF}','\u{456D}','\u{38D4}','\u{2549A}',";
"    '\u{4561}','\u{451B}','\u{4D89}','\u{4C7B}','\u{4D76}','\u{45EA}','\u{3FC8}','\u{24B0F}',";
"    '\u{3661}','\u{44DE}','\u{44BD}','\u{41ED}','\u{5D3E}','\u{5D48}','\u{5D56}','\u{3DFC}',";
"    '\u{380F}','\u{5DA4}','\u{5DB9}','\u{3820}','\u{3838}','\u{5E42}','\u{5EBD}','\u{5F25}',";
"    '\u{5F83}','\u{3908}','\u{3914}','\u{393F}','\u{394D}','\u{60D7}','\u{613D}','\u{5CE5}',";
"    '\u{3989}','\u{61B7}','\u{61B9}','\u{61CF}','\u{39B8}','\u{622C}','\u{6290}','\u{62E5}',";
"    '\u{6318}','\u{39F8}','\u{56B1}','\u{3A03}','\u{63E2}','\u{63FB}','\u{6407}','\u{645A}',";
"    '\u{3A4B}','\u{64C0}','\u{5D15}','\u{5621}','\u{9F9F}','\u{3A97}','\u{6586}','\u{3ABD}',";
"    '\u{65FF}','\u{6653}','\u{3AF2}','\u{6692}','\u{3B22}','\u{6716}','\u{3B42}','\u{67A4}',";
"    '\u{6800}','\u{3B58}','\u{684A}','\u{6884}','\u{3B72}','\u{3B71}','\u{3B7B}','\u{6909}',";
"    '\u{6943}','\u{725C}','\u{6964}','\u{699F}','\u{6985}','\u{3BBC}','\u{69D6}','\u{3BDD}',";
"    '\u{6A65}','\u{6A74}','\u{6A71}','\u{6A82}','\u{3BEC}','\u{6A99}','\u{3BF2}','\u{6AAB}',";
"    '\u{6AB5}','\u{6AD4}','\u{6AF6}','\u{6B81}','\u{6BC1}','\u{6BEA}','\u{6C75}','\u{6CAA}',";
"    '\u{3CCB}','\u{6D02}','\u{6D06}','\u{6D26}','\u{6D81}','\u{3CEF}','\u{6DA4}','\u{6DB1}',";
"    '\u{6E15}','\u{6E18}','\u{6E29}','\u{6E86}','\u{289C0}','\u{6EBB}','\u{6EE2}','\u{6EDA}',"
].
(* /repo/src/generated/whatwg/big5_whatwg_tables.rs.inc:257-512 *)
Definition big5_inc_1 : list line := [
"    '\u{9F7F}','\u{6EE8}','\u{6EE9}','\u{6F24}','\u{6F34}','\u{3D46}','\u{23F41}','\u{6F81}',";
"    '\u{6FBE}','\u{3D6A}','\u{3D75}','\u{71B7}','\u{5C99}','\u{3D8A}','\u{702C}','\u{3D91}',";
"    '\u{7050}','\u{7054}','\u{706F}','\u{707F}','\u{7089}','\u{20325}','\u{43C1}','\u{35F1}',";
"    '\u{20ED8}','\u{23ED7}','\u{57BE}','\u{26ED3}','\u{713E}','\u{257E0}','\u{364E}','\u{69A2}',";
"    '\u{28BE9}','\u{5B74}','\u{7A49}','\u{258E1}','\u{294D9}','\u{7A65}','\u{7A7D}','\u{259AC}',";
"    '\u{7ABB}','\u{7AB0}','\u{7AC2}','\u{7AC3}','\u{71D1}','\u{2648D}','\u{41CA}','\u{7ADA}',";
"    '\u{7ADD}','\u{7AEA}','\u{41EF}','\u{54B2}','\u{25C01}','\u{7B0B}','\u{7B55}','\u{7B29}',";
"    '\u{2530E}','\u{25CFE}','\u{7BA2}','\u{7B6F}','\u{839C}','\u{25BB4}','\u{26C7F}','\u{7BD0}',";
"    '\u{8421}','\u{7B92}','\u{7BB8}','\u{25D20}','\u{3DAD}','\u{25C65}','\u{8492}','\u{7BFA}',";
"    '\u{7C06}','\u{7C35}','\u{25CC1}','\u{7C44}','\u{7C83}','\u{24882}','\u{7CA6}','\u{667D}',";
"    '\u{24578}','\u{7CC9}','\u{7CC7}','\u{7CE6}','\u{7C74}','\u{7CF3}','\u{7CF5}','\u{7CCE}',";
"    '\u{7E67}','\u{451D}','\u{26E44}','\u{7D5D}','\u{26ED6}','\u{748D}','\u{7D89}','\u{7DAB}',";
"    '\u{7135}','\u{7DB3}','\u{7DD2}','\u{24057}','\u{26029}','\u{7DE4}','\u{3D13}','\u{7DF5}',";
"    '\u{217F9}','\u{7DE5}','\u{2836D}','\u{7E1D}','\u{26121}','\u{2615A}','\u{7E6E}','\u{7E92}',";
"    '\u{432B}','\u{946C}','\u{7E27}','\u{7F40}','\u{7F41}','\u{7F47}','\u{7936}','\u{262D0}',";
"    '\u{99E1}','\u{7F97}','\u{26351}','\u{7FA3}','\u{21661}','\u{20068}','\u{455C}','\u{23766}',";
"    '\u{4503}','\u{2833A}','\u{7FFA}','\u{26489}','\u{8005}','\u{8008}','\u{801D}','\u{8028}',";
"    '\u{802F}','\u{2A087}','\u{26CC3}','\u{803B}','\u{803C}','\u{8061}','\u{22714}','\u{4989}',";
"    '\u{26626}','\u{23DE3}','\u{266E8}','\u{6725}','\u{80A7}','\u{28A48}','\u{8107}','\u{811A}',";
"    '\u{58B0}','\u{226F6}','\u{6C7F}','\u{26498}','\u{24FB8}','\u{64E7}','\u{2148A}','\u{8218}',";
"    '\u{2185E}','\u{6A53}','\u{24A65}','\u{24A95}','\u{447A}','\u{8229}','\u{20B0D}','\u{26A52}',";
"    '\u{23D7E}','\u{4FF9}','\u{214FD}','\u{84E2}','\u{8362}','\u{26B0A}','\u{249A7}','\u{23530}',";
"    '\u{21773}','\u{23DF8}','\u{82AA}','\u{691B}','\u{2F994}','\u{41DB}','\u{854B}','\u{82D0}',";
"    '\u{831A}','\u{20E16}','\u{217B4}','\u{36C1}','\u{2317D}','\u{2355A}','\u{827B}','\u{82E2}',";
"    '\u{8318}','\u{23E8B}','\u{26DA3}','\u{26B05}','\u{26B97}','\u{235CE}','\u{3DBF}','\u{831D}',";
"    '\u{55EC}','\u{8385}','\u{450B}','\u{26DA5}','\u{83AC}','\u{83C1}','\u{83D3}','\u{347E}',";
"    '\u{26ED4}','\u{6A57}','\u{855A}','\u{3496}','\u{26E42}','\u{22EEF}','\u{8458}','\u{25BE4}',";
"    '\u{8471}','\u{3DD3}','\u{44E4}','\u{6AA7}','\u{844A}','\u{23CB5}','\u{7958}','\u{84A8}',";
"    '\u{26B96}','\u{26E77}','\u{26E43}','\u{84DE}','\u{840F}','\u{8391}','\u{44A0}','\u{8493}',";
"    '\u{84E4}','\u{25C91}','\u{4240}','\u{25CC0}','\u{4543}','\u{8534}','\u{5AF2}','\u{26E99}',";
"    '\u{4527}','\u{8573}','\u{4516}','\u{67BF}','\u{8616}','\u{28625}','\u{2863B}','\u{85C1}',";
"    '\u{27088}','\u{8602}','\u{21582}','\u{270CD}','\u{2F9B2}','\u{456A}','\u{8628}','\u{3648}',";
"    '\u{218A2}','\u{53F7}','\u{2739A}','\u{867E}','\u{8771}','\u{2A0F8}','\u{87EE}','\u{22C27}',";
"    '\u{87B1}','\u{87DA}','\u{880F}','\u{5661}','\u{866C}','\u{6856}','\u{460F}','\u{8845}',";
"    '\u{8846}','\u{275E0}','\u{23DB9}','\u{275E4}','\u{885E}','\u{889C}','\u{465B}','\u{88B4}',";
"    '\u{88B5}','\u{63C1}','\u{88C5}','\u{7777}','\u{2770F}','\u{8987}','\u{898A}','\u{89A6}',";
"    '\u{89A9}','\u{89A7}','\u{89BC}','\u{28A25}','\u{89E7}','\u{27924}','\u{27ABD}','\u{8A9C}',";
"    '\u{7793}','\u{91FE}','\u{8A90}','\u{27A59}','\u{7AE9}','\u{27B3A}','\u{23F8F}','\u{4713}',";
"    '\u{27B38}','\u{717C}','\u{8B0C}','\u{8B1F}','\u{25430}','\u{25565}','\u{8B3F}','\u{8B4C}',";
"    '\u{8B4D}','\u{8AA9}','\u{24A7A}','\u{8B90}','\u{8B9B}','\u{8AAF}','\u{216DF}','\u{4615}',";
"    '\u{884F}','\u{8C9B}','\u{27D54}','\u{27D8F}','\u{2F9D4}','\u{3725}','\u{27D53}','\u{8CD6}',";
"    '\u{27D98}','\u{27DBD}','\u{8D12}','\u{8D03}','\u{21910}','\u{8CDB}','\u{705C}','\u{8D11}',";
"    '\u{24CC9}','\u{3ED0}','\u{8D77}','\u{8DA9}','\u{28002}','\u{21014}','\u{2498A}','\u{3B7C}',";
"    '\u{281BC}','\u{2710C}','\u{7AE7}','\u{8EAD}','\u{8EB6}','\u{8EC3}','\u{92D4}','\u{8F19}',";
"    '\u{8F2D}','\u{28365}','\u{28412}','\u{8FA5}','\u{9303}','\u{2A29F}','\u{20A50}','\u{8FB3}',";
"    '\u{492A}','\u{289DE}','\u{2853D}','\u{23DBB}','\u{5EF8}','\u{23262}','\u{8FF9}','\u{2A014}',";
"    '\u{286BC}','\u{28501}','\u{22325}','\u{3980}','\u{26ED7}','\u{9037}','\u{2853C}','\u{27ABE}',";
"    '\u{9061}','\u{2856C}','\u{2860B}','\u{90A8}','\u{28713}','\u{90C4}','\u{286E6}','\u{90AE}',";
"    '\u{90FD}','\u{9167}','\u{3AF0}','\u{91A9}','\u{91C4}','\u{7CAC}','\u{28933}','\u{21E89}',";
"    '\u{920E}','\u{6C9F}','\u{9241}','\u{9262}','\u{255B9}','\u{92B9}','\u{28AC6}','\u{23C9B}',";
"    '\u{28B0C}','\u{255DB}','\u{20D31}','\u{932C}','\u{936B}','\u{28AE1}','\u{28BEB}','\u{708F}',";
"    '\u{5AC3}','\u{28AE2}','\u{28AE5}','\u{4965}','\u{9244}','\u{28BEC}','\u{28C39}','\u{28BFF}',";
"    '\u{9373}','\u{945B}','\u{8EBC}','\u{9585}','\u{95A6}','\u{9426}','\u{95A0}','\u{6FF6}',";
"    '\u{42B9}','\u{2267A}','\u{286D8}','\u{2127C}','\u{23E2E}','\u{49DF}','\u{6C1C}','\u{967B}',";
"    '\u{9696}','\u{416C}','\u{96A3}','\u{26ED5}','\u{61DA}','\u{96B6}','\u{78F5}','\u{28AE0}',";
"    '\u{96BD}','\u{53CC}','\u{49A1}','\u{26CB8}','\u{20274}','\u{26410}','\u{290AF}','\u{290E5}',";
"    '\u{24AD1}','\u{21915}','\u{2330A}','\u{9731}','\u{8642}','\u{9736}','\u{4A0F}','\u{453D}',";
"    '\u{4585}','\u{24AE9}','\u{7075}','\u{5B41}','\u{971B}','\u{975C}','\u{291D5}','\u{9757}',";
"    '\u{5B4A}','\u{291EB}','\u{975F}','\u{9425}','\u{50D0}','\u{230B7}','\u{230BC}','\u{9789}',";
"    '\u{979F}','\u{97B1}','\u{97BE}','\u{97C0}','\u{97D2}','\u{97E0}','\u{2546C}','\u{97EE}',";
"    '\u{741C}','\u{29433}','\u{97FF}','\u{97F5}','\u{2941D}','\u{2797A}','\u{4AD1}','\u{9834}',";
"    '\u{9833}','\u{984B}','\u{9866}','\u{3B0E}','\u{27175}','\u{3D51}','\u{20630}','\u{2415C}',";
"    '\u{25706}','\u{98CA}','\u{98B7}','\u{98C8}','\u{98C7}','\u{4AFF}','\u{26D27}','\u{216D3}',";
"    '\u{55B0}','\u{98E1}','\u{98E6}','\u{98EC}','\u{9378}','\u{9939}','\u{24A29}','\u{4B72}',";
"    '\u{29857}','\u{29905}','\u{99F5}','\u{9A0C}','\u{9A3B}','\u{9A10}','\u{9A58}','\u{25725}',";
"    '\u{36C4}','\u{290B1}','\u{29BD5}','\u{9AE0}','\u{9AE2}','\u{29B05}','\u{9AF4}','\u{4C0E}',";
"    '\u{9B14}','\u{9B2D}','\u{28600}','\u{5034}','\u{9B34}','\u{269A8}','\u{38C3}','\u{2307D}',";
"    '\u{9B50}','\u{9B40}','\u{29D3E}','\u{5A45}','\u{21863}','\u{9B8E}','\u{2424B}','\u{9C02}',";
"    '\u{9BFF}','\u{9C0C}','\u{29E68}','\u{9DD4}','\u{29FB7}','\u{2A192}','\u{2A1AB}','\u{2A0E1}',";
"    '\u{2A123}','\u{2A1DF}','\u{9D7E}','\u{9D83}','\u{2A134}','\u{9E0E}','\u{6888}','\u{9DC4}',";
"    '\u{2215B}','\u{2A193}','\u{2A220}','\u{2193B}','\u{2A233}','\u{9D39}','\u{2A0B9}','\u{2A2B4}',";
"    '\u{9E90}','\u{9E95}','\u{9E9E}','\u{9EA2}','\u{4D34}','\u{9EAA}','\u{9EAF}','\u{24364}',";
"    '\u{9EC1}','\u{3B60}','\u{39E5}','\u{3D1D}','\u{4F32}','\u{37BE}','\u{28C2B}','\u{9F02}',";
"    '\u{9F08}','\u{4B96}','\u{9424}','\u{26DA2}','\u{9F17}','\u{9F16}','\u{9F39}','\u{569F}',";
"    '\u{568A}','\u{9F45}','\u{99B8}','\u{2908B}','\u{97F2}','\u{847F}','\u{9F62}','\u{9F69}',";
"    '\u{7ADC}','\u{9F8E}','\u{7216}','\u{4BBE}','\u{24975}','\u{249BB}','\u{7177}','\u{249F8}',";
"    '\u{24348}','\u{24A51}','\u{739E}','\u{28BDA}','\u{218FA}','\u{799F}','\u{2897E}','\u{28E36}',";
"    '\u{9369}','\u{93F3}','\u{28A44}','\u{92EC}','\u{9381}','\u{93CB}','\u{2896C}','\u{244B9}',";
"    '\u{7217}','\u{3EEB}','\u{7772}','\u{7A43}','\u{70D0}','\u{24473}','\u{243F8}','\u{717E}',";
"    '\u{217EF}','\u{70A3}','\u{218BE}','\u{23599}','\u{3EC7}','\u{21885}','\u{2542F}','\u{217F8}',";
"    '\u{3722}','\u{216FB}','\u{21839}','\u{36E1}','\u{21774}','\u{218D1}','\u{25F4B}','\u{3723}',";
"    '\u{216C0}','\u{575B}','\u{24A25}','\u{213FE}','\u{212A8}','\u{213C6}','\u{214B6}','\u{8503}',";
"    '\u{236A6}','\u{8503}','\u{8455}','\u{24994}','\u{27165}','\u{23E31}','\u{2555C}','\u{23EFB}',";
"    '\u{27052}','\u{44F4}','\u{236EE}','\u{2999D}','\u{26F26}','\u{67F9}','\u{3733}','\u{3C15}',";
"    '\u{3DE7}','\u{586C}','\u{21922}','\u{6810}','\u{4057}','\u{2373F}','\u{240E1}','\u{2408B}',";
"    '\u{2410F}','\u{26C21}','\u{54CB}','\u{569E}','\u{266B1}','\u{5692}','\u{20FDF}','\u{20BA8}',";
"    '\u{20E0D}','\u{93C6}','\u{28B13}','\u{939C}','\u{4EF8}','\u{512B}','\u{3819}','\u{24436}',";
"    '\u{4EBC}','\u{20465}','\u{2037F}','\u{4F4B}','\u{4F8A}','\u{25651}','\u{5A68}','\u{201AB}',";
"    '\u{203CB}','\u{3999}','\u{2030A}','\u{20414}','\u{3435}','\u{4F29}','\u{202C0}','\u{28EB3}',";
"    '\u{20275}','\u{8ADA}','\u{2020C}','\u{4E98}','\u{50CD}','\u{510D}','\u{4FA2}','\u{4F03}',";
"    '\u{24A0E}','\u{23E8A}','\u{4F42}','\u{502E}','\u{506C}','\u{5081}','\u{4FCC}','\u{4FE5}',";
"    '\u{5058}','\u{50FC}','\u{5159}','\u{515B}','\u{515D}','\u{515E}','\u{6E76}','\u{23595}',";
"    '\u{23E39}','\u{23EBF}','\u{6D72}','\u{21884}','\u{23E89}','\u{51A8}','\u{51C3}','\u{205E0}',";
"    '\u{44DD}','\u{204A3}','\u{20492}','\u{20491}','\u{8D7A}','\u{28A9C}','\u{2070E}','\u{5259}',";
"    '\u{52A4}','\u{20873}','\u{52E1}','\u{936E}','\u{467A}','\u{718C}','\u{2438C}','\u{20C20}',";
"    '\u{249AC}','\u{210E4}','\u{69D1}','\u{20E1D}','\u{7479}','\u{3EDE}','\u{7499}','\u{7414}',";
"    '\u{7456}','\u{7398}','\u{4B8E}','\u{24ABC}','\u{2408D}','\u{53D0}','\u{3584}','\u{720F}',";
"    '\u{240C9}','\u{55B4}','\u{20345}','\u{54CD}','\u{20BC6}','\u{571D}','\u{925D}','\u{96F4}',";
"    '\u{9366}','\u{57DD}','\u{578D}','\u{577F}','\u{363E}','\u{58CB}','\u{5A99}','\u{28A46}',";
"    '\u{216FA}','\u{2176F}','\u{21710}','\u{5A2C}','\u{59B8}','\u{928F}','\u{5A7E}','\u{5ACF}',";
"    '\u{5A12}','\u{25946}','\u{219F3}','\u{21861}','\u{24295}','\u{36F5}','\u{6D05}','\u{7443}',";
"    '\u{5A21}','\u{25E83}','\u{5A81}','\u{28BD7}','\u{20413}','\u{93E0}','\u{748C}','\u{21303}',";
"    '\u{7105}','\u{4972}','\u{9408}','\u{289FB}','\u{93BD}','\u{37A0}','\u{5C1E}','\u{5C9E}',";
"    '\u{5E5E}','\u{5E48}','\u{21996}','\u{2197C}','\u{23AEE}','\u{5ECD}','\u{5B4F}','\u{21903}',";
"    '\u{21904}','\u{3701}','\u{218A0}','\u{36DD}','\u{216FE}','\u{36D3}','\u{812A}','\u{28A47}',";
"    '\u{21DBA}','\u{23472}','\u{289A8}','\u{5F0C}','\u{5F0E}','\u{21927}','\u{217AB}','\u{5A6B}',";
"    '\u{2173B}','\u{5B44}','\u{8614}','\u{275FD}','\u{8860}','\u{607E}','\u{22860}','\u{2262B}',";
"    '\u{5FDB}','\u{3EB8}','\u{225AF}','\u{225BE}','\u{29088}','\u{26F73}','\u{61C0}','\u{2003E}',";
"    '\u{20046}','\u{2261B}','\u{6199}','\u{6198}','\u{6075}','\u{22C9B}','\u{22D07}','\u{246D4}',";
"    '\u{2914D}','\u{6471}','\u{24665}','\u{22B6A}','\u{3A29}','\u{22B22}','\u{23450}','\u{298EA}',";
"    '\u{22E78}','\u{6337}','\u{2A45B}','\u{64B6}','\u{6331}','\u{63D1}','\u{249E3}','\u{22D67}',";
"    '\u{62A4}','\u{22CA1}','\u{643B}','\u{656B}','\u{6972}','\u{3BF4}','\u{2308E}','\u{232AD}',";
"    '\u{24989}','\u{232AB}','\u{550D}','\u{232E0}','\u{218D9}','\u{2943F}','\u{66CE}','\u{23289}',";
"    '\u{231B3}','\u{3AE0}','\u{4190}','\u{25584}','\u{28B22}','\u{2558F}','\u{216FC}','\u{2555B}',";
"    '\u{25425}','\u{78EE}','\u{23103}','\u{2182A}','\u{23234}','\u{3464}','\u{2320F}','\u{23182}',";
"    '\u{242C9}','\u{668E}','\u{26D24}','\u{666B}','\u{4B93}','\u{6630}','\u{27870}','\u{21DEB}',";
"    '\u{6663}','\u{232D2}','\u{232E1}','\u{661E}','\u{25872}','\u{38D1}','\u{2383A}','\u{237BC}',";
"    '\u{3B99}','\u{237A2}','\u{233FE}','\u{74D0}','\u{3B96}','\u{678F}','\u{2462A}','\u{68B6}',";
"    '\u{681E}','\u{3BC4}','\u{6ABE}','\u{3863}','\u{237D5}','\u{24487}','\u{6A33}','\u{6A52}',";
"    '\u{6AC9}','\u{6B05}','\u{21912}','\u{6511}','\u{6898}','\u{6A4C}','\u{3BD7}','\u{6A7A}',";
"    '\u{6B57}','\u{23FC0}','\u{23C9A}','\u{93A0}','\u{92F2}','\u{28BEA}','\u{28ACB}','\u{9289}',";
"    '\u{2801E}','\u{289DC}','\u{9467}','\u{6DA5}','\u{6F0B}','\u{249EC}','\u{6D67}','\u{23F7F}',";
"    '\u{3D8F}','\u{6E04}','\u{2403C}','\u{5A3D}','\u{6E0A}','\u{5847}','\u{6D24}','\u{7842}',";
"    '\u{713B}','\u{2431A}','\u{24276}','\u{70F1}','\u{7250}','\u{7287}','\u{7294}','\u{2478F}',";
"    '\u{24725}','\u{5179}','\u{24AA4}','\u{205EB}','\u{747A}','\u{23EF8}','\u{2365F}','\u{24A4A}',";
"    '\u{24917}','\u{25FE1}','\u{3F06}','\u{3EB1}','\u{24ADF}','\u{28C23}','\u{23F35}','\u{60A7}',";
"    '\u{3EF3}','\u{74CC}','\u{743C}','\u{9387}','\u{7437}','\u{449F}','\u{26DEA}','\u{4551}',";
"    '\u{7583}','\u{3F63}','\u{24CD9}','\u{24D06}','\u{3F58}','\u{7555}','\u{7673}','\u{2A5C6}',";
"    '\u{3B19}','\u{7468}','\u{28ACC}','\u{249AB}','\u{2498E}','\u{3AFB}','\u{3DCD}','\u{24A4E}',";
"    '\u{3EFF}','\u{249C5}','\u{248F3}','\u{91FA}','\u{5732}','\u{9342}','\u{28AE3}','\u{21864}',";
"    '\u{50DF}','\u{25221}','\u{251E7}','\u{7778}','\u{23232}','\u{770E}','\u{770F}','\u{777B}',";
"    '\u{24697}','\u{23781}','\u{3A5E}','\u{248F0}','\u{7438}','\u{749B}','\u{3EBF}','\u{24ABA}',";
"    '\u{24AC7}','\u{40C8}','\u{24A96}','\u{261AE}','\u{9307}','\u{25581}','\u{781E}','\u{788D}',";
"    '\u{7888}','\u{78D2}','\u{73D0}','\u{7959}','\u{27741}','\u{256E3}','\u{410E}','\u{799B}',";
"    '\u{8496}','\u{79A5}','\u{6A2D}','\u{23EFA}','\u{7A3A}','\u{79F4}','\u{416E}','\u{216E6}',";
"    '\u{4132}','\u{9235}','\u{79F1}','\u{20D4C}','\u{2498C}','\u{20299}','\u{23DBA}','\u{2176E}',";
"    '\u{3597}','\u{556B}','\u{3570}','\u{36AA}','\u{201D4}','\u{20C0D}','\u{7AE2}','\u{5A59}',";
"    '\u{226F5}','\u{25AAF}','\u{25A9C}','\u{5A0D}','\u{2025B}','\u{78F0}','\u{5A2A}','\u{25BC6}',";
"    '\u{7AFE}','\u{41F9}','\u{7C5D}','\u{7C6D}','\u{4211}','\u{25BB3}','\u{25EBC}','\u{25EA6}',";
"    '\u{7CCD}','\u{249F9}','\u{217B0}','\u{7C8E}','\u{7C7C}','\u{7CAE}','\u{6AB2}','\u{7DDC}',";
"    '\u{7E07}','\u{7DD3}','\u{7F4E}','\u{26261}','\u{2615C}','\u{27B48}','\u{7D97}','\u{25E82}',";
"    '\u{426A}','\u{26B75}','\u{20916}','\u{67D6}','\u{2004E}','\u{235CF}','\u{57C4}','\u{26412}',";
"    '\u{263F8}','\u{24962}','\u{7FDD}','\u{7B27}','\u{2082C}','\u{25AE9}','\u{25D43}','\u{7B0C}',";
"    '\u{25E0E}','\u{99E6}','\u{8645}','\u{9A63}','\u{6A1C}','\u{2343F}','\u{39E2}','\u{249F7}',";
"    '\u{265AD}','\u{9A1F}','\u{265A0}','\u{8480}','\u{27127}','\u{26CD1}','\u{44EA}','\u{8137}',";
"    '\u{4402}','\u{80C6}','\u{8109}','\u{8142}','\u{267B4}','\u{98C3}','\u{26A42}','\u{8262}',";
"    '\u{8265}','\u{26A51}','\u{8453}','\u{26DA7}','\u{8610}','\u{2721B}','\u{5A86}','\u{417F}',";
"    '\u{21840}','\u{5B2B}','\u{218A1}','\u{5AE4}','\u{218D8}','\u{86A0}','\u{2F9BC}','\u{23D8F}',";
"    '\u{882D}','\u{27422}','\u{5A02}','\u{886E}','\u{4F45}','\u{8887}','\u{88BF}','\u{88E6}',";
"    '\u{8965}','\u{894D}','\u{25683}','\u{8954}','\u{27785}','\u{27784}','\u{28BF5}','\u{28BD9}',";
"    '\u{28B9C}','\u{289F9}','\u{3EAD}','\u{84A3}','\u{46F5}','\u{46CF}','\u{37F2}','\u{8A3D}',";
"    '\u{8A1C}','\u{29448}','\u{5F4D}','\u{922B}','\u{24284}','\u{65D4}','\u{7129}','\u{70C4}',";
"    '\u{21845}','\u{9D6D}','\u{8C9F}','\u{8CE9}','\u{27DDC}','\u{599A}','\u{77C3}','\u{59F0}',";
"    '\u{436E}','\u{36D4}','\u{8E2A}','\u{8EA7}','\u{24C09}','\u{8F30}','\u{8F4A}','\u{42F4}',";
"    '\u{6C58}','\u{6FBB}','\u{22321}','\u{489B}','\u{6F79}','\u{6E8B}','\u{217DA}','\u{9BE9}',";
"    '\u{36B5}','\u{2492F}','\u{90BB}','\u{9097}','\u{5571}','\u{4906}','\u{91BB}','\u{9404}',";
"    '\u{28A4B}','\u{4062}','\u{28AFC}','\u{9427}','\u{28C1D}','\u{28C3B}','\u{84E5}','\u{8A2B}',";
"    '\u{9599}','\u{95A7}','\u{9597}','\u{9596}','\u{28D34}','\u{7445}','\u{3EC2}','\u{248FF}',";
"    '\u{24A42}','\u{243EA}','\u{3EE7}','\u{23225}','\u{968F}','\u{28EE7}','\u{28E66}','\u{28E65}',";
"    '\u{3ECC}','\u{249ED}','\u{24A78}','\u{23FEE}','\u{7412}','\u{746B}','\u{3EFC}','\u{9741}',";
"    '\u{290B0}','\u{6847}','\u{4A1D}','\u{29093}','\u{257DF}','\u{975D}','\u{9368}','\u{28989}',";
"    '\u{28C26}','\u{28B2F}','\u{263BE}','\u{92BA}','\u{5B11}','\u{8B69}','\u{493C}','\u{73F9}',";
"    '\u{2421B}','\u{979B}','\u{9771}','\u{9938}','\u{20F26}','\u{5DC1}','\u{28BC5}','\u{24AB2}',";
"    '\u{981F}','\u{294DA}','\u{92F6}','\u{295D7}','\u{91E5}','\u{44C0}','\u{28B50}','\u{24A67}',";
"    '\u{28B64}','\u{98DC}','\u{28A45}','\u{3F00}','\u{922A}','\u{4925}','\u{8414}','\u{993B}',";
"    '\u{994D}','\u{27B06}','\u{3DFD}','\u{999B}','\u{4B6F}','\u{99AA}','\u{9A5C}','\u{28B65}',";
"    '\u{258C8}','\u{6A8F}','\u{9A21}','\u{5AFE}','\u{9A2F}','\u{298F1}','\u{4B90}','\u{29948}',";
"    '\u{99BC}','\u{4BBD}','\u{4B97}','\u{937D}','\u{5872}','\u{21302}','\u{5822}','\u{249B8}',";
"    '\u{214E8}','\u{7844}','\u{2271F}','\u{23DB8}','\u{68C5}','\u{3D7D}','\u{9458}','\u{3927}',";
"    '\u{6150}','\u{22781}','\u{2296B}','\u{6107}','\u{9C4F}','\u{9C53}','\u{9C7B}','\u{9C35}',";
"    '\u{9C10}','\u{9B7F}','\u{9BCF}','\u{29E2D}','\u{9B9F}','\u{2A1F5}','\u{2A0FE}','\u{9D21}',";
"    '\u{4CAE}','\u{24104}','\u{9E18}','\u{4CB0}','\u{9D0C}','\u{2A1B4}','\u{2A0ED}','\u{2A0F3}',";
"    '\u{2992F}','\u{9DA5}','\u{84BD}','\u{26E12}','\u{26FDF}','\u{26B82}','\u{85FC}','\u{4533}',";
"    '\u{26DA4}','\u{26E84}','\u{26DF0}','\u{8420}','\u{85EE}','\u{26E00}','\u{237D7}','\u{26064}',";
"    '\u{79E2}','\u{2359C}','\u{23640}','\u{492D}','\u{249DE}','\u{3D62}','\u{93DB}','\u{92BE}',";
"    '\u{9348}','\u{202BF}','\u{78B9}','\u{9277}','\u{944D}','\u{4FE4}','\u{3440}','\u{9064}',";
"    '\u{2555D}','\u{783D}','\u{7854}','\u{78B6}','\u{784B}','\u{21757}','\u{231C9}','\u{24941}',";
"    '\u{369A}','\u{4F72}','\u{6FDA}','\u{6FD9}','\u{701E}','\u{701E}','\u{5414}','\u{241B5}',";
"    '\u{57BB}','\u{58F3}','\u{578A}','\u{9D16}','\u{57D7}','\u{7134}','\u{34AF}','\u{241AC}',";
"    '\u{71EB}','\u{26C40}','\u{24F97}','\u{5B28}','\u{217B5}','\u{28A49}','\u{610C}','\u{5ACE}',";
"    '\u{5A0B}','\u{42BC}','\u{24488}','\u{372C}','\u{4B7B}','\u{289FC}','\u{93BB}','\u{93B8}',";
"    '\u{218D6}','\u{20F1D}','\u{8472}','\u{26CC0}','\u{21413}','\u{242FA}','\u{22C26}','\u{243C1}',";
"    '\u{5994}','\u{23DB7}','\u{26741}','\u{7DA8}','\u{2615B}','\u{260A4}','\u{249B9}','\u{2498B}',";
"    '\u{289FA}','\u{92E5}','\u{73E2}','\u{3EE9}','\u{74B4}','\u{28B63}','\u{2189F}','\u{3EE1}',";
"    '\u{24AB3}','\u{6AD8}','\u{73F3}','\u{73FB}','\u{3ED6}','\u{24A3E}','\u{24A94}','\u{217D9}',";
"    '\u{24A66}','\u{203A7}','\u{21424}','\u{249E5}','\u{7448}','\u{24916}','\u{70A5}','\u{24976}',";
"    '\u{9284}','\u{73E6}','\u{935F}','\u{204FE}','\u{9331}','\u{28ACE}','\u{28A16}','\u{9386}',";
"    '\u{28BE7}','\u{255D5}','\u{4935}','\u{28A82}','\u{716B}','\u{24943}','\u{20CFF}','\u{56A4}',";
"    '\u{2061A}','\u{20BEB}','\u{20CB8}','\u{5502}','\u{79C4}','\u{217FA}','\u{7DFE}','\u{216C2}',";
"    '\u{24A50}','\u{21852}','\u{452E}','\u{9401}','\u{370A}','\u{28AC0}','\u{249AD}','\u{59B0}',";
"    '\u{218BF}','\u{21883}','\u{27484}','\u{5AA1}','\u{36E2}','\u{23D5B}','\u{36B0}','\u{925F}',";
"    '\u{5A79}','\u{28A81}','\u{21862}','\u{9374}','\u{3CCD}','\u{20AB4}','\u{4A96}','\u{398A}',";
"    '\u{50F4}','\u{3D69}','\u{3D4C}','\u{2139C}','\u{7175}','\u{42FB}','\u{28218}','\u{6E0F}',";
"    '\u{290E4}','\u{44EB}','\u{6D57}','\u{27E4F}','\u{7067}','\u{6CAF}','\u{3CD6}','\u{23FED}',";
"    '\u{23E2D}','\u{6E02}','\u{6F0C}','\u{3D6F}','\u{203F5}','\u{7551}','\u{36BC}','\u{34C8}',";
"    '\u{4680}','\u{3EDA}','\u{4871}','\u{59C4}','\u{926E}','\u{493E}','\u{8F41}','\u{28C1C}',";
"    '\u{26BC0}','\u{5812}','\u{57C8}','\u{36D6}','\u{21452}','\u{70FE}','\u{24362}','\u{24A71}',";
"    '\u{22FE3}','\u{212B0}','\u{223BD}','\u{68B9}','\u{6967}','\u{21398}','\u{234E5}','\u{27BF4}',";
"    '\u{236DF}','\u{28A83}','\u{237D6}','\u{233FA}','\u{24C9F}','\u{6A1A}','\u{236AD}','\u{26CB7}',";
"    '\u{843E}','\u{44DF}','\u{44CE}','\u{26D26}','\u{26D51}','\u{26C82}','\u{26FDE}','\u{6F17}',";
"    '\u{27109}','\u{833D}','\u{2173A}','\u{83ED}','\u{26C80}','\u{27053}','\u{217DB}','\u{5989}',";
"    '\u{5A82}','\u{217B3}','\u{5A61}','\u{5A71}','\u{21905}','\u{241FC}','\u{372D}','\u{59EF}',";
"    '\u{2173C}','\u{36C7}','\u{718E}','\u{9390}','\u{669A}','\u{242A5}','\u{5A6E}','\u{5A2B}',";
"    '\u{24293}','\u{6A2B}','\u{23EF9}','\u{27736}','\u{2445B}','\u{242CA}','\u{711D}','\u{24259}',";
"    '\u{289E1}','\u{4FB0}','\u{26D28}','\u{5CC2}','\u{244CE}','\u{27E4D}','\u{243BD}','\u{6A0C}',";
"    '\u{24256}','\u{21304}','\u{70A6}','\u{7133}','\u{243E9}','\u{3DA5}','\u{6CDF}','\u{2F825}',";
"    '\u{24A4F}','\u{7E65}','\u{59EB}','\u{5D2F}','\u{3DF3}','\u{5F5C}','\u{24A5D}','\u{217DF}',";
"    '\u{7DA4}','\u{8426}','\u{5485}','\u{23AFA}','\u{23300}','\u{20214}','\u{577E}','\u{208D5}',";
"    '\u{20619}','\u{3FE5}','\u{21F9E}','\u{2A2B6}','\u{7003}','\u{2915B}','\u{5D70}','\u{738F}',";
"    '\u{7CD3}','\u{28A59}','\u{29420}','\u{4FC8}','\u{7FE7}','\u{72CD}','\u{7310}','\u{27AF4}',";
"    '\u{7338}','\u{7339}','\u{256F6}','\u{7341}','\u{7348}','\u{3EA9}','\u{27B18}','\u{906C}',";
"    '\u{71F5}','\u{248F2}','\u{73E1}','\u{81F6}','\u{3ECA}','\u{770C}','\u{3ED1}','\u{6CA2}',";
"    '\u{56FD}','\u{7419}','\u{741E}','\u{741F}','\u{3EE2}','\u{3EF0}','\u{3EF4}','\u{3EFA}',";
"    '\u{74D3}','\u{3F0E}','\u{3F53}','\u{7542}','\u{756D}','\u{7572}','\u{758D}','\u{3F7C}',";
"    '\u{75C8}','\u{75DC}','\u{3FC0}','\u{764D}','\u{3FD7}','\u{7674}','\u{3FDC}','\u{767A}',";
"    '\u{24F5C}','\u{7188}','\u{5623}','\u{8980}','\u{5869}','\u{401D}','\u{7743}','\u{4039}',";
"    '\u{6761}','\u{4045}','\u{35DB}','\u{7798}','\u{406A}','\u{406F}','\u{5C5E}','\u{77BE}',";
"    '\u{77CB}','\u{58F2}','\u{7818}','\u{70B9}','\u{781C}','\u{40A8}','\u{7839}','\u{7847}',";
"    '\u{7851}','\u{7866}','\u{8448}','\u{25535}','\u{7933}','\u{6803}','\u{7932}','\u{4103}',";
"    '\u{4109}','\u{7991}','\u{7999}','\u{8FBB}','\u{7A06}','\u{8FBC}','\u{4167}','\u{7A91}',";
"    '\u{41B2}','\u{7ABC}','\u{8279}','\u{41C4}','\u{7ACF}','\u{7ADB}','\u{41CF}','\u{4E21}',";
"    '\u{7B62}','\u{7B6C}','\u{7B7B}','\u{7C12}','\u{7C1B}','\u{4260}','\u{427A}','\u{7C7B}',";
"    '\u{7C9C}','\u{428C}','\u{7CB8}','\u{4294}','\u{7CED}','\u{8F93}','\u{70C0}','\u{20CCF}',";
"    '\u{7DCF}','\u{7DD4}','\u{7DD0}','\u{7DFD}','\u{7FAE}','\u{7FB4}','\u{729F}','\u{4397}',";
"    '\u{8020}','\u{8025}','\u{7B39}','\u{802E}','\u{8031}','\u{8054}','\u{3DCC}','\u{57B4}',";
"    '\u{70A0}','\u{80B7}','\u{80E9}','\u{43ED}','\u{810C}','\u{732A}','\u{810E}','\u{8112}',";
"    '\u{7560}','\u{8114}','\u{4401}','\u{3B39}','\u{8156}','\u{8159}','\u{815A}','\u{4413}',";
"    '\u{583A}','\u{817C}','\u{8184}','\u{4425}','\u{8193}','\u{442D}','\u{81A5}','\u{57EF}',";
"    '\u{81C1}','\u{81E4}','\u{8254}','\u{448F}','\u{82A6}','\u{8276}','\u{82CA}','\u{82D8}',";
"    '\u{82FF}','\u{44B0}','\u{8357}','\u{9669}','\u{698A}','\u{8405}','\u{70F5}','\u{8464}',";
"    '\u{60E3}','\u{8488}','\u{4504}','\u{84BE}','\u{84E1}','\u{84F8}','\u{8510}','\u{8538}',";
"    '\u{8552}','\u{453B}','\u{856F}','\u{8570}','\u{85E0}','\u{4577}','\u{8672}','\u{8692}',";
"    '\u{86B2}','\u{86EF}','\u{9645}','\u{878B}','\u{4606}','\u{4617}','\u{88AE}','\u{88FF}',";
"    '\u{8924}','\u{8947}','\u{8991}','\u{27967}','\u{8A29}','\u{8A38}','\u{8A94}','\u{8AB4}',";
"    '\u{8C51}','\u{8CD4}','\u{8CF2}','\u{8D1C}','\u{4798}','\u{585F}','\u{8DC3}','\u{47ED}',";
"    '\u{4EEE}','\u{8E3A}','\u{55D8}','\u{5754}','\u{8E71}','\u{55F5}','\u{8EB0}','\u{4837}',";
"    '\u{8ECE}','\u{8EE2}','\u{8EE4}','\u{8EED}','\u{8EF2}','\u{8FB7}','\u{8FC1}','\u{8FCA}',";
"    '\u{8FCC}','\u{9033}','\u{99C4}','\u{48AD}','\u{98E0}','\u{9213}','\u{491E}','\u{9228}',";
"    '\u{9258}','\u{926B}','\u{92B1}','\u{92AE}','\u{92BF}','\u{92E3}','\u{92EB}','\u{92F3}',";
"    '\u{92F4}','\u{92FD}','\u{9343}','\u{9384}','\u{93AD}','\u{4945}','\u{4951}','\u{9EBF}',";
"    '\u{9417}','\u{5301}','\u{941D}','\u{942D}','\u{943E}','\u{496A}','\u{9454}','\u{9479}',";
"    '\u{952D}','\u{95A2}','\u{49A7}','\u{95F4}','\u{9633}','\u{49E5}','\u{67A0}','\u{4A24}',";
"    '\u{9740}','\u{4A35}','\u{97B2}','\u{97C2}','\u{5654}','\u{4AE4}','\u{60E8}','\u{98B9}',";
"    '\u{4B19}','\u{98F1}','\u{5844}','\u{990E}','\u{9919}','\u{51B4}','\u{991C}','\u{9937}',";
"    '\u{9942}','\u{995D}','\u{9962}','\u{4B70}','\u{99C5}','\u{4B9D}','\u{9A3C}','\u{9B0F}',";
"    '\u{7A83}','\u{9B69}','\u{9B81}','\u{9BDD}','\u{9BF1}','\u{9BF4}','\u{4C6D}','\u{9C20}',";
"    '\u{376F}','\u{21BC2}','\u{9D49}','\u{9C3A}','\u{9EFE}','\u{5650}','\u{9D93}','\u{9DBD}',";
"    '\u{9DC0}','\u{9DFC}','\u{94F6}','\u{8FB6}','\u{9E7B}','\u{9EAC}','\u{9EB1}','\u{9EBD}',";
"    '\u{9EC6}','\u{94DC}','\u{9EE2}','\u{9EF1}','\u{9EF8}','\u{7AC8}','\u{9F44}','\u{20094}',";
"    '\u{202B7}','\u{203A0}','\u{691A}','\u{94C3}','\u{59AC}','\u{204D7}','\u{5840}','\u{94C1}',";
"    '\u{37B9}','\u{205D5}','\u{20615}','\u{20676}','\u{216BA}','\u{5757}','\u{7173}','\u{20AC2}',";
"    '\u{20ACD}','\u{20BBF}','\u{546A}','\u{2F83B}','\u{20BCB}','\u{549E}','\u{20BFB}','\u{20C3B}',";
"    '\u{20C53}','\u{20C65}','\u{20C7C}','\u{60E7}','\u{20C8D}','\u{567A}','\u{20CB5}','\u{20CDD}',";
"    '\u{20CED}','\u{20D6F}','\u{20DB2}','\u{20DC8}','\u{6955}','\u{9C2F}','\u{87A5}','\u{20E04}',";
"    '\u{20E0E}','\u{20ED7}','\u{20F90}','\u{20F2D}','\u{20E73}','\u{5C20}','\u{20FBC}','\u{5E0B}',";
"    '\u{2105C}','\u{2104F}','\u{21076}','\u{671E}','\u{2107B}','\u{21088}','\u{21096}','\u{3647}',"
].
(* /repo/src/generated/whatwg/big5_whatwg_tables.rs.inc:513-768 *)
Definition big5_inc_2 : list line := [
"    '\u{210BF}','\u{210D3}','\u{2112F}','\u{2113B}','\u{5364}','\u{84AD}','\u{212E3}','\u{21375}',";
"    '\u{21336}','\u{8B81}','\u{21577}','\u{21619}','\u{217C3}','\u{217C7}','\u{4E78}','\u{70BB}',";
"    '\u{2182D}','\u{2196A}','\u{21A2D}','\u{21A45}','\u{21C2A}','\u{21C70}','\u{21CAC}','\u{21EC8}',";
"    '\u{62C3}','\u{21ED5}','\u{21F15}','\u{7198}','\u{6855}','\u{22045}','\u{69E9}','\u{36C8}',";
"    '\u{2227C}','\u{223D7}','\u{223FA}','\u{2272A}','\u{22871}','\u{2294F}','\u{82FD}','\u{22967}',";
"    '\u{22993}','\u{22AD5}','\u{89A5}','\u{22AE8}','\u{8FA0}','\u{22B0E}','\u{97B8}','\u{22B3F}',";
"    '\u{9847}','\u{9ABD}','\u{22C4C}','�','\u{22C88}','\u{22CB7}','\u{25BE8}','\u{22D08}',";
"    '\u{22D12}','\u{22DB7}','\u{22D95}','\u{22E42}','\u{22F74}','\u{22FCC}','\u{23033}','\u{23066}',";
"    '\u{2331F}','\u{233DE}','\u{5FB1}','\u{6648}','\u{66BF}','\u{27A79}','\u{23567}','\u{235F3}',";
"    '\u{7201}','\u{249BA}','\u{77D7}','\u{2361A}','\u{23716}','\u{7E87}','\u{20346}','\u{58B5}',";
"    '\u{670E}','\u{6918}','\u{23AA7}','\u{27657}','\u{25FE2}','\u{23E11}','\u{23EB9}','\u{275FE}',";
"    '\u{2209A}','\u{48D0}','\u{4AB8}','\u{24119}','\u{28A9A}','\u{242EE}','\u{2430D}','\u{2403B}',";
"    '\u{24334}','\u{24396}','\u{24A45}','\u{205CA}','\u{51D2}','\u{20611}','\u{599F}','\u{21EA8}',";
"    '\u{3BBE}','\u{23CFF}','\u{24404}','\u{244D6}','\u{5788}','\u{24674}','\u{399B}','\u{2472F}',";
"    '\u{285E8}','\u{299C9}','\u{3762}','\u{221C3}','\u{8B5E}','\u{28B4E}','\u{99D6}','\u{24812}',";
"    '\u{248FB}','\u{24A15}','\u{7209}','\u{24AC0}','\u{20C78}','\u{5965}','\u{24EA5}','\u{24F86}',";
"    '\u{20779}','\u{8EDA}','\u{2502C}','\u{528F}','\u{573F}','\u{7171}','\u{25299}','\u{25419}',";
"    '\u{23F4A}','\u{24AA7}','\u{55BC}','\u{25446}','\u{2546E}','\u{26B52}','\u{91D4}','\u{3473}',";
"    '\u{2553F}','\u{27632}','\u{2555E}','\u{4718}','\u{25562}','\u{25566}','\u{257C7}','\u{2493F}',";
"    '\u{2585D}','\u{5066}','\u{34FB}','\u{233CC}','\u{60DE}','\u{25903}','\u{477C}','\u{28948}',";
"    '\u{25AAE}','\u{25B89}','\u{25C06}','\u{21D90}','\u{57A1}','\u{7151}','\u{6FB6}','\u{26102}',";
"    '\u{27C12}','\u{9056}','\u{261B2}','\u{24F9A}','\u{8B62}','\u{26402}','\u{2644A}','\u{5D5B}',";
"    '\u{26BF7}','\u{8F36}','\u{26484}','\u{2191C}','\u{8AEA}','\u{249F6}','\u{26488}','\u{23FEF}',";
"    '\u{26512}','\u{4BC0}','\u{265BF}','\u{266B5}','\u{2271B}','\u{9465}','\u{257E1}','\u{6195}',";
"    '\u{5A27}','\u{2F8CD}','\u{4FBB}','\u{56B9}','\u{24521}','\u{266FC}','\u{4E6A}','\u{24934}',";
"    '\u{9656}','\u{6D8F}','\u{26CBD}','\u{3618}','\u{8977}','\u{26799}','\u{2686E}','\u{26411}',";
"    '\u{2685E}','\u{71DF}','\u{268C7}','\u{7B42}','\u{290C0}','\u{20A11}','\u{26926}','\u{9104}',";
"    '\u{26939}','\u{7A45}','\u{9DF0}','\u{269FA}','\u{9A26}','\u{26A2D}','\u{365F}','\u{26469}',";
"    '\u{20021}','\u{7983}','\u{26A34}','\u{26B5B}','\u{5D2C}','\u{23519}','\u{83CF}','\u{26B9D}',";
"    '\u{46D0}','\u{26CA4}','\u{753B}','\u{8865}','\u{26DAE}','\u{58B6}','\u{371C}','\u{2258D}',";
"    '\u{2704B}','\u{271CD}','\u{3C54}','\u{27280}','\u{27285}','\u{9281}','\u{2217A}','\u{2728B}',";
"    '\u{9330}','\u{272E6}','\u{249D0}','\u{6C39}','\u{949F}','\u{27450}','\u{20EF8}','\u{8827}',";
"    '\u{88F5}','\u{22926}','\u{28473}','\u{217B1}','\u{6EB8}','\u{24A2A}','\u{21820}','\u{39A4}',";
"    '\u{36B9}','\u{5C10}','\u{79E3}','\u{453F}','\u{66B6}','\u{29CAD}','\u{298A4}','\u{8943}',";
"    '\u{277CC}','\u{27858}','\u{56D6}','\u{40DF}','\u{2160A}','\u{39A1}','\u{2372F}','\u{280E8}',";
"    '\u{213C5}','\u{71AD}','\u{8366}','\u{279DD}','\u{291A8}','\u{5A67}','\u{4CB7}','\u{270AF}',";
"    '\u{289AB}','\u{279FD}','\u{27A0A}','\u{27B0B}','\u{27D66}','\u{2417A}','\u{7B43}','\u{797E}',";
"    '\u{28009}','\u{6FB5}','\u{2A2DF}','\u{6A03}','\u{28318}','\u{53A2}','\u{26E07}','\u{93BF}',";
"    '\u{6836}','\u{975D}','\u{2816F}','\u{28023}','\u{269B5}','\u{213ED}','\u{2322F}','\u{28048}',";
"    '\u{5D85}','\u{28C30}','\u{28083}','\u{5715}','\u{9823}','\u{28949}','\u{5DAB}','\u{24988}',";
"    '\u{65BE}','\u{69D5}','\u{53D2}','\u{24AA5}','\u{23F81}','\u{3C11}','\u{6736}','\u{28090}',";
"    '\u{280F4}','\u{2812E}','\u{21FA1}','\u{2814F}','\u{28189}','\u{281AF}','\u{2821A}','\u{28306}',";
"    '\u{2832F}','\u{2838A}','\u{35CA}','\u{28468}','\u{286AA}','\u{48FA}','\u{63E6}','\u{28956}',";
"    '\u{7808}','\u{9255}','\u{289B8}','\u{43F2}','\u{289E7}','\u{43DF}','\u{289E8}','\u{28B46}',";
"    '\u{28BD4}','\u{59F8}','\u{28C09}','\u{8F0B}','\u{28FC5}','\u{290EC}','\u{7B51}','\u{29110}',";
"    '\u{2913C}','\u{3DF7}','\u{2915E}','\u{24ACA}','\u{8FD0}','\u{728F}','\u{568B}','\u{294E7}',";
"    '\u{295E9}','\u{295B0}','\u{295B8}','\u{29732}','\u{298D1}','\u{29949}','\u{2996A}','\u{299C3}',";
"    '\u{29A28}','\u{29B0E}','\u{29D5A}','\u{29D9B}','\u{7E9F}','\u{29EF8}','\u{29F23}','\u{4CA4}',";
"    '\u{9547}','\u{2A293}','\u{71A2}','\u{2A2FF}','\u{4D91}','\u{9012}','\u{2A5CB}','\u{4D9C}',";
"    '\u{20C9C}','\u{8FBE}','\u{55C1}','\u{8FBA}','\u{224B0}','\u{8FB9}','\u{24A93}','\u{4509}',";
"    '\u{7E7F}','\u{6F56}','\u{6AB1}','\u{4EEA}','\u{34E4}','\u{28B2C}','\u{2789D}','\u{373A}',";
"    '\u{8E80}','\u{217F5}','\u{28024}','\u{28B6C}','\u{28B99}','\u{27A3E}','\u{266AF}','\u{3DEB}',";
"    '\u{27655}','\u{23CB7}','\u{25635}','\u{25956}','\u{4E9A}','\u{25E81}','\u{26258}','\u{56BF}',";
"    '\u{20E6D}','\u{8E0E}','\u{5B6D}','\u{23E88}','\u{24C9E}','\u{63DE}','\u{62D0}','\u{217F6}',";
"    '\u{2187B}','\u{6530}','\u{562D}','\u{25C4A}','\u{541A}','\u{25311}','\u{3DC6}','\u{29D98}',";
"    '\u{4C7D}','\u{5622}','\u{561E}','\u{7F49}','\u{25ED8}','\u{5975}','\u{23D40}','\u{8770}',";
"    '\u{4E1C}','\u{20FEA}','\u{20D49}','\u{236BA}','\u{8117}','\u{9D5E}','\u{8D18}','\u{763B}',";
"    '\u{9C45}','\u{764E}','\u{77B9}','\u{9345}','\u{5432}','\u{8148}','\u{82F7}','\u{5625}',";
"    '\u{8132}','\u{8418}','\u{80BD}','\u{55EA}','\u{7962}','\u{5643}','\u{5416}','\u{20E9D}',";
"    '\u{35CE}','\u{5605}','\u{55F1}','\u{66F1}','\u{282E2}','\u{362D}','\u{7534}','\u{55F0}',";
"    '\u{55BA}','\u{5497}','\u{5572}','\u{20C41}','\u{20C96}','\u{5ED0}','\u{25148}','\u{20E76}',";
"    '\u{22C62}','\u{20EA2}','\u{9EAB}','\u{7D5A}','\u{55DE}','\u{21075}','\u{629D}','\u{976D}',";
"    '\u{5494}','\u{8CCD}','\u{71F6}','\u{9176}','\u{63FC}','\u{63B9}','\u{63FE}','\u{5569}',";
"    '\u{22B43}','\u{9C72}','\u{22EB3}','\u{519A}','\u{34DF}','\u{20DA7}','\u{51A7}','\u{544D}',";
"    '\u{551E}','\u{5513}','\u{7666}','\u{8E2D}','\u{2688A}','\u{75B1}','\u{80B6}','\u{8804}',";
"    '\u{8786}','\u{88C7}','\u{81B6}','\u{841C}','\u{210C1}','\u{44EC}','\u{7304}','\u{24706}',";
"    '\u{5B90}','\u{830B}','\u{26893}','\u{567B}','\u{226F4}','\u{27D2F}','\u{241A3}','\u{27D73}',";
"    '\u{26ED0}','\u{272B6}','\u{9170}','\u{211D9}','\u{9208}','\u{23CFC}','\u{2A6A9}','\u{20EAC}',";
"    '\u{20EF9}','\u{7266}','\u{21CA2}','\u{474E}','\u{24FC2}','\u{27FF9}','\u{20FEB}','\u{40FA}',";
"    '\u{9C5D}','\u{651F}','\u{22DA0}','\u{48F3}','\u{247E0}','\u{29D7C}','\u{20FEC}','\u{20E0A}',";
"    '\u{6062}','\u{275A3}','\u{20FED}','�','\u{26048}','\u{21187}','\u{71A3}','\u{7E8E}',";
"    '\u{9D50}','\u{4E1A}','\u{4E04}','\u{3577}','\u{5B0D}','\u{6CB2}','\u{5367}','\u{36AC}',";
"    '\u{39DC}','\u{537D}','\u{36A5}','\u{24618}','\u{589A}','\u{24B6E}','\u{822D}','\u{544B}',";
"    '\u{57AA}','\u{25A95}','\u{20979}','�','\u{3A52}','\u{22465}','\u{7374}','\u{29EAC}',";
"    '\u{4D09}','\u{9BED}','\u{23CFE}','\u{29F30}','\u{4C5B}','\u{24FA9}','\u{2959E}','\u{29FDE}',";
"    '\u{845C}','\u{23DB6}','\u{272B2}','\u{267B3}','\u{23720}','\u{632E}','\u{7D25}','\u{23EF7}',";
"    '\u{23E2C}','\u{3A2A}','\u{9008}','\u{52CC}','\u{3E74}','\u{367A}','\u{45E9}','\u{2048E}',";
"    '\u{7640}','\u{5AF0}','\u{20EB6}','\u{787A}','\u{27F2E}','\u{58A7}','\u{40BF}','\u{567C}',";
"    '\u{9B8B}','\u{5D74}','\u{7654}','\u{2A434}','\u{9E85}','\u{4CE1}','\u{75F9}','\u{37FB}',";
"    '\u{6119}','\u{230DA}','\u{243F2}','�','\u{565D}','\u{212A9}','\u{57A7}','\u{24963}',";
"    '\u{29E06}','\u{5234}','\u{270AE}','\u{35AD}','\u{6C4A}','\u{9D7C}','\u{7C56}','\u{9B39}',";
"    '\u{57DE}','\u{2176C}','\u{5C53}','\u{64D3}','\u{294D0}','\u{26335}','\u{27164}','\u{86AD}',";
"    '\u{20D28}','\u{26D22}','\u{24AE2}','\u{20D71}','�','\u{51FE}','\u{21F0F}','\u{5D8E}',";
"    '\u{9703}','\u{21DD1}','\u{9E81}','\u{904C}','\u{7B1F}','\u{9B02}','\u{5CD1}','\u{7BA3}',";
"    '\u{6268}','\u{6335}','\u{9AFF}','\u{7BCF}','\u{9B2A}','\u{7C7E}','\u{9B2E}','\u{7C42}',";
"    '\u{7C86}','\u{9C15}','\u{7BFC}','\u{9B09}','\u{9F17}','\u{9C1B}','\u{2493E}','\u{9F5A}',";
"    '\u{5573}','\u{5BC3}','\u{4FFD}','\u{9E98}','\u{4FF2}','\u{5260}','\u{3E06}','\u{52D1}',";
"    '\u{5767}','\u{5056}','\u{59B7}','\u{5E12}','\u{97C8}','\u{9DAB}','\u{8F5C}','\u{5469}',";
"    '\u{97B4}','\u{9940}','\u{97BA}','\u{532C}','\u{6130}','\u{692C}','\u{53DA}','\u{9C0A}',";
"    '\u{9D02}','\u{4C3B}','\u{9641}','\u{6980}','\u{50A6}','\u{7546}','\u{2176D}','\u{99DA}',";
"    '\u{5273}','�','\u{9159}','\u{9681}','\u{915C}','�','\u{9151}','\u{28E97}',";
"    '\u{637F}','\u{26D23}','\u{6ACA}','\u{5611}','\u{918E}','\u{757A}','\u{6285}','\u{203FC}',";
"    '\u{734F}','\u{7C70}','\u{25C21}','\u{23CFD}','�','\u{24919}','\u{76D6}','\u{9B9D}',";
"    '\u{4E2A}','\u{20CD4}','\u{83BE}','\u{8842}','�','\u{5C4A}','\u{69C0}','\u{50ED}',";
"    '\u{577A}','\u{521F}','\u{5DF5}','\u{4ECE}','\u{6C31}','\u{201F2}','\u{4F39}','\u{549C}',";
"    '\u{54DA}','\u{529A}','\u{8D82}','\u{35FE}','\u{5F0C}','\u{35F3}','�','\u{6B52}',";
"    '\u{917C}','\u{9FA5}','\u{9B97}','\u{982E}','\u{98B4}','\u{9ABA}','\u{9EA8}','\u{9E84}',";
"    '\u{717A}','\u{7B14}','�','\u{6BFA}','\u{8818}','\u{7F78}','�','\u{5620}',";
"    '\u{2A64A}','\u{8E77}','\u{9F53}','�','\u{8DD4}','\u{8E4F}','\u{9E1C}','\u{8E01}',";
"    '\u{6282}','\u{2837D}','\u{8E28}','\u{8E75}','\u{7AD3}','\u{24A77}','\u{7A3E}','\u{78D8}',";
"    '\u{6CEA}','\u{8A67}','\u{7607}','\u{28A5A}','\u{9F26}','\u{6CCE}','\u{87D6}','\u{75C3}',";
"    '\u{2A2B2}','\u{7853}','\u{2F840}','\u{8D0C}','\u{72E2}','\u{7371}','\u{8B2D}','\u{7302}',";
"    '\u{74F1}','\u{8CEB}','\u{24ABB}','\u{862F}','\u{5FBA}','\u{88A0}','\u{44B7}','�',";
"    '\u{2183B}','\u{26E05}','�','\u{8A7E}','\u{2251B}','�','\u{60FD}','\u{7667}',";
"    '\u{9AD7}','\u{9D44}','\u{936E}','\u{9B8F}','\u{87F5}','�','\u{880F}','\u{8CF7}',";
"    '\u{732C}','\u{9721}','\u{9BB0}','\u{35D6}','\u{72B2}','\u{4C07}','\u{7C51}','\u{994A}',";
"    '\u{26159}','\u{6159}','\u{4C04}','\u{9E96}','\u{617D}','�','\u{575F}','\u{616F}',";
"    '\u{62A6}','\u{6239}','\u{62CE}','\u{3A5C}','\u{61E2}','\u{53AA}','\u{233F5}','\u{6364}',";
"    '\u{6802}','\u{35D2}','\u{5D57}','\u{28BC2}','\u{8FDA}','\u{28E39}','�','\u{50D9}',";
"    '\u{21D46}','\u{7906}','\u{5332}','\u{9638}','\u{20F3B}','\u{4065}','�','\u{77FE}',";
"    '�','\u{7CC2}','\u{25F1A}','\u{7CDA}','\u{7A2D}','\u{8066}','\u{8063}','\u{7D4D}',";
"    '\u{7505}','\u{74F2}','\u{8994}','\u{821A}','\u{670C}','\u{8062}','\u{27486}','\u{805B}',";
"    '\u{74F0}','\u{8103}','\u{7724}','\u{8989}','\u{267CC}','\u{7553}','\u{26ED1}','\u{87A9}',";
"    '\u{87CE}','\u{81C8}','\u{878C}','\u{8A49}','\u{8CAD}','\u{8B43}','\u{772B}','\u{74F8}',";
"    '\u{84DA}','\u{3635}','\u{69B2}','\u{8DA6}','�','\u{89A9}','\u{7468}','\u{6DB9}',";
"    '\u{87C1}','\u{24011}','\u{74E7}','\u{3DDB}','\u{7176}','\u{60A4}','\u{619C}','\u{3CD1}',";
"    '\u{7162}','\u{6077}','�','\u{7F71}','\u{28B2D}','\u{7250}','\u{60E9}','\u{4B7E}',";
"    '\u{5220}','\u{3C18}','\u{23CC7}','\u{25ED7}','\u{27656}','\u{25531}','\u{21944}','\u{212FE}',";
"    '\u{29903}','\u{26DDC}','\u{270AD}','\u{5CC1}','\u{261AD}','\u{28A0F}','\u{23677}','\u{200EE}',";
"    '\u{26846}','\u{24F0E}','\u{4562}','\u{5B1F}','\u{2634C}','\u{9F50}','\u{9EA6}','\u{2626B}',";
"    '\u{3000}','\u{FF0C}','\u{3001}','\u{3002}','\u{FF0E}','\u{2027}','\u{FF1B}','\u{FF1A}',";
"    '\u{FF1F}','\u{FF01}','\u{FE30}','\u{2026}','\u{2025}','\u{FE50}','\u{FE51}','\u{FE52}',";
"    '\u{00B7}','\u{FE54}','\u{FE55}','\u{FE56}','\u{FE57}','\u{FF5C}','\u{2013}','\u{FE31}',";
"    '\u{2014}','\u{FE33}','\u{2574}','\u{FE34}','\u{FE4F}','\u{FF08}','\u{FF09}','\u{FE35}',";
"    '\u{FE36}','\u{FF5B}','\u{FF5D}','\u{FE37}','\u{FE38}','\u{3014}','\u{3015}','\u{FE39}',";
"    '\u{FE3A}','\u{3010}','\u{3011}','\u{FE3B}','\u{FE3C}','\u{300A}','\u{300B}','\u{FE3D}',";
"    '\u{FE3E}','\u{3008}','\u{3009}','\u{FE3F}','\u{FE40}','\u{300C}','\u{300D}','\u{FE41}',";
"    '\u{FE42}','\u{300E}','\u{300F}','\u{FE43}','\u{FE44}','\u{FE59}','\u{FE5A}','\u{FE5B}',";
"    '\u{FE5C}','\u{FE5D}','\u{FE5E}','\u{2018}','\u{2019}','\u{201C}','\u{201D}','\u{301D}',";
"    '\u{301E}','\u{2035}','\u{2032}','\u{FF03}','\u{FF06}','\u{FF0A}','\u{203B}','\u{00A7}',";
"    '\u{3003}','\u{25CB}','\u{25CF}','\u{25B3}','\u{25B2}','\u{25CE}','\u{2606}','\u{2605}',";
"    '\u{25C7}','\u{25C6}','\u{25A1}','\u{25A0}','\u{25BD}','\u{25BC}','\u{32A3}','\u{2105}',";
"    '\u{00AF}','\u{FFE3}','\u{FF3F}','\u{02CD}','\u{FE49}','\u{FE4A}','\u{FE4D}','\u{FE4E}',";
"    '\u{FE4B}','\u{FE4C}','\u{FE5F}','\u{FE60}','\u{FE61}','\u{FF0B}','\u{FF0D}','\u{00D7}',";
"    '\u{00F7}','\u{00B1}','\u{221A}','\u{FF1C}','\u{FF1E}','\u{FF1D}','\u{2266}','\u{2267}',";
"    '\u{2260}','\u{221E}','\u{2252}','\u{2261}','\u{FE62}','\u{FE63}','\u{FE64}','\u{FE65}',";
"    '\u{FE66}','\u{FF5E}','\u{2229}','\u{222A}','\u{22A5}','\u{2220}','\u{221F}','\u{22BF}',";
"    '\u{33D2}','\u{33D1}','\u{222B}','\u{222E}','\u{2235}','\u{2234}','\u{2640}','\u{2642}',";
"    '\u{2295}','\u{2299}','\u{2191}','\u{2193}','\u{2190}','\u{2192}','\u{2196}','\u{2197}',";
"    '\u{2199}','\u{2198}','\u{2225}','\u{2223}','\u{FF0F}','\u{FF3C}','\u{2215}','\u{FE68}',";
"    '\u{FF04}','\u{FFE5}','\u{3012}','\u{FFE0}','\u{FFE1}','\u{FF05}','\u{FF20}','\u{2103}',";
"    '\u{2109}','\u{FE69}','\u{FE6A}','\u{FE6B}','\u{33D5}','\u{339C}','\u{339D}','\u{339E}',";
"    '\u{33CE}','\u{33A1}','\u{338E}','\u{338F}','\u{33C4}','\u{00B0}','\u{5159}','\u{515B}',";
"    '\u{515E}','\u{515D}','\u{5161}','\u{5163}','\u{55E7}','\u{74E9}','\u{7CCE}','\u{2581}',";
"    '\u{2582}','\u{2583}','\u{2584}','\u{2585}','\u{2586}','\u{2587}','\u{2588}','\u{258F}',";
"    '\u{258E}','\u{258D}','\u{258C}','\u{258B}','\u{258A}','\u{2589}','\u{253C}','\u{2534}',";
"    '\u{252C}','\u{2524}','\u{251C}','\u{2594}','\u{2500}','\u{2502}','\u{2595}','\u{250C}',";
"    '\u{2510}','\u{2514}','\u{2518}','\u{256D}','\u{256E}','\u{2570}','\u{256F}','\u{2550}',";
"    '\u{255E}','\u{256A}','\u{2561}','\u{25E2}','\u{25E3}','\u{25E5}','\u{25E4}','\u{2571}',";
"    '\u{2572}','\u{2573}','\u{FF10}','\u{FF11}','\u{FF12}','\u{FF13}','\u{FF14}','\u{FF15}',";
"    '\u{FF16}','\u{FF17}','\u{FF18}','\u{FF19}','\u{2160}','\u{2161}','\u{2162}','\u{2163}',";
"    '\u{2164}','\u{2165}','\u{2166}','\u{2167}','\u{2168}','\u{2169}','\u{3021}','\u{3022}',";
"    '\u{3023}','\u{3024}','\u{3025}','\u{3026}','\u{3027}','\u{3028}','\u{3029}','\u{5341}',";
"    '\u{5344}','\u{5345}','\u{FF21}','\u{FF22}','\u{FF23}','\u{FF24}','\u{FF25}','\u{FF26}',";
"    '\u{FF27}','\u{FF28}','\u{FF29}','\u{FF2A}','\u{FF2B}','\u{FF2C}','\u{FF2D}','\u{FF2E}',";
"    '\u{FF2F}','\u{FF30}','\u{FF31}','\u{FF32}','\u{FF33}','\u{FF34}','\u{FF35}','\u{FF36}',";
"    '\u{FF37}','\u{FF38}','\u{FF39}','\u{FF3A}','\u{FF41}','\u{FF42}','\u{FF43}','\u{FF44}',";
"    '\u{FF45}','\u{FF46}','\u{FF47}','\u{FF48}','\u{FF49}','\u{FF4A}','\u{FF4B}','\u{FF4C}',";
"    '\u{FF4D}','\u{FF4E}','\u{FF4F}','\u{FF50}','\u{FF51}','\u{FF52}','\u{FF53}','\u{FF54}',";
"    '\u{FF55}','\u{FF56}','\u{FF57}','\u{FF58}','\u{FF59}','\u{FF5A}','\u{0391}','\u{0392}',";
"    '\u{0393}','\u{0394}','\u{0395}','\u{0396}','\u{0397}','\u{0398}','\u{0399}','\u{039A}',";
"    '\u{039B}','\u{039C}','\u{039D}','\u{039E}','\u{039F}','\u{03A0}','\u{03A1}','\u{03A3}',";
"    '\u{03A4}','\u{03A5}','\u{03A6}','\u{03A7}','\u{03A8}','\u{03A9}','\u{03B1}','\u{03B2}',";
"    '\u{03B3}','\u{03B4}','\u{03B5}','\u{03B6}','\u{03B7}','\u{03B8}','\u{03B9}','\u{03BA}',";
"    '\u{03BB}','\u{03BC}','\u{03BD}','\u{03BE}','\u{03BF}','\u{03C0}','\u{03C1}','\u{03C3}',";
"    '\u{03C4}','\u{03C5}','\u{03C6}','\u{03C7}','\u{03C8}','\u{03C9}','\u{3105}','\u{3106}',";
"    '\u{3107}','\u{3108}','\u{3109}','\u{310A}','\u{310B}','\u{310C}','\u{310D}','\u{310E}',";
"    '\u{310F}','\u{3110}','\u{3111}','\u{3112}','\u{3113}','\u{3114}','\u{3115}','\u{3116}',";
"    '\u{3117}','\u{3118}','\u{3119}','\u{311A}','\u{311B}','\u{311C}','\u{311D}','\u{311E}',";
"    '\u{311F}','\u{3120}','\u{3121}','\u{3122}','\u{3123}','\u{3124}','\u{3125}','\u{3126}',";
"    '\u{3127}','\u{3128}','\u{3129}','\u{02D9}','\u{02C9}','\u{02CA}','\u{02C7}','\u{02CB}',";
"    '\u{2400}','\u{2401}','\u{2402}','\u{2403}','\u{2404}','\u{2405}','\u{2406}','\u{2407}',";
"    '\u{2408}','\u{2409}','\u{240A}','\u{240B}','\u{240C}','\u{240D}','\u{240E}','\u{240F}',";
"    '\u{2410}','\u{2411}','\u{2412}','\u{2413}','\u{2414}','\u{2415}','\u{2416}','\u{2417}',";
"    '\u{2418}','\u{2419}','\u{241A}','\u{241B}','\u{241C}','\u{241D}','\u{241E}','\u{241F}',";
"    '\u{2421}','\u{20AC}','�','�','�','�','�','�',";
"    '�','�','�','�','�','�','�','�',";
"    '�','�','�','�','�','�','�','�',";
"    '�','�','�','�','�','�','�','\u{4E00}',";
"    '\u{4E59}','\u{4E01}','\u{4E03}','\u{4E43}','\u{4E5D}','\u{4E86}','\u{4E8C}','\u{4EBA}',";
"    '\u{513F}','\u{5165}','\u{516B}','\u{51E0}','\u{5200}','\u{5201}','\u{529B}','\u{5315}',";
"    '\u{5341}','\u{535C}','\u{53C8}','\u{4E09}','\u{4E0B}','\u{4E08}','\u{4E0A}','\u{4E2B}',";
"    '\u{4E38}','\u{51E1}','\u{4E45}','\u{4E48}','\u{4E5F}','\u{4E5E}','\u{4E8E}','\u{4EA1}',";
"    '\u{5140}','\u{5203}','\u{52FA}','\u{5343}','\u{53C9}','\u{53E3}','\u{571F}','\u{58EB}',";
"    '\u{5915}','\u{5927}','\u{5973}','\u{5B50}','\u{5B51}','\u{5B53}','\u{5BF8}','\u{5C0F}',";
"    '\u{5C22}','\u{5C38}','\u{5C71}','\u{5DDD}','\u{5DE5}','\u{5DF1}','\u{5DF2}','\u{5DF3}',";
"    '\u{5DFE}','\u{5E72}','\u{5EFE}','\u{5F0B}','\u{5F13}','\u{624D}','\u{4E11}','\u{4E10}',";
"    '\u{4E0D}','\u{4E2D}','\u{4E30}','\u{4E39}','\u{4E4B}','\u{5C39}','\u{4E88}','\u{4E91}',";
"    '\u{4E95}','\u{4E92}','\u{4E94}','\u{4EA2}','\u{4EC1}','\u{4EC0}','\u{4EC3}','\u{4EC6}',";
"    '\u{4EC7}','\u{4ECD}','\u{4ECA}','\u{4ECB}','\u{4EC4}','\u{5143}','\u{5141}','\u{5167}',";
"    '\u{516D}','\u{516E}','\u{516C}','\u{5197}','\u{51F6}','\u{5206}','\u{5207}','\u{5208}',";
"    '\u{52FB}','\u{52FE}','\u{52FF}','\u{5316}','\u{5339}','\u{5348}','\u{5347}','\u{5345}',";
"    '\u{535E}','\u{5384}','\u{53CB}','\u{53CA}','\u{53CD}','\u{58EC}','\u{5929}','\u{592B}',";
"    '\u{592A}','\u{592D}','\u{5B54}','\u{5C11}','\u{5C24}','\u{5C3A}','\u{5C6F}','\u{5DF4}',";
"    '\u{5E7B}','\u{5EFF}','\u{5F14}','\u{5F15}','\u{5FC3}','\u{6208}','\u{6236}','\u{624B}',";
"    '\u{624E}','\u{652F}','\u{6587}','\u{6597}','\u{65A4}','\u{65B9}','\u{65E5}','\u{66F0}',";
"    '\u{6708}','\u{6728}','\u{6B20}','\u{6B62}','\u{6B79}','\u{6BCB}','\u{6BD4}','\u{6BDB}',";
"    '\u{6C0F}','\u{6C34}','\u{706B}','\u{722A}','\u{7236}','\u{723B}','\u{7247}','\u{7259}',";
"    '\u{725B}','\u{72AC}','\u{738B}','\u{4E19}','\u{4E16}','\u{4E15}','\u{4E14}','\u{4E18}',";
"    '\u{4E3B}','\u{4E4D}','\u{4E4F}','\u{4E4E}','\u{4EE5}','\u{4ED8}','\u{4ED4}','\u{4ED5}',";
"    '\u{4ED6}','\u{4ED7}','\u{4EE3}','\u{4EE4}','\u{4ED9}','\u{4EDE}','\u{5145}','\u{5144}',";
"    '\u{5189}','\u{518A}','\u{51AC}','\u{51F9}','\u{51FA}','\u{51F8}','\u{520A}','\u{52A0}',";
"    '\u{529F}','\u{5305}','\u{5306}','\u{5317}','\u{531D}','\u{4EDF}','\u{534A}','\u{5349}',";
"    '\u{5361}','\u{5360}','\u{536F}','\u{536E}','\u{53BB}','\u{53EF}','\u{53E4}','\u{53F3}',";
"    '\u{53EC}','\u{53EE}','\u{53E9}','\u{53E8}','\u{53FC}','\u{53F8}','\u{53F5}','\u{53EB}',";
"    '\u{53E6}','\u{53EA}','\u{53F2}','\u{53F1}','\u{53F0}','\u{53E5}','\u{53ED}','\u{53FB}',";
"    '\u{56DB}','\u{56DA}','\u{5916}','\u{592E}','\u{5931}','\u{5974}','\u{5976}','\u{5B55}',";
"    '\u{5B83}','\u{5C3C}','\u{5DE8}','\u{5DE7}','\u{5DE6}','\u{5E02}','\u{5E03}','\u{5E73}',";
"    '\u{5E7C}','\u{5F01}','\u{5F18}','\u{5F17}','\u{5FC5}','\u{620A}','\u{6253}','\u{6254}',";
"    '\u{6252}','\u{6251}','\u{65A5}','\u{65E6}','\u{672E}','\u{672C}','\u{672A}','\u{672B}',";
"    '\u{672D}','\u{6B63}','\u{6BCD}','\u{6C11}','\u{6C10}','\u{6C38}','\u{6C41}','\u{6C40}',";
"    '\u{6C3E}','\u{72AF}','\u{7384}','\u{7389}','\u{74DC}','\u{74E6}','\u{7518}','\u{751F}',";
"    '\u{7528}','\u{7529}','\u{7530}','\u{7531}','\u{7532}','\u{7533}','\u{758B}','\u{767D}',";
"    '\u{76AE}','\u{76BF}','\u{76EE}','\u{77DB}','\u{77E2}','\u{77F3}','\u{793A}','\u{79BE}',";
"    '\u{7A74}','\u{7ACB}','\u{4E1E}','\u{4E1F}','\u{4E52}','\u{4E53}','\u{4E69}','\u{4E99}',";
"    '\u{4EA4}','\u{4EA6}','\u{4EA5}','\u{4EFF}','\u{4F09}','\u{4F19}','\u{4F0A}','\u{4F15}',";
"    '\u{4F0D}','\u{4F10}','\u{4F11}','\u{4F0F}','\u{4EF2}','\u{4EF6}','\u{4EFB}','\u{4EF0}',";
"    '\u{4EF3}','\u{4EFD}','\u{4F01}','\u{4F0B}','\u{5149}','\u{5147}','\u{5146}','\u{5148}',";
"    '\u{5168}','\u{5171}','\u{518D}','\u{51B0}','\u{5217}','\u{5211}','\u{5212}','\u{520E}',";
"    '\u{5216}','\u{52A3}','\u{5308}','\u{5321}','\u{5320}','\u{5370}','\u{5371}','\u{5409}',";
"    '\u{540F}','\u{540C}','\u{540A}','\u{5410}','\u{5401}','\u{540B}','\u{5404}','\u{5411}',";
"    '\u{540D}','\u{5408}','\u{5403}','\u{540E}','\u{5406}','\u{5412}','\u{56E0}','\u{56DE}',";
"    '\u{56DD}','\u{5733}','\u{5730}','\u{5728}','\u{572D}','\u{572C}','\u{572F}','\u{5729}',";
"    '\u{5919}','\u{591A}','\u{5937}','\u{5938}','\u{5984}','\u{5978}','\u{5983}','\u{597D}',";
"    '\u{5979}','\u{5982}','\u{5981}','\u{5B57}','\u{5B58}','\u{5B87}','\u{5B88}','\u{5B85}',";
"    '\u{5B89}','\u{5BFA}','\u{5C16}','\u{5C79}','\u{5DDE}','\u{5E06}','\u{5E76}','\u{5E74}',";
"    '\u{5F0F}','\u{5F1B}','\u{5FD9}','\u{5FD6}','\u{620E}','\u{620C}','\u{620D}','\u{6210}',";
"    '\u{6263}','\u{625B}','\u{6258}','\u{6536}','\u{65E9}','\u{65E8}','\u{65EC}','\u{65ED}',";
"    '\u{66F2}','\u{66F3}','\u{6709}','\u{673D}','\u{6734}','\u{6731}','\u{6735}','\u{6B21}',";
"    '\u{6B64}','\u{6B7B}','\u{6C16}','\u{6C5D}','\u{6C57}','\u{6C59}','\u{6C5F}','\u{6C60}',";
"    '\u{6C50}','\u{6C55}','\u{6C61}','\u{6C5B}','\u{6C4D}','\u{6C4E}','\u{7070}','\u{725F}',";
"    '\u{725D}','\u{767E}','\u{7AF9}','\u{7C73}','\u{7CF8}','\u{7F36}','\u{7F8A}','\u{7FBD}',";
"    '\u{8001}','\u{8003}','\u{800C}','\u{8012}','\u{8033}','\u{807F}','\u{8089}','\u{808B}',";
"    '\u{808C}','\u{81E3}','\u{81EA}','\u{81F3}','\u{81FC}','\u{820C}','\u{821B}','\u{821F}',";
"    '\u{826E}','\u{8272}','\u{827E}','\u{866B}','\u{8840}','\u{884C}','\u{8863}','\u{897F}',";
"    '\u{9621}','\u{4E32}','\u{4EA8}','\u{4F4D}','\u{4F4F}','\u{4F47}','\u{4F57}','\u{4F5E}',";
"    '\u{4F34}','\u{4F5B}','\u{4F55}','\u{4F30}','\u{4F50}','\u{4F51}','\u{4F3D}','\u{4F3A}',";
"    '\u{4F38}','\u{4F43}','\u{4F54}','\u{4F3C}','\u{4F46}','\u{4F63}','\u{4F5C}','\u{4F60}',";
"    '\u{4F2F}','\u{4F4E}','\u{4F36}','\u{4F59}','\u{4F5D}','\u{4F48}','\u{4F5A}','\u{514C}',";
"    '\u{514B}','\u{514D}','\u{5175}','\u{51B6}','\u{51B7}','\u{5225}','\u{5224}','\u{5229}',";
"    '\u{522A}','\u{5228}','\u{52AB}','\u{52A9}','\u{52AA}','\u{52AC}','\u{5323}','\u{5373}',";
"    '\u{5375}','\u{541D}','\u{542D}','\u{541E}','\u{543E}','\u{5426}','\u{544E}','\u{5427}',";
"    '\u{5446}','\u{5443}','\u{5433}','\u{5448}','\u{5442}','\u{541B}','\u{5429}','\u{544A}',";
"    '\u{5439}','\u{543B}','\u{5438}','\u{542E}','\u{5435}','\u{5436}','\u{5420}','\u{543C}',";
"    '\u{5440}','\u{5431}','\u{542B}','\u{541F}','\u{542C}','\u{56EA}','\u{56F0}','\u{56E4}',";
"    '\u{56EB}','\u{574A}','\u{5751}','\u{5740}','\u{574D}','\u{5747}','\u{574E}','\u{573E}',";
"    '\u{5750}','\u{574F}','\u{573B}','\u{58EF}','\u{593E}','\u{599D}','\u{5992}','\u{59A8}',";
"    '\u{599E}','\u{59A3}','\u{5999}','\u{5996}','\u{598D}','\u{59A4}','\u{5993}','\u{598A}',";
"    '\u{59A5}','\u{5B5D}','\u{5B5C}','\u{5B5A}','\u{5B5B}','\u{5B8C}','\u{5B8B}','\u{5B8F}',";
"    '\u{5C2C}','\u{5C40}','\u{5C41}','\u{5C3F}','\u{5C3E}','\u{5C90}','\u{5C91}','\u{5C94}',";
"    '\u{5C8C}','\u{5DEB}','\u{5E0C}','\u{5E8F}','\u{5E87}','\u{5E8A}','\u{5EF7}','\u{5F04}',";
"    '\u{5F1F}','\u{5F64}','\u{5F62}','\u{5F77}','\u{5F79}','\u{5FD8}','\u{5FCC}','\u{5FD7}',";
"    '\u{5FCD}','\u{5FF1}','\u{5FEB}','\u{5FF8}','\u{5FEA}','\u{6212}','\u{6211}','\u{6284}',";
"    '\u{6297}','\u{6296}','\u{6280}','\u{6276}','\u{6289}','\u{626D}','\u{628A}','\u{627C}',";
"    '\u{627E}','\u{6279}','\u{6273}','\u{6292}','\u{626F}','\u{6298}','\u{626E}','\u{6295}',";
"    '\u{6293}','\u{6291}','\u{6286}','\u{6539}','\u{653B}','\u{6538}','\u{65F1}','\u{66F4}',"
].
(* /repo/src/generated/whatwg/big5_whatwg_tables.rs.inc:769-1024 *)
Definition big5_inc_3 : list line := [
"    '\u{675F}','\u{674E}','\u{674F}','\u{6750}','\u{6751}','\u{675C}','\u{6756}','\u{675E}',";
"    '\u{6749}','\u{6746}','\u{6760}','\u{6753}','\u{6757}','\u{6B65}','\u{6BCF}','\u{6C42}',";
"    '\u{6C5E}','\u{6C99}','\u{6C81}','\u{6C88}','\u{6C89}','\u{6C85}','\u{6C9B}','\u{6C6A}',";
"    '\u{6C7A}','\u{6C90}','\u{6C70}','\u{6C8C}','\u{6C68}','\u{6C96}','\u{6C92}','\u{6C7D}',";
"    '\u{6C83}','\u{6C72}','\u{6C7E}','\u{6C74}','\u{6C86}','\u{6C76}','\u{6C8D}','\u{6C94}',";
"    '\u{6C98}','\u{6C82}','\u{7076}','\u{707C}','\u{707D}','\u{7078}','\u{7262}','\u{7261}',";
"    '\u{7260}','\u{72C4}','\u{72C2}','\u{7396}','\u{752C}','\u{752B}','\u{7537}','\u{7538}',";
"    '\u{7682}','\u{76EF}','\u{77E3}','\u{79C1}','\u{79C0}','\u{79BF}','\u{7A76}','\u{7CFB}',";
"    '\u{7F55}','\u{8096}','\u{8093}','\u{809D}','\u{8098}','\u{809B}','\u{809A}','\u{80B2}',";
"    '\u{826F}','\u{8292}','\u{828B}','\u{828D}','\u{898B}','\u{89D2}','\u{8A00}','\u{8C37}',";
"    '\u{8C46}','\u{8C55}','\u{8C9D}','\u{8D64}','\u{8D70}','\u{8DB3}','\u{8EAB}','\u{8ECA}',";
"    '\u{8F9B}','\u{8FB0}','\u{8FC2}','\u{8FC6}','\u{8FC5}','\u{8FC4}','\u{5DE1}','\u{9091}',";
"    '\u{90A2}','\u{90AA}','\u{90A6}','\u{90A3}','\u{9149}','\u{91C6}','\u{91CC}','\u{9632}',";
"    '\u{962E}','\u{9631}','\u{962A}','\u{962C}','\u{4E26}','\u{4E56}','\u{4E73}','\u{4E8B}',";
"    '\u{4E9B}','\u{4E9E}','\u{4EAB}','\u{4EAC}','\u{4F6F}','\u{4F9D}','\u{4F8D}','\u{4F73}',";
"    '\u{4F7F}','\u{4F6C}','\u{4F9B}','\u{4F8B}','\u{4F86}','\u{4F83}','\u{4F70}','\u{4F75}',";
"    '\u{4F88}','\u{4F69}','\u{4F7B}','\u{4F96}','\u{4F7E}','\u{4F8F}','\u{4F91}','\u{4F7A}',";
"    '\u{5154}','\u{5152}','\u{5155}','\u{5169}','\u{5177}','\u{5176}','\u{5178}','\u{51BD}',";
"    '\u{51FD}','\u{523B}','\u{5238}','\u{5237}','\u{523A}','\u{5230}','\u{522E}','\u{5236}',";
"    '\u{5241}','\u{52BE}','\u{52BB}','\u{5352}','\u{5354}','\u{5353}','\u{5351}','\u{5366}',";
"    '\u{5377}','\u{5378}','\u{5379}','\u{53D6}','\u{53D4}','\u{53D7}','\u{5473}','\u{5475}',";
"    '\u{5496}','\u{5478}','\u{5495}','\u{5480}','\u{547B}','\u{5477}','\u{5484}','\u{5492}',";
"    '\u{5486}','\u{547C}','\u{5490}','\u{5471}','\u{5476}','\u{548C}','\u{549A}','\u{5462}',";
"    '\u{5468}','\u{548B}','\u{547D}','\u{548E}','\u{56FA}','\u{5783}','\u{5777}','\u{576A}',";
"    '\u{5769}','\u{5761}','\u{5766}','\u{5764}','\u{577C}','\u{591C}','\u{5949}','\u{5947}',";
"    '\u{5948}','\u{5944}','\u{5954}','\u{59BE}','\u{59BB}','\u{59D4}','\u{59B9}','\u{59AE}',";
"    '\u{59D1}','\u{59C6}','\u{59D0}','\u{59CD}','\u{59CB}','\u{59D3}','\u{59CA}','\u{59AF}',";
"    '\u{59B3}','\u{59D2}','\u{59C5}','\u{5B5F}','\u{5B64}','\u{5B63}','\u{5B97}','\u{5B9A}',";
"    '\u{5B98}','\u{5B9C}','\u{5B99}','\u{5B9B}','\u{5C1A}','\u{5C48}','\u{5C45}','\u{5C46}',";
"    '\u{5CB7}','\u{5CA1}','\u{5CB8}','\u{5CA9}','\u{5CAB}','\u{5CB1}','\u{5CB3}','\u{5E18}',";
"    '\u{5E1A}','\u{5E16}','\u{5E15}','\u{5E1B}','\u{5E11}','\u{5E78}','\u{5E9A}','\u{5E97}',";
"    '\u{5E9C}','\u{5E95}','\u{5E96}','\u{5EF6}','\u{5F26}','\u{5F27}','\u{5F29}','\u{5F80}',";
"    '\u{5F81}','\u{5F7F}','\u{5F7C}','\u{5FDD}','\u{5FE0}','\u{5FFD}','\u{5FF5}','\u{5FFF}',";
"    '\u{600F}','\u{6014}','\u{602F}','\u{6035}','\u{6016}','\u{602A}','\u{6015}','\u{6021}',";
"    '\u{6027}','\u{6029}','\u{602B}','\u{601B}','\u{6216}','\u{6215}','\u{623F}','\u{623E}',";
"    '\u{6240}','\u{627F}','\u{62C9}','\u{62CC}','\u{62C4}','\u{62BF}','\u{62C2}','\u{62B9}',";
"    '\u{62D2}','\u{62DB}','\u{62AB}','\u{62D3}','\u{62D4}','\u{62CB}','\u{62C8}','\u{62A8}',";
"    '\u{62BD}','\u{62BC}','\u{62D0}','\u{62D9}','\u{62C7}','\u{62CD}','\u{62B5}','\u{62DA}',";
"    '\u{62B1}','\u{62D8}','\u{62D6}','\u{62D7}','\u{62C6}','\u{62AC}','\u{62CE}','\u{653E}',";
"    '\u{65A7}','\u{65BC}','\u{65FA}','\u{6614}','\u{6613}','\u{660C}','\u{6606}','\u{6602}',";
"    '\u{660E}','\u{6600}','\u{660F}','\u{6615}','\u{660A}','\u{6607}','\u{670D}','\u{670B}',";
"    '\u{676D}','\u{678B}','\u{6795}','\u{6771}','\u{679C}','\u{6773}','\u{6777}','\u{6787}',";
"    '\u{679D}','\u{6797}','\u{676F}','\u{6770}','\u{677F}','\u{6789}','\u{677E}','\u{6790}',";
"    '\u{6775}','\u{679A}','\u{6793}','\u{677C}','\u{676A}','\u{6772}','\u{6B23}','\u{6B66}',";
"    '\u{6B67}','\u{6B7F}','\u{6C13}','\u{6C1B}','\u{6CE3}','\u{6CE8}','\u{6CF3}','\u{6CB1}',";
"    '\u{6CCC}','\u{6CE5}','\u{6CB3}','\u{6CBD}','\u{6CBE}','\u{6CBC}','\u{6CE2}','\u{6CAB}',";
"    '\u{6CD5}','\u{6CD3}','\u{6CB8}','\u{6CC4}','\u{6CB9}','\u{6CC1}','\u{6CAE}','\u{6CD7}',";
"    '\u{6CC5}','\u{6CF1}','\u{6CBF}','\u{6CBB}','\u{6CE1}','\u{6CDB}','\u{6CCA}','\u{6CAC}',";
"    '\u{6CEF}','\u{6CDC}','\u{6CD6}','\u{6CE0}','\u{7095}','\u{708E}','\u{7092}','\u{708A}',";
"    '\u{7099}','\u{722C}','\u{722D}','\u{7238}','\u{7248}','\u{7267}','\u{7269}','\u{72C0}',";
"    '\u{72CE}','\u{72D9}','\u{72D7}','\u{72D0}','\u{73A9}','\u{73A8}','\u{739F}','\u{73AB}',";
"    '\u{73A5}','\u{753D}','\u{759D}','\u{7599}','\u{759A}','\u{7684}','\u{76C2}','\u{76F2}',";
"    '\u{76F4}','\u{77E5}','\u{77FD}','\u{793E}','\u{7940}','\u{7941}','\u{79C9}','\u{79C8}',";
"    '\u{7A7A}','\u{7A79}','\u{7AFA}','\u{7CFE}','\u{7F54}','\u{7F8C}','\u{7F8B}','\u{8005}',";
"    '\u{80BA}','\u{80A5}','\u{80A2}','\u{80B1}','\u{80A1}','\u{80AB}','\u{80A9}','\u{80B4}',";
"    '\u{80AA}','\u{80AF}','\u{81E5}','\u{81FE}','\u{820D}','\u{82B3}','\u{829D}','\u{8299}',";
"    '\u{82AD}','\u{82BD}','\u{829F}','\u{82B9}','\u{82B1}','\u{82AC}','\u{82A5}','\u{82AF}',";
"    '\u{82B8}','\u{82A3}','\u{82B0}','\u{82BE}','\u{82B7}','\u{864E}','\u{8671}','\u{521D}',";
"    '\u{8868}','\u{8ECB}','\u{8FCE}','\u{8FD4}','\u{8FD1}','\u{90B5}','\u{90B8}','\u{90B1}',";
"    '\u{90B6}','\u{91C7}','\u{91D1}','\u{9577}','\u{9580}','\u{961C}','\u{9640}','\u{963F}',";
"    '\u{963B}','\u{9644}','\u{9642}','\u{96B9}','\u{96E8}','\u{9752}','\u{975E}','\u{4E9F}',";
"    '\u{4EAD}','\u{4EAE}','\u{4FE1}','\u{4FB5}','\u{4FAF}','\u{4FBF}','\u{4FE0}','\u{4FD1}',";
"    '\u{4FCF}','\u{4FDD}','\u{4FC3}','\u{4FB6}','\u{4FD8}','\u{4FDF}','\u{4FCA}','\u{4FD7}',";
"    '\u{4FAE}','\u{4FD0}','\u{4FC4}','\u{4FC2}','\u{4FDA}','\u{4FCE}','\u{4FDE}','\u{4FB7}',";
"    '\u{5157}','\u{5192}','\u{5191}','\u{51A0}','\u{524E}','\u{5243}','\u{524A}','\u{524D}',";
"    '\u{524C}','\u{524B}','\u{5247}','\u{52C7}','\u{52C9}','\u{52C3}','\u{52C1}','\u{530D}',";
"    '\u{5357}','\u{537B}','\u{539A}','\u{53DB}','\u{54AC}','\u{54C0}','\u{54A8}','\u{54CE}',";
"    '\u{54C9}','\u{54B8}','\u{54A6}','\u{54B3}','\u{54C7}','\u{54C2}','\u{54BD}','\u{54AA}',";
"    '\u{54C1}','\u{54C4}','\u{54C8}','\u{54AF}','\u{54AB}','\u{54B1}','\u{54BB}','\u{54A9}',";
"    '\u{54A7}','\u{54BF}','\u{56FF}','\u{5782}','\u{578B}','\u{57A0}','\u{57A3}','\u{57A2}',";
"    '\u{57CE}','\u{57AE}','\u{5793}','\u{5955}','\u{5951}','\u{594F}','\u{594E}','\u{5950}',";
"    '\u{59DC}','\u{59D8}','\u{59FF}','\u{59E3}','\u{59E8}','\u{5A03}','\u{59E5}','\u{59EA}',";
"    '\u{59DA}','\u{59E6}','\u{5A01}','\u{59FB}','\u{5B69}','\u{5BA3}','\u{5BA6}','\u{5BA4}',";
"    '\u{5BA2}','\u{5BA5}','\u{5C01}','\u{5C4E}','\u{5C4F}','\u{5C4D}','\u{5C4B}','\u{5CD9}',";
"    '\u{5CD2}','\u{5DF7}','\u{5E1D}','\u{5E25}','\u{5E1F}','\u{5E7D}','\u{5EA0}','\u{5EA6}',";
"    '\u{5EFA}','\u{5F08}','\u{5F2D}','\u{5F65}','\u{5F88}','\u{5F85}','\u{5F8A}','\u{5F8B}',";
"    '\u{5F87}','\u{5F8C}','\u{5F89}','\u{6012}','\u{601D}','\u{6020}','\u{6025}','\u{600E}',";
"    '\u{6028}','\u{604D}','\u{6070}','\u{6068}','\u{6062}','\u{6046}','\u{6043}','\u{606C}',";
"    '\u{606B}','\u{606A}','\u{6064}','\u{6241}','\u{62DC}','\u{6316}','\u{6309}','\u{62FC}',";
"    '\u{62ED}','\u{6301}','\u{62EE}','\u{62FD}','\u{6307}','\u{62F1}','\u{62F7}','\u{62EF}',";
"    '\u{62EC}','\u{62FE}','\u{62F4}','\u{6311}','\u{6302}','\u{653F}','\u{6545}','\u{65AB}',";
"    '\u{65BD}','\u{65E2}','\u{6625}','\u{662D}','\u{6620}','\u{6627}','\u{662F}','\u{661F}',";
"    '\u{6628}','\u{6631}','\u{6624}','\u{66F7}','\u{67FF}','\u{67D3}','\u{67F1}','\u{67D4}',";
"    '\u{67D0}','\u{67EC}','\u{67B6}','\u{67AF}','\u{67F5}','\u{67E9}','\u{67EF}','\u{67C4}',";
"    '\u{67D1}','\u{67B4}','\u{67DA}','\u{67E5}','\u{67B8}','\u{67CF}','\u{67DE}','\u{67F3}',";
"    '\u{67B0}','\u{67D9}','\u{67E2}','\u{67DD}','\u{67D2}','\u{6B6A}','\u{6B83}','\u{6B86}',";
"    '\u{6BB5}','\u{6BD2}','\u{6BD7}','\u{6C1F}','\u{6CC9}','\u{6D0B}','\u{6D32}','\u{6D2A}',";
"    '\u{6D41}','\u{6D25}','\u{6D0C}','\u{6D31}','\u{6D1E}','\u{6D17}','\u{6D3B}','\u{6D3D}',";
"    '\u{6D3E}','\u{6D36}','\u{6D1B}','\u{6CF5}','\u{6D39}','\u{6D27}','\u{6D38}','\u{6D29}',";
"    '\u{6D2E}','\u{6D35}','\u{6D0E}','\u{6D2B}','\u{70AB}','\u{70BA}','\u{70B3}','\u{70AC}',";
"    '\u{70AF}','\u{70AD}','\u{70B8}','\u{70AE}','\u{70A4}','\u{7230}','\u{7272}','\u{726F}',";
"    '\u{7274}','\u{72E9}','\u{72E0}','\u{72E1}','\u{73B7}','\u{73CA}','\u{73BB}','\u{73B2}',";
"    '\u{73CD}','\u{73C0}','\u{73B3}','\u{751A}','\u{752D}','\u{754F}','\u{754C}','\u{754E}',";
"    '\u{754B}','\u{75AB}','\u{75A4}','\u{75A5}','\u{75A2}','\u{75A3}','\u{7678}','\u{7686}',";
"    '\u{7687}','\u{7688}','\u{76C8}','\u{76C6}','\u{76C3}','\u{76C5}','\u{7701}','\u{76F9}',";
"    '\u{76F8}','\u{7709}','\u{770B}','\u{76FE}','\u{76FC}','\u{7707}','\u{77DC}','\u{7802}',";
"    '\u{7814}','\u{780C}','\u{780D}','\u{7946}','\u{7949}','\u{7948}','\u{7947}','\u{79B9}',";
"    '\u{79BA}','\u{79D1}','\u{79D2}','\u{79CB}','\u{7A7F}','\u{7A81}','\u{7AFF}','\u{7AFD}',";
"    '\u{7C7D}','\u{7D02}','\u{7D05}','\u{7D00}','\u{7D09}','\u{7D07}','\u{7D04}','\u{7D06}',";
"    '\u{7F38}','\u{7F8E}','\u{7FBF}','\u{8004}','\u{8010}','\u{800D}','\u{8011}','\u{8036}',";
"    '\u{80D6}','\u{80E5}','\u{80DA}','\u{80C3}','\u{80C4}','\u{80CC}','\u{80E1}','\u{80DB}',";
"    '\u{80CE}','\u{80DE}','\u{80E4}','\u{80DD}','\u{81F4}','\u{8222}','\u{82E7}','\u{8303}',";
"    '\u{8305}','\u{82E3}','\u{82DB}','\u{82E6}','\u{8304}','\u{82E5}','\u{8302}','\u{8309}',";
"    '\u{82D2}','\u{82D7}','\u{82F1}','\u{8301}','\u{82DC}','\u{82D4}','\u{82D1}','\u{82DE}',";
"    '\u{82D3}','\u{82DF}','\u{82EF}','\u{8306}','\u{8650}','\u{8679}','\u{867B}','\u{867A}',";
"    '\u{884D}','\u{886B}','\u{8981}','\u{89D4}','\u{8A08}','\u{8A02}','\u{8A03}','\u{8C9E}',";
"    '\u{8CA0}','\u{8D74}','\u{8D73}','\u{8DB4}','\u{8ECD}','\u{8ECC}','\u{8FF0}','\u{8FE6}',";
"    '\u{8FE2}','\u{8FEA}','\u{8FE5}','\u{8FED}','\u{8FEB}','\u{8FE4}','\u{8FE8}','\u{90CA}',";
"    '\u{90CE}','\u{90C1}','\u{90C3}','\u{914B}','\u{914A}','\u{91CD}','\u{9582}','\u{9650}',";
"    '\u{964B}','\u{964C}','\u{964D}','\u{9762}','\u{9769}','\u{97CB}','\u{97ED}','\u{97F3}',";
"    '\u{9801}','\u{98A8}','\u{98DB}','\u{98DF}','\u{9996}','\u{9999}','\u{4E58}','\u{4EB3}',";
"    '\u{500C}','\u{500D}','\u{5023}','\u{4FEF}','\u{5026}','\u{5025}','\u{4FF8}','\u{5029}',";
"    '\u{5016}','\u{5006}','\u{503C}','\u{501F}','\u{501A}','\u{5012}','\u{5011}','\u{4FFA}',";
"    '\u{5000}','\u{5014}','\u{5028}','\u{4FF1}','\u{5021}','\u{500B}','\u{5019}','\u{5018}',";
"    '\u{4FF3}','\u{4FEE}','\u{502D}','\u{502A}','\u{4FFE}','\u{502B}','\u{5009}','\u{517C}',";
"    '\u{51A4}','\u{51A5}','\u{51A2}','\u{51CD}','\u{51CC}','\u{51C6}','\u{51CB}','\u{5256}',";
"    '\u{525C}','\u{5254}','\u{525B}','\u{525D}','\u{532A}','\u{537F}','\u{539F}','\u{539D}',";
"    '\u{53DF}','\u{54E8}','\u{5510}','\u{5501}','\u{5537}','\u{54FC}','\u{54E5}','\u{54F2}',";
"    '\u{5506}','\u{54FA}','\u{5514}','\u{54E9}','\u{54ED}','\u{54E1}','\u{5509}','\u{54EE}',";
"    '\u{54EA}','\u{54E6}','\u{5527}','\u{5507}','\u{54FD}','\u{550F}','\u{5703}','\u{5704}',";
"    '\u{57C2}','\u{57D4}','\u{57CB}','\u{57C3}','\u{5809}','\u{590F}','\u{5957}','\u{5958}',";
"    '\u{595A}','\u{5A11}','\u{5A18}','\u{5A1C}','\u{5A1F}','\u{5A1B}','\u{5A13}','\u{59EC}',";
"    '\u{5A20}','\u{5A23}','\u{5A29}','\u{5A25}','\u{5A0C}','\u{5A09}','\u{5B6B}','\u{5C58}',";
"    '\u{5BB0}','\u{5BB3}','\u{5BB6}','\u{5BB4}','\u{5BAE}','\u{5BB5}','\u{5BB9}','\u{5BB8}',";
"    '\u{5C04}','\u{5C51}','\u{5C55}','\u{5C50}','\u{5CED}','\u{5CFD}','\u{5CFB}','\u{5CEA}',";
"    '\u{5CE8}','\u{5CF0}','\u{5CF6}','\u{5D01}','\u{5CF4}','\u{5DEE}','\u{5E2D}','\u{5E2B}',";
"    '\u{5EAB}','\u{5EAD}','\u{5EA7}','\u{5F31}','\u{5F92}','\u{5F91}','\u{5F90}','\u{6059}',";
"    '\u{6063}','\u{6065}','\u{6050}','\u{6055}','\u{606D}','\u{6069}','\u{606F}','\u{6084}',";
"    '\u{609F}','\u{609A}','\u{608D}','\u{6094}','\u{608C}','\u{6085}','\u{6096}','\u{6247}',";
"    '\u{62F3}','\u{6308}','\u{62FF}','\u{634E}','\u{633E}','\u{632F}','\u{6355}','\u{6342}',";
"    '\u{6346}','\u{634F}','\u{6349}','\u{633A}','\u{6350}','\u{633D}','\u{632A}','\u{632B}',";
"    '\u{6328}','\u{634D}','\u{634C}','\u{6548}','\u{6549}','\u{6599}','\u{65C1}','\u{65C5}',";
"    '\u{6642}','\u{6649}','\u{664F}','\u{6643}','\u{6652}','\u{664C}','\u{6645}','\u{6641}',";
"    '\u{66F8}','\u{6714}','\u{6715}','\u{6717}','\u{6821}','\u{6838}','\u{6848}','\u{6846}',";
"    '\u{6853}','\u{6839}','\u{6842}','\u{6854}','\u{6829}','\u{68B3}','\u{6817}','\u{684C}',";
"    '\u{6851}','\u{683D}','\u{67F4}','\u{6850}','\u{6840}','\u{683C}','\u{6843}','\u{682A}',";
"    '\u{6845}','\u{6813}','\u{6818}','\u{6841}','\u{6B8A}','\u{6B89}','\u{6BB7}','\u{6C23}',";
"    '\u{6C27}','\u{6C28}','\u{6C26}','\u{6C24}','\u{6CF0}','\u{6D6A}','\u{6D95}','\u{6D88}',";
"    '\u{6D87}','\u{6D66}','\u{6D78}','\u{6D77}','\u{6D59}','\u{6D93}','\u{6D6C}','\u{6D89}',";
"    '\u{6D6E}','\u{6D5A}','\u{6D74}','\u{6D69}','\u{6D8C}','\u{6D8A}','\u{6D79}','\u{6D85}',";
"    '\u{6D65}','\u{6D94}','\u{70CA}','\u{70D8}','\u{70E4}','\u{70D9}','\u{70C8}','\u{70CF}',";
"    '\u{7239}','\u{7279}','\u{72FC}','\u{72F9}','\u{72FD}','\u{72F8}','\u{72F7}','\u{7386}',";
"    '\u{73ED}','\u{7409}','\u{73EE}','\u{73E0}','\u{73EA}','\u{73DE}','\u{7554}','\u{755D}',";
"    '\u{755C}','\u{755A}','\u{7559}','\u{75BE}','\u{75C5}','\u{75C7}','\u{75B2}','\u{75B3}',";
"    '\u{75BD}','\u{75BC}','\u{75B9}','\u{75C2}','\u{75B8}','\u{768B}','\u{76B0}','\u{76CA}',";
"    '\u{76CD}','\u{76CE}','\u{7729}','\u{771F}','\u{7720}','\u{7728}','\u{77E9}','\u{7830}',";
"    '\u{7827}','\u{7838}','\u{781D}','\u{7834}','\u{7837}','\u{7825}','\u{782D}','\u{7820}',";
"    '\u{781F}','\u{7832}','\u{7955}','\u{7950}','\u{7960}','\u{795F}','\u{7956}','\u{795E}',";
"    '\u{795D}','\u{7957}','\u{795A}','\u{79E4}','\u{79E3}','\u{79E7}','\u{79DF}','\u{79E6}',";
"    '\u{79E9}','\u{79D8}','\u{7A84}','\u{7A88}','\u{7AD9}','\u{7B06}','\u{7B11}','\u{7C89}',";
"    '\u{7D21}','\u{7D17}','\u{7D0B}','\u{7D0A}','\u{7D20}','\u{7D22}','\u{7D14}','\u{7D10}',";
"    '\u{7D15}','\u{7D1A}','\u{7D1C}','\u{7D0D}','\u{7D19}','\u{7D1B}','\u{7F3A}','\u{7F5F}',";
"    '\u{7F94}','\u{7FC5}','\u{7FC1}','\u{8006}','\u{8018}','\u{8015}','\u{8019}','\u{8017}',";
"    '\u{803D}','\u{803F}','\u{80F1}','\u{8102}','\u{80F0}','\u{8105}','\u{80ED}','\u{80F4}',";
"    '\u{8106}','\u{80F8}','\u{80F3}','\u{8108}','\u{80FD}','\u{810A}','\u{80FC}','\u{80EF}',";
"    '\u{81ED}','\u{81EC}','\u{8200}','\u{8210}','\u{822A}','\u{822B}','\u{8228}','\u{822C}',";
"    '\u{82BB}','\u{832B}','\u{8352}','\u{8354}','\u{834A}','\u{8338}','\u{8350}','\u{8349}',";
"    '\u{8335}','\u{8334}','\u{834F}','\u{8332}','\u{8339}','\u{8336}','\u{8317}','\u{8340}',";
"    '\u{8331}','\u{8328}','\u{8343}','\u{8654}','\u{868A}','\u{86AA}','\u{8693}','\u{86A4}',";
"    '\u{86A9}','\u{868C}','\u{86A3}','\u{869C}','\u{8870}','\u{8877}','\u{8881}','\u{8882}',";
"    '\u{887D}','\u{8879}','\u{8A18}','\u{8A10}','\u{8A0E}','\u{8A0C}','\u{8A15}','\u{8A0A}',";
"    '\u{8A17}','\u{8A13}','\u{8A16}','\u{8A0F}','\u{8A11}','\u{8C48}','\u{8C7A}','\u{8C79}',";
"    '\u{8CA1}','\u{8CA2}','\u{8D77}','\u{8EAC}','\u{8ED2}','\u{8ED4}','\u{8ECF}','\u{8FB1}',";
"    '\u{9001}','\u{9006}','\u{8FF7}','\u{9000}','\u{8FFA}','\u{8FF4}','\u{9003}','\u{8FFD}',";
"    '\u{9005}','\u{8FF8}','\u{9095}','\u{90E1}','\u{90DD}','\u{90E2}','\u{9152}','\u{914D}',";
"    '\u{914C}','\u{91D8}','\u{91DD}','\u{91D7}','\u{91DC}','\u{91D9}','\u{9583}','\u{9662}',";
"    '\u{9663}','\u{9661}','\u{965B}','\u{965D}','\u{9664}','\u{9658}','\u{965E}','\u{96BB}',";
"    '\u{98E2}','\u{99AC}','\u{9AA8}','\u{9AD8}','\u{9B25}','\u{9B32}','\u{9B3C}','\u{4E7E}',";
"    '\u{507A}','\u{507D}','\u{505C}','\u{5047}','\u{5043}','\u{504C}','\u{505A}','\u{5049}',";
"    '\u{5065}','\u{5076}','\u{504E}','\u{5055}','\u{5075}','\u{5074}','\u{5077}','\u{504F}',";
"    '\u{500F}','\u{506F}','\u{506D}','\u{515C}','\u{5195}','\u{51F0}','\u{526A}','\u{526F}',";
"    '\u{52D2}','\u{52D9}','\u{52D8}','\u{52D5}','\u{5310}','\u{530F}','\u{5319}','\u{533F}',";
"    '\u{5340}','\u{533E}','\u{53C3}','\u{66FC}','\u{5546}','\u{556A}','\u{5566}','\u{5544}',";
"    '\u{555E}','\u{5561}','\u{5543}','\u{554A}','\u{5531}','\u{5556}','\u{554F}','\u{5555}',";
"    '\u{552F}','\u{5564}','\u{5538}','\u{552E}','\u{555C}','\u{552C}','\u{5563}','\u{5533}',";
"    '\u{5541}','\u{5557}','\u{5708}','\u{570B}','\u{5709}','\u{57DF}','\u{5805}','\u{580A}',";
"    '\u{5806}','\u{57E0}','\u{57E4}','\u{57FA}','\u{5802}','\u{5835}','\u{57F7}','\u{57F9}',";
"    '\u{5920}','\u{5962}','\u{5A36}','\u{5A41}','\u{5A49}','\u{5A66}','\u{5A6A}','\u{5A40}',";
"    '\u{5A3C}','\u{5A62}','\u{5A5A}','\u{5A46}','\u{5A4A}','\u{5B70}','\u{5BC7}','\u{5BC5}',";
"    '\u{5BC4}','\u{5BC2}','\u{5BBF}','\u{5BC6}','\u{5C09}','\u{5C08}','\u{5C07}','\u{5C60}',";
"    '\u{5C5C}','\u{5C5D}','\u{5D07}','\u{5D06}','\u{5D0E}','\u{5D1B}','\u{5D16}','\u{5D22}',";
"    '\u{5D11}','\u{5D29}','\u{5D14}','\u{5D19}','\u{5D24}','\u{5D27}','\u{5D17}','\u{5DE2}',";
"    '\u{5E38}','\u{5E36}','\u{5E33}','\u{5E37}','\u{5EB7}','\u{5EB8}','\u{5EB6}','\u{5EB5}',";
"    '\u{5EBE}','\u{5F35}','\u{5F37}','\u{5F57}','\u{5F6C}','\u{5F69}','\u{5F6B}','\u{5F97}',";
"    '\u{5F99}','\u{5F9E}','\u{5F98}','\u{5FA1}','\u{5FA0}','\u{5F9C}','\u{607F}','\u{60A3}',";
"    '\u{6089}','\u{60A0}','\u{60A8}','\u{60CB}','\u{60B4}','\u{60E6}','\u{60BD}','\u{60C5}',";
"    '\u{60BB}','\u{60B5}','\u{60DC}','\u{60BC}','\u{60D8}','\u{60D5}','\u{60C6}','\u{60DF}',";
"    '\u{60B8}','\u{60DA}','\u{60C7}','\u{621A}','\u{621B}','\u{6248}','\u{63A0}','\u{63A7}',";
"    '\u{6372}','\u{6396}','\u{63A2}','\u{63A5}','\u{6377}','\u{6367}','\u{6398}','\u{63AA}',";
"    '\u{6371}','\u{63A9}','\u{6389}','\u{6383}','\u{639B}','\u{636B}','\u{63A8}','\u{6384}',";
"    '\u{6388}','\u{6399}','\u{63A1}','\u{63AC}','\u{6392}','\u{638F}','\u{6380}','\u{637B}',";
"    '\u{6369}','\u{6368}','\u{637A}','\u{655D}','\u{6556}','\u{6551}','\u{6559}','\u{6557}',";
"    '\u{555F}','\u{654F}','\u{6558}','\u{6555}','\u{6554}','\u{659C}','\u{659B}','\u{65AC}',";
"    '\u{65CF}','\u{65CB}','\u{65CC}','\u{65CE}','\u{665D}','\u{665A}','\u{6664}','\u{6668}',";
"    '\u{6666}','\u{665E}','\u{66F9}','\u{52D7}','\u{671B}','\u{6881}','\u{68AF}','\u{68A2}',";
"    '\u{6893}','\u{68B5}','\u{687F}','\u{6876}','\u{68B1}','\u{68A7}','\u{6897}','\u{68B0}',";
"    '\u{6883}','\u{68C4}','\u{68AD}','\u{6886}','\u{6885}','\u{6894}','\u{689D}','\u{68A8}',";
"    '\u{689F}','\u{68A1}','\u{6882}','\u{6B32}','\u{6BBA}','\u{6BEB}','\u{6BEC}','\u{6C2B}',";
"    '\u{6D8E}','\u{6DBC}','\u{6DF3}','\u{6DD9}','\u{6DB2}','\u{6DE1}','\u{6DCC}','\u{6DE4}',";
"    '\u{6DFB}','\u{6DFA}','\u{6E05}','\u{6DC7}','\u{6DCB}','\u{6DAF}','\u{6DD1}','\u{6DAE}',";
"    '\u{6DDE}','\u{6DF9}','\u{6DB8}','\u{6DF7}','\u{6DF5}','\u{6DC5}','\u{6DD2}','\u{6E1A}',";
"    '\u{6DB5}','\u{6DDA}','\u{6DEB}','\u{6DD8}','\u{6DEA}','\u{6DF1}','\u{6DEE}','\u{6DE8}',";
"    '\u{6DC6}','\u{6DC4}','\u{6DAA}','\u{6DEC}','\u{6DBF}','\u{6DE6}','\u{70F9}','\u{7109}',";
"    '\u{710A}','\u{70FD}','\u{70EF}','\u{723D}','\u{727D}','\u{7281}','\u{731C}','\u{731B}',";
"    '\u{7316}','\u{7313}','\u{7319}','\u{7387}','\u{7405}','\u{740A}','\u{7403}','\u{7406}',";
"    '\u{73FE}','\u{740D}','\u{74E0}','\u{74F6}','\u{74F7}','\u{751C}','\u{7522}','\u{7565}',";
"    '\u{7566}','\u{7562}','\u{7570}','\u{758F}','\u{75D4}','\u{75D5}','\u{75B5}','\u{75CA}',";
"    '\u{75CD}','\u{768E}','\u{76D4}','\u{76D2}','\u{76DB}','\u{7737}','\u{773E}','\u{773C}',";
"    '\u{7736}','\u{7738}','\u{773A}','\u{786B}','\u{7843}','\u{784E}','\u{7965}','\u{7968}',";
"    '\u{796D}','\u{79FB}','\u{7A92}','\u{7A95}','\u{7B20}','\u{7B28}','\u{7B1B}','\u{7B2C}',";
"    '\u{7B26}','\u{7B19}','\u{7B1E}','\u{7B2E}','\u{7C92}','\u{7C97}','\u{7C95}','\u{7D46}',";
"    '\u{7D43}','\u{7D71}','\u{7D2E}','\u{7D39}','\u{7D3C}','\u{7D40}','\u{7D30}','\u{7D33}',";
"    '\u{7D44}','\u{7D2F}','\u{7D42}','\u{7D32}','\u{7D31}','\u{7F3D}','\u{7F9E}','\u{7F9A}',";
"    '\u{7FCC}','\u{7FCE}','\u{7FD2}','\u{801C}','\u{804A}','\u{8046}','\u{812F}','\u{8116}',";
"    '\u{8123}','\u{812B}','\u{8129}','\u{8130}','\u{8124}','\u{8202}','\u{8235}','\u{8237}',";
"    '\u{8236}','\u{8239}','\u{838E}','\u{839E}','\u{8398}','\u{8378}','\u{83A2}','\u{8396}',";
"    '\u{83BD}','\u{83AB}','\u{8392}','\u{838A}','\u{8393}','\u{8389}','\u{83A0}','\u{8377}',";
"    '\u{837B}','\u{837C}','\u{8386}','\u{83A7}','\u{8655}','\u{5F6A}','\u{86C7}','\u{86C0}',";
"    '\u{86B6}','\u{86C4}','\u{86B5}','\u{86C6}','\u{86CB}','\u{86B1}','\u{86AF}','\u{86C9}',";
"    '\u{8853}','\u{889E}','\u{8888}','\u{88AB}','\u{8892}','\u{8896}','\u{888D}','\u{888B}',";
"    '\u{8993}','\u{898F}','\u{8A2A}','\u{8A1D}','\u{8A23}','\u{8A25}','\u{8A31}','\u{8A2D}',";
"    '\u{8A1F}','\u{8A1B}','\u{8A22}','\u{8C49}','\u{8C5A}','\u{8CA9}','\u{8CAC}','\u{8CAB}',";
"    '\u{8CA8}','\u{8CAA}','\u{8CA7}','\u{8D67}','\u{8D66}','\u{8DBE}','\u{8DBA}','\u{8EDB}',";
"    '\u{8EDF}','\u{9019}','\u{900D}','\u{901A}','\u{9017}','\u{9023}','\u{901F}','\u{901D}',";
"    '\u{9010}','\u{9015}','\u{901E}','\u{9020}','\u{900F}','\u{9022}','\u{9016}','\u{901B}',";
"    '\u{9014}','\u{90E8}','\u{90ED}','\u{90FD}','\u{9157}','\u{91CE}','\u{91F5}','\u{91E6}',";
"    '\u{91E3}','\u{91E7}','\u{91ED}','\u{91E9}','\u{9589}','\u{966A}','\u{9675}','\u{9673}',";
"    '\u{9678}','\u{9670}','\u{9674}','\u{9676}','\u{9677}','\u{966C}','\u{96C0}','\u{96EA}',";
"    '\u{96E9}','\u{7AE0}','\u{7ADF}','\u{9802}','\u{9803}','\u{9B5A}','\u{9CE5}','\u{9E75}',";
"    '\u{9E7F}','\u{9EA5}','\u{9EBB}','\u{50A2}','\u{508D}','\u{5085}','\u{5099}','\u{5091}',";
"    '\u{5080}','\u{5096}','\u{5098}','\u{509A}','\u{6700}','\u{51F1}','\u{5272}','\u{5274}',";
"    '\u{5275}','\u{5269}','\u{52DE}','\u{52DD}','\u{52DB}','\u{535A}','\u{53A5}','\u{557B}',";
"    '\u{5580}','\u{55A7}','\u{557C}','\u{558A}','\u{559D}','\u{5598}','\u{5582}','\u{559C}',";
"    '\u{55AA}','\u{5594}','\u{5587}','\u{558B}','\u{5583}','\u{55B3}','\u{55AE}','\u{559F}',";
"    '\u{553E}','\u{55B2}','\u{559A}','\u{55BB}','\u{55AC}','\u{55B1}','\u{557E}','\u{5589}',";
"    '\u{55AB}','\u{5599}','\u{570D}','\u{582F}','\u{582A}','\u{5834}','\u{5824}','\u{5830}',";
"    '\u{5831}','\u{5821}','\u{581D}','\u{5820}','\u{58F9}','\u{58FA}','\u{5960}','\u{5A77}',";
"    '\u{5A9A}','\u{5A7F}','\u{5A92}','\u{5A9B}','\u{5AA7}','\u{5B73}','\u{5B71}','\u{5BD2}',";
"    '\u{5BCC}','\u{5BD3}','\u{5BD0}','\u{5C0A}','\u{5C0B}','\u{5C31}','\u{5D4C}','\u{5D50}',";
"    '\u{5D34}','\u{5D47}','\u{5DFD}','\u{5E45}','\u{5E3D}','\u{5E40}','\u{5E43}','\u{5E7E}',";
"    '\u{5ECA}','\u{5EC1}','\u{5EC2}','\u{5EC4}','\u{5F3C}','\u{5F6D}','\u{5FA9}','\u{5FAA}',";
"    '\u{5FA8}','\u{60D1}','\u{60E1}','\u{60B2}','\u{60B6}','\u{60E0}','\u{611C}','\u{6123}',";
"    '\u{60FA}','\u{6115}','\u{60F0}','\u{60FB}','\u{60F4}','\u{6168}','\u{60F1}','\u{610E}',";
"    '\u{60F6}','\u{6109}','\u{6100}','\u{6112}','\u{621F}','\u{6249}','\u{63A3}','\u{638C}',";
"    '\u{63CF}','\u{63C0}','\u{63E9}','\u{63C9}','\u{63C6}','\u{63CD}','\u{63D2}','\u{63E3}',";
"    '\u{63D0}','\u{63E1}','\u{63D6}','\u{63ED}','\u{63EE}','\u{6376}','\u{63F4}','\u{63EA}',";
"    '\u{63DB}','\u{6452}','\u{63DA}','\u{63F9}','\u{655E}','\u{6566}','\u{6562}','\u{6563}',";
"    '\u{6591}','\u{6590}','\u{65AF}','\u{666E}','\u{6670}','\u{6674}','\u{6676}','\u{666F}',";
"    '\u{6691}','\u{667A}','\u{667E}','\u{6677}','\u{66FE}','\u{66FF}','\u{671F}','\u{671D}',";
"    '\u{68FA}','\u{68D5}','\u{68E0}','\u{68D8}','\u{68D7}','\u{6905}','\u{68DF}','\u{68F5}',";
"    '\u{68EE}','\u{68E7}','\u{68F9}','\u{68D2}','\u{68F2}','\u{68E3}','\u{68CB}','\u{68CD}',";
"    '\u{690D}','\u{6912}','\u{690E}','\u{68C9}','\u{68DA}','\u{696E}','\u{68FB}','\u{6B3E}',";
"    '\u{6B3A}','\u{6B3D}','\u{6B98}','\u{6B96}','\u{6BBC}','\u{6BEF}','\u{6C2E}','\u{6C2F}',";
"    '\u{6C2C}','\u{6E2F}','\u{6E38}','\u{6E54}','\u{6E21}','\u{6E32}','\u{6E67}','\u{6E4A}',";
"    '\u{6E20}','\u{6E25}','\u{6E23}','\u{6E1B}','\u{6E5B}','\u{6E58}','\u{6E24}','\u{6E56}',";
"    '\u{6E6E}','\u{6E2D}','\u{6E26}','\u{6E6F}','\u{6E34}','\u{6E4D}','\u{6E3A}','\u{6E2C}',"
].
(* /repo/src/generated/whatwg/big5_whatwg_tables.rs.inc:1025-1280 *)
Definition big5_inc_4 : list line := [
"    '\u{6E43}','\u{6E1D}','\u{6E3E}','\u{6ECB}','\u{6E89}','\u{6E19}','\u{6E4E}','\u{6E63}',";
"    '\u{6E44}','\u{6E72}','\u{6E69}','\u{6E5F}','\u{7119}','\u{711A}','\u{7126}','\u{7130}',";
"    '\u{7121}','\u{7136}','\u{716E}','\u{711C}','\u{724C}','\u{7284}','\u{7280}','\u{7336}',";
"    '\u{7325}','\u{7334}','\u{7329}','\u{743A}','\u{742A}','\u{7433}','\u{7422}','\u{7425}',";
"    '\u{7435}','\u{7436}','\u{7434}','\u{742F}','\u{741B}','\u{7426}','\u{7428}','\u{7525}',";
"    '\u{7526}','\u{756B}','\u{756A}','\u{75E2}','\u{75DB}','\u{75E3}','\u{75D9}','\u{75D8}',";
"    '\u{75DE}','\u{75E0}','\u{767B}','\u{767C}','\u{7696}','\u{7693}','\u{76B4}','\u{76DC}',";
"    '\u{774F}','\u{77ED}','\u{785D}','\u{786C}','\u{786F}','\u{7A0D}','\u{7A08}','\u{7A0B}',";
"    '\u{7A05}','\u{7A00}','\u{7A98}','\u{7A97}','\u{7A96}','\u{7AE5}','\u{7AE3}','\u{7B49}',";
"    '\u{7B56}','\u{7B46}','\u{7B50}','\u{7B52}','\u{7B54}','\u{7B4D}','\u{7B4B}','\u{7B4F}',";
"    '\u{7B51}','\u{7C9F}','\u{7CA5}','\u{7D5E}','\u{7D50}','\u{7D68}','\u{7D55}','\u{7D2B}',";
"    '\u{7D6E}','\u{7D72}','\u{7D61}','\u{7D66}','\u{7D62}','\u{7D70}','\u{7D73}','\u{5584}',";
"    '\u{7FD4}','\u{7FD5}','\u{800B}','\u{8052}','\u{8085}','\u{8155}','\u{8154}','\u{814B}',";
"    '\u{8151}','\u{814E}','\u{8139}','\u{8146}','\u{813E}','\u{814C}','\u{8153}','\u{8174}',";
"    '\u{8212}','\u{821C}','\u{83E9}','\u{8403}','\u{83F8}','\u{840D}','\u{83E0}','\u{83C5}',";
"    '\u{840B}','\u{83C1}','\u{83EF}','\u{83F1}','\u{83F4}','\u{8457}','\u{840A}','\u{83F0}',";
"    '\u{840C}','\u{83CC}','\u{83FD}','\u{83F2}','\u{83CA}','\u{8438}','\u{840E}','\u{8404}',";
"    '\u{83DC}','\u{8407}','\u{83D4}','\u{83DF}','\u{865B}','\u{86DF}','\u{86D9}','\u{86ED}',";
"    '\u{86D4}','\u{86DB}','\u{86E4}','\u{86D0}','\u{86DE}','\u{8857}','\u{88C1}','\u{88C2}',";
"    '\u{88B1}','\u{8983}','\u{8996}','\u{8A3B}','\u{8A60}','\u{8A55}','\u{8A5E}','\u{8A3C}',";
"    '\u{8A41}','\u{8A54}','\u{8A5B}','\u{8A50}','\u{8A46}','\u{8A34}','\u{8A3A}','\u{8A36}',";
"    '\u{8A56}','\u{8C61}','\u{8C82}','\u{8CAF}','\u{8CBC}','\u{8CB3}','\u{8CBD}','\u{8CC1}',";
"    '\u{8CBB}','\u{8CC0}','\u{8CB4}','\u{8CB7}','\u{8CB6}','\u{8CBF}','\u{8CB8}','\u{8D8A}',";
"    '\u{8D85}','\u{8D81}','\u{8DCE}','\u{8DDD}','\u{8DCB}','\u{8DDA}','\u{8DD1}','\u{8DCC}',";
"    '\u{8DDB}','\u{8DC6}','\u{8EFB}','\u{8EF8}','\u{8EFC}','\u{8F9C}','\u{902E}','\u{9035}',";
"    '\u{9031}','\u{9038}','\u{9032}','\u{9036}','\u{9102}','\u{90F5}','\u{9109}','\u{90FE}',";
"    '\u{9163}','\u{9165}','\u{91CF}','\u{9214}','\u{9215}','\u{9223}','\u{9209}','\u{921E}',";
"    '\u{920D}','\u{9210}','\u{9207}','\u{9211}','\u{9594}','\u{958F}','\u{958B}','\u{9591}',";
"    '\u{9593}','\u{9592}','\u{958E}','\u{968A}','\u{968E}','\u{968B}','\u{967D}','\u{9685}',";
"    '\u{9686}','\u{968D}','\u{9672}','\u{9684}','\u{96C1}','\u{96C5}','\u{96C4}','\u{96C6}',";
"    '\u{96C7}','\u{96EF}','\u{96F2}','\u{97CC}','\u{9805}','\u{9806}','\u{9808}','\u{98E7}',";
"    '\u{98EA}','\u{98EF}','\u{98E9}','\u{98F2}','\u{98ED}','\u{99AE}','\u{99AD}','\u{9EC3}',";
"    '\u{9ECD}','\u{9ED1}','\u{4E82}','\u{50AD}','\u{50B5}','\u{50B2}','\u{50B3}','\u{50C5}',";
"    '\u{50BE}','\u{50AC}','\u{50B7}','\u{50BB}','\u{50AF}','\u{50C7}','\u{527F}','\u{5277}',";
"    '\u{527D}','\u{52DF}','\u{52E6}','\u{52E4}','\u{52E2}','\u{52E3}','\u{532F}','\u{55DF}',";
"    '\u{55E8}','\u{55D3}','\u{55E6}','\u{55CE}','\u{55DC}','\u{55C7}','\u{55D1}','\u{55E3}',";
"    '\u{55E4}','\u{55EF}','\u{55DA}','\u{55E1}','\u{55C5}','\u{55C6}','\u{55E5}','\u{55C9}',";
"    '\u{5712}','\u{5713}','\u{585E}','\u{5851}','\u{5858}','\u{5857}','\u{585A}','\u{5854}',";
"    '\u{586B}','\u{584C}','\u{586D}','\u{584A}','\u{5862}','\u{5852}','\u{584B}','\u{5967}',";
"    '\u{5AC1}','\u{5AC9}','\u{5ACC}','\u{5ABE}','\u{5ABD}','\u{5ABC}','\u{5AB3}','\u{5AC2}',";
"    '\u{5AB2}','\u{5D69}','\u{5D6F}','\u{5E4C}','\u{5E79}','\u{5EC9}','\u{5EC8}','\u{5F12}',";
"    '\u{5F59}','\u{5FAC}','\u{5FAE}','\u{611A}','\u{610F}','\u{6148}','\u{611F}','\u{60F3}',";
"    '\u{611B}','\u{60F9}','\u{6101}','\u{6108}','\u{614E}','\u{614C}','\u{6144}','\u{614D}',";
"    '\u{613E}','\u{6134}','\u{6127}','\u{610D}','\u{6106}','\u{6137}','\u{6221}','\u{6222}',";
"    '\u{6413}','\u{643E}','\u{641E}','\u{642A}','\u{642D}','\u{643D}','\u{642C}','\u{640F}',";
"    '\u{641C}','\u{6414}','\u{640D}','\u{6436}','\u{6416}','\u{6417}','\u{6406}','\u{656C}',";
"    '\u{659F}','\u{65B0}','\u{6697}','\u{6689}','\u{6687}','\u{6688}','\u{6696}','\u{6684}',";
"    '\u{6698}','\u{668D}','\u{6703}','\u{6994}','\u{696D}','\u{695A}','\u{6977}','\u{6960}',";
"    '\u{6954}','\u{6975}','\u{6930}','\u{6982}','\u{694A}','\u{6968}','\u{696B}','\u{695E}',";
"    '\u{6953}','\u{6979}','\u{6986}','\u{695D}','\u{6963}','\u{695B}','\u{6B47}','\u{6B72}',";
"    '\u{6BC0}','\u{6BBF}','\u{6BD3}','\u{6BFD}','\u{6EA2}','\u{6EAF}','\u{6ED3}','\u{6EB6}',";
"    '\u{6EC2}','\u{6E90}','\u{6E9D}','\u{6EC7}','\u{6EC5}','\u{6EA5}','\u{6E98}','\u{6EBC}',";
"    '\u{6EBA}','\u{6EAB}','\u{6ED1}','\u{6E96}','\u{6E9C}','\u{6EC4}','\u{6ED4}','\u{6EAA}',";
"    '\u{6EA7}','\u{6EB4}','\u{714E}','\u{7159}','\u{7169}','\u{7164}','\u{7149}','\u{7167}',";
"    '\u{715C}','\u{716C}','\u{7166}','\u{714C}','\u{7165}','\u{715E}','\u{7146}','\u{7168}',";
"    '\u{7156}','\u{723A}','\u{7252}','\u{7337}','\u{7345}','\u{733F}','\u{733E}','\u{746F}',";
"    '\u{745A}','\u{7455}','\u{745F}','\u{745E}','\u{7441}','\u{743F}','\u{7459}','\u{745B}',";
"    '\u{745C}','\u{7576}','\u{7578}','\u{7600}','\u{75F0}','\u{7601}','\u{75F2}','\u{75F1}',";
"    '\u{75FA}','\u{75FF}','\u{75F4}','\u{75F3}','\u{76DE}','\u{76DF}','\u{775B}','\u{776B}',";
"    '\u{7766}','\u{775E}','\u{7763}','\u{7779}','\u{776A}','\u{776C}','\u{775C}','\u{7765}',";
"    '\u{7768}','\u{7762}','\u{77EE}','\u{788E}','\u{78B0}','\u{7897}','\u{7898}','\u{788C}',";
"    '\u{7889}','\u{787C}','\u{7891}','\u{7893}','\u{787F}','\u{797A}','\u{797F}','\u{7981}',";
"    '\u{842C}','\u{79BD}','\u{7A1C}','\u{7A1A}','\u{7A20}','\u{7A14}','\u{7A1F}','\u{7A1E}',";
"    '\u{7A9F}','\u{7AA0}','\u{7B77}','\u{7BC0}','\u{7B60}','\u{7B6E}','\u{7B67}','\u{7CB1}',";
"    '\u{7CB3}','\u{7CB5}','\u{7D93}','\u{7D79}','\u{7D91}','\u{7D81}','\u{7D8F}','\u{7D5B}',";
"    '\u{7F6E}','\u{7F69}','\u{7F6A}','\u{7F72}','\u{7FA9}','\u{7FA8}','\u{7FA4}','\u{8056}',";
"    '\u{8058}','\u{8086}','\u{8084}','\u{8171}','\u{8170}','\u{8178}','\u{8165}','\u{816E}',";
"    '\u{8173}','\u{816B}','\u{8179}','\u{817A}','\u{8166}','\u{8205}','\u{8247}','\u{8482}',";
"    '\u{8477}','\u{843D}','\u{8431}','\u{8475}','\u{8466}','\u{846B}','\u{8449}','\u{846C}',";
"    '\u{845B}','\u{843C}','\u{8435}','\u{8461}','\u{8463}','\u{8469}','\u{846D}','\u{8446}',";
"    '\u{865E}','\u{865C}','\u{865F}','\u{86F9}','\u{8713}','\u{8708}','\u{8707}','\u{8700}',";
"    '\u{86FE}','\u{86FB}','\u{8702}','\u{8703}','\u{8706}','\u{870A}','\u{8859}','\u{88DF}',";
"    '\u{88D4}','\u{88D9}','\u{88DC}','\u{88D8}','\u{88DD}','\u{88E1}','\u{88CA}','\u{88D5}',";
"    '\u{88D2}','\u{899C}','\u{89E3}','\u{8A6B}','\u{8A72}','\u{8A73}','\u{8A66}','\u{8A69}',";
"    '\u{8A70}','\u{8A87}','\u{8A7C}','\u{8A63}','\u{8AA0}','\u{8A71}','\u{8A85}','\u{8A6D}',";
"    '\u{8A62}','\u{8A6E}','\u{8A6C}','\u{8A79}','\u{8A7B}','\u{8A3E}','\u{8A68}','\u{8C62}',";
"    '\u{8C8A}','\u{8C89}','\u{8CCA}','\u{8CC7}','\u{8CC8}','\u{8CC4}','\u{8CB2}','\u{8CC3}',";
"    '\u{8CC2}','\u{8CC5}','\u{8DE1}','\u{8DDF}','\u{8DE8}','\u{8DEF}','\u{8DF3}','\u{8DFA}',";
"    '\u{8DEA}','\u{8DE4}','\u{8DE6}','\u{8EB2}','\u{8F03}','\u{8F09}','\u{8EFE}','\u{8F0A}',";
"    '\u{8F9F}','\u{8FB2}','\u{904B}','\u{904A}','\u{9053}','\u{9042}','\u{9054}','\u{903C}',";
"    '\u{9055}','\u{9050}','\u{9047}','\u{904F}','\u{904E}','\u{904D}','\u{9051}','\u{903E}',";
"    '\u{9041}','\u{9112}','\u{9117}','\u{916C}','\u{916A}','\u{9169}','\u{91C9}','\u{9237}',";
"    '\u{9257}','\u{9238}','\u{923D}','\u{9240}','\u{923E}','\u{925B}','\u{924B}','\u{9264}',";
"    '\u{9251}','\u{9234}','\u{9249}','\u{924D}','\u{9245}','\u{9239}','\u{923F}','\u{925A}',";
"    '\u{9598}','\u{9698}','\u{9694}','\u{9695}','\u{96CD}','\u{96CB}','\u{96C9}','\u{96CA}',";
"    '\u{96F7}','\u{96FB}','\u{96F9}','\u{96F6}','\u{9756}','\u{9774}','\u{9776}','\u{9810}',";
"    '\u{9811}','\u{9813}','\u{980A}','\u{9812}','\u{980C}','\u{98FC}','\u{98F4}','\u{98FD}',";
"    '\u{98FE}','\u{99B3}','\u{99B1}','\u{99B4}','\u{9AE1}','\u{9CE9}','\u{9E82}','\u{9F0E}',";
"    '\u{9F13}','\u{9F20}','\u{50E7}','\u{50EE}','\u{50E5}','\u{50D6}','\u{50ED}','\u{50DA}',";
"    '\u{50D5}','\u{50CF}','\u{50D1}','\u{50F1}','\u{50CE}','\u{50E9}','\u{5162}','\u{51F3}',";
"    '\u{5283}','\u{5282}','\u{5331}','\u{53AD}','\u{55FE}','\u{5600}','\u{561B}','\u{5617}',";
"    '\u{55FD}','\u{5614}','\u{5606}','\u{5609}','\u{560D}','\u{560E}','\u{55F7}','\u{5616}',";
"    '\u{561F}','\u{5608}','\u{5610}','\u{55F6}','\u{5718}','\u{5716}','\u{5875}','\u{587E}',";
"    '\u{5883}','\u{5893}','\u{588A}','\u{5879}','\u{5885}','\u{587D}','\u{58FD}','\u{5925}',";
"    '\u{5922}','\u{5924}','\u{596A}','\u{5969}','\u{5AE1}','\u{5AE6}','\u{5AE9}','\u{5AD7}',";
"    '\u{5AD6}','\u{5AD8}','\u{5AE3}','\u{5B75}','\u{5BDE}','\u{5BE7}','\u{5BE1}','\u{5BE5}',";
"    '\u{5BE6}','\u{5BE8}','\u{5BE2}','\u{5BE4}','\u{5BDF}','\u{5C0D}','\u{5C62}','\u{5D84}',";
"    '\u{5D87}','\u{5E5B}','\u{5E63}','\u{5E55}','\u{5E57}','\u{5E54}','\u{5ED3}','\u{5ED6}',";
"    '\u{5F0A}','\u{5F46}','\u{5F70}','\u{5FB9}','\u{6147}','\u{613F}','\u{614B}','\u{6177}',";
"    '\u{6162}','\u{6163}','\u{615F}','\u{615A}','\u{6158}','\u{6175}','\u{622A}','\u{6487}',";
"    '\u{6458}','\u{6454}','\u{64A4}','\u{6478}','\u{645F}','\u{647A}','\u{6451}','\u{6467}',";
"    '\u{6434}','\u{646D}','\u{647B}','\u{6572}','\u{65A1}','\u{65D7}','\u{65D6}','\u{66A2}',";
"    '\u{66A8}','\u{669D}','\u{699C}','\u{69A8}','\u{6995}','\u{69C1}','\u{69AE}','\u{69D3}',";
"    '\u{69CB}','\u{699B}','\u{69B7}','\u{69BB}','\u{69AB}','\u{69B4}','\u{69D0}','\u{69CD}',";
"    '\u{69AD}','\u{69CC}','\u{69A6}','\u{69C3}','\u{69A3}','\u{6B49}','\u{6B4C}','\u{6C33}',";
"    '\u{6F33}','\u{6F14}','\u{6EFE}','\u{6F13}','\u{6EF4}','\u{6F29}','\u{6F3E}','\u{6F20}',";
"    '\u{6F2C}','\u{6F0F}','\u{6F02}','\u{6F22}','\u{6EFF}','\u{6EEF}','\u{6F06}','\u{6F31}',";
"    '\u{6F38}','\u{6F32}','\u{6F23}','\u{6F15}','\u{6F2B}','\u{6F2F}','\u{6F88}','\u{6F2A}',";
"    '\u{6EEC}','\u{6F01}','\u{6EF2}','\u{6ECC}','\u{6EF7}','\u{7194}','\u{7199}','\u{717D}',";
"    '\u{718A}','\u{7184}','\u{7192}','\u{723E}','\u{7292}','\u{7296}','\u{7344}','\u{7350}',";
"    '\u{7464}','\u{7463}','\u{746A}','\u{7470}','\u{746D}','\u{7504}','\u{7591}','\u{7627}',";
"    '\u{760D}','\u{760B}','\u{7609}','\u{7613}','\u{76E1}','\u{76E3}','\u{7784}','\u{777D}',";
"    '\u{777F}','\u{7761}','\u{78C1}','\u{789F}','\u{78A7}','\u{78B3}','\u{78A9}','\u{78A3}',";
"    '\u{798E}','\u{798F}','\u{798D}','\u{7A2E}','\u{7A31}','\u{7AAA}','\u{7AA9}','\u{7AED}',";
"    '\u{7AEF}','\u{7BA1}','\u{7B95}','\u{7B8B}','\u{7B75}','\u{7B97}','\u{7B9D}','\u{7B94}',";
"    '\u{7B8F}','\u{7BB8}','\u{7B87}','\u{7B84}','\u{7CB9}','\u{7CBD}','\u{7CBE}','\u{7DBB}',";
"    '\u{7DB0}','\u{7D9C}','\u{7DBD}','\u{7DBE}','\u{7DA0}','\u{7DCA}','\u{7DB4}','\u{7DB2}',";
"    '\u{7DB1}','\u{7DBA}','\u{7DA2}','\u{7DBF}','\u{7DB5}','\u{7DB8}','\u{7DAD}','\u{7DD2}',";
"    '\u{7DC7}','\u{7DAC}','\u{7F70}','\u{7FE0}','\u{7FE1}','\u{7FDF}','\u{805E}','\u{805A}',";
"    '\u{8087}','\u{8150}','\u{8180}','\u{818F}','\u{8188}','\u{818A}','\u{817F}','\u{8182}',";
"    '\u{81E7}','\u{81FA}','\u{8207}','\u{8214}','\u{821E}','\u{824B}','\u{84C9}','\u{84BF}',";
"    '\u{84C6}','\u{84C4}','\u{8499}','\u{849E}','\u{84B2}','\u{849C}','\u{84CB}','\u{84B8}',";
"    '\u{84C0}','\u{84D3}','\u{8490}','\u{84BC}','\u{84D1}','\u{84CA}','\u{873F}','\u{871C}',";
"    '\u{873B}','\u{8722}','\u{8725}','\u{8734}','\u{8718}','\u{8755}','\u{8737}','\u{8729}',";
"    '\u{88F3}','\u{8902}','\u{88F4}','\u{88F9}','\u{88F8}','\u{88FD}','\u{88E8}','\u{891A}',";
"    '\u{88EF}','\u{8AA6}','\u{8A8C}','\u{8A9E}','\u{8AA3}','\u{8A8D}','\u{8AA1}','\u{8A93}',";
"    '\u{8AA4}','\u{8AAA}','\u{8AA5}','\u{8AA8}','\u{8A98}','\u{8A91}','\u{8A9A}','\u{8AA7}',";
"    '\u{8C6A}','\u{8C8D}','\u{8C8C}','\u{8CD3}','\u{8CD1}','\u{8CD2}','\u{8D6B}','\u{8D99}',";
"    '\u{8D95}','\u{8DFC}','\u{8F14}','\u{8F12}','\u{8F15}','\u{8F13}','\u{8FA3}','\u{9060}',";
"    '\u{9058}','\u{905C}','\u{9063}','\u{9059}','\u{905E}','\u{9062}','\u{905D}','\u{905B}',";
"    '\u{9119}','\u{9118}','\u{911E}','\u{9175}','\u{9178}','\u{9177}','\u{9174}','\u{9278}',";
"    '\u{9280}','\u{9285}','\u{9298}','\u{9296}','\u{927B}','\u{9293}','\u{929C}','\u{92A8}',";
"    '\u{927C}','\u{9291}','\u{95A1}','\u{95A8}','\u{95A9}','\u{95A3}','\u{95A5}','\u{95A4}',";
"    '\u{9699}','\u{969C}','\u{969B}','\u{96CC}','\u{96D2}','\u{9700}','\u{977C}','\u{9785}',";
"    '\u{97F6}','\u{9817}','\u{9818}','\u{98AF}','\u{98B1}','\u{9903}','\u{9905}','\u{990C}',";
"    '\u{9909}','\u{99C1}','\u{9AAF}','\u{9AB0}','\u{9AE6}','\u{9B41}','\u{9B42}','\u{9CF4}',";
"    '\u{9CF6}','\u{9CF3}','\u{9EBC}','\u{9F3B}','\u{9F4A}','\u{5104}','\u{5100}','\u{50FB}',";
"    '\u{50F5}','\u{50F9}','\u{5102}','\u{5108}','\u{5109}','\u{5105}','\u{51DC}','\u{5287}',";
"    '\u{5288}','\u{5289}','\u{528D}','\u{528A}','\u{52F0}','\u{53B2}','\u{562E}','\u{563B}',";
"    '\u{5639}','\u{5632}','\u{563F}','\u{5634}','\u{5629}','\u{5653}','\u{564E}','\u{5657}',";
"    '\u{5674}','\u{5636}','\u{562F}','\u{5630}','\u{5880}','\u{589F}','\u{589E}','\u{58B3}',";
"    '\u{589C}','\u{58AE}','\u{58A9}','\u{58A6}','\u{596D}','\u{5B09}','\u{5AFB}','\u{5B0B}',";
"    '\u{5AF5}','\u{5B0C}','\u{5B08}','\u{5BEE}','\u{5BEC}','\u{5BE9}','\u{5BEB}','\u{5C64}',";
"    '\u{5C65}','\u{5D9D}','\u{5D94}','\u{5E62}','\u{5E5F}','\u{5E61}','\u{5EE2}','\u{5EDA}',";
"    '\u{5EDF}','\u{5EDD}','\u{5EE3}','\u{5EE0}','\u{5F48}','\u{5F71}','\u{5FB7}','\u{5FB5}',";
"    '\u{6176}','\u{6167}','\u{616E}','\u{615D}','\u{6155}','\u{6182}','\u{617C}','\u{6170}',";
"    '\u{616B}','\u{617E}','\u{61A7}','\u{6190}','\u{61AB}','\u{618E}','\u{61AC}','\u{619A}',";
"    '\u{61A4}','\u{6194}','\u{61AE}','\u{622E}','\u{6469}','\u{646F}','\u{6479}','\u{649E}',";
"    '\u{64B2}','\u{6488}','\u{6490}','\u{64B0}','\u{64A5}','\u{6493}','\u{6495}','\u{64A9}',";
"    '\u{6492}','\u{64AE}','\u{64AD}','\u{64AB}','\u{649A}','\u{64AC}','\u{6499}','\u{64A2}',";
"    '\u{64B3}','\u{6575}','\u{6577}','\u{6578}','\u{66AE}','\u{66AB}','\u{66B4}','\u{66B1}',";
"    '\u{6A23}','\u{6A1F}','\u{69E8}','\u{6A01}','\u{6A1E}','\u{6A19}','\u{69FD}','\u{6A21}',";
"    '\u{6A13}','\u{6A0A}','\u{69F3}','\u{6A02}','\u{6A05}','\u{69ED}','\u{6A11}','\u{6B50}',";
"    '\u{6B4E}','\u{6BA4}','\u{6BC5}','\u{6BC6}','\u{6F3F}','\u{6F7C}','\u{6F84}','\u{6F51}',";
"    '\u{6F66}','\u{6F54}','\u{6F86}','\u{6F6D}','\u{6F5B}','\u{6F78}','\u{6F6E}','\u{6F8E}',";
"    '\u{6F7A}','\u{6F70}','\u{6F64}','\u{6F97}','\u{6F58}','\u{6ED5}','\u{6F6F}','\u{6F60}',";
"    '\u{6F5F}','\u{719F}','\u{71AC}','\u{71B1}','\u{71A8}','\u{7256}','\u{729B}','\u{734E}',";
"    '\u{7357}','\u{7469}','\u{748B}','\u{7483}','\u{747E}','\u{7480}','\u{757F}','\u{7620}',";
"    '\u{7629}','\u{761F}','\u{7624}','\u{7626}','\u{7621}','\u{7622}','\u{769A}','\u{76BA}',";
"    '\u{76E4}','\u{778E}','\u{7787}','\u{778C}','\u{7791}','\u{778B}','\u{78CB}','\u{78C5}',";
"    '\u{78BA}','\u{78CA}','\u{78BE}','\u{78D5}','\u{78BC}','\u{78D0}','\u{7A3F}','\u{7A3C}',";
"    '\u{7A40}','\u{7A3D}','\u{7A37}','\u{7A3B}','\u{7AAF}','\u{7AAE}','\u{7BAD}','\u{7BB1}',";
"    '\u{7BC4}','\u{7BB4}','\u{7BC6}','\u{7BC7}','\u{7BC1}','\u{7BA0}','\u{7BCC}','\u{7CCA}',";
"    '\u{7DE0}','\u{7DF4}','\u{7DEF}','\u{7DFB}','\u{7DD8}','\u{7DEC}','\u{7DDD}','\u{7DE8}',";
"    '\u{7DE3}','\u{7DDA}','\u{7DDE}','\u{7DE9}','\u{7D9E}','\u{7DD9}','\u{7DF2}','\u{7DF9}',";
"    '\u{7F75}','\u{7F77}','\u{7FAF}','\u{7FE9}','\u{8026}','\u{819B}','\u{819C}','\u{819D}',";
"    '\u{81A0}','\u{819A}','\u{8198}','\u{8517}','\u{853D}','\u{851A}','\u{84EE}','\u{852C}',";
"    '\u{852D}','\u{8513}','\u{8511}','\u{8523}','\u{8521}','\u{8514}','\u{84EC}','\u{8525}',";
"    '\u{84FF}','\u{8506}','\u{8782}','\u{8774}','\u{8776}','\u{8760}','\u{8766}','\u{8778}',";
"    '\u{8768}','\u{8759}','\u{8757}','\u{874C}','\u{8753}','\u{885B}','\u{885D}','\u{8910}',";
"    '\u{8907}','\u{8912}','\u{8913}','\u{8915}','\u{890A}','\u{8ABC}','\u{8AD2}','\u{8AC7}',";
"    '\u{8AC4}','\u{8A95}','\u{8ACB}','\u{8AF8}','\u{8AB2}','\u{8AC9}','\u{8AC2}','\u{8ABF}',";
"    '\u{8AB0}','\u{8AD6}','\u{8ACD}','\u{8AB6}','\u{8AB9}','\u{8ADB}','\u{8C4C}','\u{8C4E}',";
"    '\u{8C6C}','\u{8CE0}','\u{8CDE}','\u{8CE6}','\u{8CE4}','\u{8CEC}','\u{8CED}','\u{8CE2}',";
"    '\u{8CE3}','\u{8CDC}','\u{8CEA}','\u{8CE1}','\u{8D6D}','\u{8D9F}','\u{8DA3}','\u{8E2B}',";
"    '\u{8E10}','\u{8E1D}','\u{8E22}','\u{8E0F}','\u{8E29}','\u{8E1F}','\u{8E21}','\u{8E1E}',";
"    '\u{8EBA}','\u{8F1D}','\u{8F1B}','\u{8F1F}','\u{8F29}','\u{8F26}','\u{8F2A}','\u{8F1C}',";
"    '\u{8F1E}','\u{8F25}','\u{9069}','\u{906E}','\u{9068}','\u{906D}','\u{9077}','\u{9130}',";
"    '\u{912D}','\u{9127}','\u{9131}','\u{9187}','\u{9189}','\u{918B}','\u{9183}','\u{92C5}',";
"    '\u{92BB}','\u{92B7}','\u{92EA}','\u{92AC}','\u{92E4}','\u{92C1}','\u{92B3}','\u{92BC}',";
"    '\u{92D2}','\u{92C7}','\u{92F0}','\u{92B2}','\u{95AD}','\u{95B1}','\u{9704}','\u{9706}',";
"    '\u{9707}','\u{9709}','\u{9760}','\u{978D}','\u{978B}','\u{978F}','\u{9821}','\u{982B}',";
"    '\u{981C}','\u{98B3}','\u{990A}','\u{9913}','\u{9912}','\u{9918}','\u{99DD}','\u{99D0}',";
"    '\u{99DF}','\u{99DB}','\u{99D1}','\u{99D5}','\u{99D2}','\u{99D9}','\u{9AB7}','\u{9AEE}',";
"    '\u{9AEF}','\u{9B27}','\u{9B45}','\u{9B44}','\u{9B77}','\u{9B6F}','\u{9D06}','\u{9D09}',";
"    '\u{9D03}','\u{9EA9}','\u{9EBE}','\u{9ECE}','\u{58A8}','\u{9F52}','\u{5112}','\u{5118}',";
"    '\u{5114}','\u{5110}','\u{5115}','\u{5180}','\u{51AA}','\u{51DD}','\u{5291}','\u{5293}',";
"    '\u{52F3}','\u{5659}','\u{566B}','\u{5679}','\u{5669}','\u{5664}','\u{5678}','\u{566A}',";
"    '\u{5668}','\u{5665}','\u{5671}','\u{566F}','\u{566C}','\u{5662}','\u{5676}','\u{58C1}',";
"    '\u{58BE}','\u{58C7}','\u{58C5}','\u{596E}','\u{5B1D}','\u{5B34}','\u{5B78}','\u{5BF0}',";
"    '\u{5C0E}','\u{5F4A}','\u{61B2}','\u{6191}','\u{61A9}','\u{618A}','\u{61CD}','\u{61B6}',";
"    '\u{61BE}','\u{61CA}','\u{61C8}','\u{6230}','\u{64C5}','\u{64C1}','\u{64CB}','\u{64BB}',";
"    '\u{64BC}','\u{64DA}','\u{64C4}','\u{64C7}','\u{64C2}','\u{64CD}','\u{64BF}','\u{64D2}',";
"    '\u{64D4}','\u{64BE}','\u{6574}','\u{66C6}','\u{66C9}','\u{66B9}','\u{66C4}','\u{66C7}',";
"    '\u{66B8}','\u{6A3D}','\u{6A38}','\u{6A3A}','\u{6A59}','\u{6A6B}','\u{6A58}','\u{6A39}',";
"    '\u{6A44}','\u{6A62}','\u{6A61}','\u{6A4B}','\u{6A47}','\u{6A35}','\u{6A5F}','\u{6A48}',";
"    '\u{6B59}','\u{6B77}','\u{6C05}','\u{6FC2}','\u{6FB1}','\u{6FA1}','\u{6FC3}','\u{6FA4}',";
"    '\u{6FC1}','\u{6FA7}','\u{6FB3}','\u{6FC0}','\u{6FB9}','\u{6FB6}','\u{6FA6}','\u{6FA0}',";
"    '\u{6FB4}','\u{71BE}','\u{71C9}','\u{71D0}','\u{71D2}','\u{71C8}','\u{71D5}','\u{71B9}',";
"    '\u{71CE}','\u{71D9}','\u{71DC}','\u{71C3}','\u{71C4}','\u{7368}','\u{749C}','\u{74A3}',";
"    '\u{7498}','\u{749F}','\u{749E}','\u{74E2}','\u{750C}','\u{750D}','\u{7634}','\u{7638}',";
"    '\u{763A}','\u{76E7}','\u{76E5}','\u{77A0}','\u{779E}','\u{779F}','\u{77A5}','\u{78E8}',";
"    '\u{78DA}','\u{78EC}','\u{78E7}','\u{79A6}','\u{7A4D}','\u{7A4E}','\u{7A46}','\u{7A4C}',";
"    '\u{7A4B}','\u{7ABA}','\u{7BD9}','\u{7C11}','\u{7BC9}','\u{7BE4}','\u{7BDB}','\u{7BE1}',";
"    '\u{7BE9}','\u{7BE6}','\u{7CD5}','\u{7CD6}','\u{7E0A}','\u{7E11}','\u{7E08}','\u{7E1B}',";
"    '\u{7E23}','\u{7E1E}','\u{7E1D}','\u{7E09}','\u{7E10}','\u{7F79}','\u{7FB2}','\u{7FF0}',";
"    '\u{7FF1}','\u{7FEE}','\u{8028}','\u{81B3}','\u{81A9}','\u{81A8}','\u{81FB}','\u{8208}',";
"    '\u{8258}','\u{8259}','\u{854A}','\u{8559}','\u{8548}','\u{8568}','\u{8569}','\u{8543}',";
"    '\u{8549}','\u{856D}','\u{856A}','\u{855E}','\u{8783}','\u{879F}','\u{879E}','\u{87A2}',";
"    '\u{878D}','\u{8861}','\u{892A}','\u{8932}','\u{8925}','\u{892B}','\u{8921}','\u{89AA}',";
"    '\u{89A6}','\u{8AE6}','\u{8AFA}','\u{8AEB}','\u{8AF1}','\u{8B00}','\u{8ADC}','\u{8AE7}',";
"    '\u{8AEE}','\u{8AFE}','\u{8B01}','\u{8B02}','\u{8AF7}','\u{8AED}','\u{8AF3}','\u{8AF6}',";
"    '\u{8AFC}','\u{8C6B}','\u{8C6D}','\u{8C93}','\u{8CF4}','\u{8E44}','\u{8E31}','\u{8E34}',";
"    '\u{8E42}','\u{8E39}','\u{8E35}','\u{8F3B}','\u{8F2F}','\u{8F38}','\u{8F33}','\u{8FA8}',";
"    '\u{8FA6}','\u{9075}','\u{9074}','\u{9078}','\u{9072}','\u{907C}','\u{907A}','\u{9134}',";
"    '\u{9192}','\u{9320}','\u{9336}','\u{92F8}','\u{9333}','\u{932F}','\u{9322}','\u{92FC}',";
"    '\u{932B}','\u{9304}','\u{931A}','\u{9310}','\u{9326}','\u{9321}','\u{9315}','\u{932E}',";
"    '\u{9319}','\u{95BB}','\u{96A7}','\u{96A8}','\u{96AA}','\u{96D5}','\u{970E}','\u{9711}',";
"    '\u{9716}','\u{970D}','\u{9713}','\u{970F}','\u{975B}','\u{975C}','\u{9766}','\u{9798}',";
"    '\u{9830}','\u{9838}','\u{983B}','\u{9837}','\u{982D}','\u{9839}','\u{9824}','\u{9910}',";
"    '\u{9928}','\u{991E}','\u{991B}','\u{9921}','\u{991A}','\u{99ED}','\u{99E2}','\u{99F1}',";
"    '\u{9AB8}','\u{9ABC}','\u{9AFB}','\u{9AED}','\u{9B28}','\u{9B91}','\u{9D15}','\u{9D23}',";
"    '\u{9D26}','\u{9D28}','\u{9D12}','\u{9D1B}','\u{9ED8}','\u{9ED4}','\u{9F8D}','\u{9F9C}',";
"    '\u{512A}','\u{511F}','\u{5121}','\u{5132}','\u{52F5}','\u{568E}','\u{5680}','\u{5690}',";
"    '\u{5685}','\u{5687}','\u{568F}','\u{58D5}','\u{58D3}','\u{58D1}','\u{58CE}','\u{5B30}',";
"    '\u{5B2A}','\u{5B24}','\u{5B7A}','\u{5C37}','\u{5C68}','\u{5DBC}','\u{5DBA}','\u{5DBD}',";
"    '\u{5DB8}','\u{5E6B}','\u{5F4C}','\u{5FBD}','\u{61C9}','\u{61C2}','\u{61C7}','\u{61E6}',";
"    '\u{61CB}','\u{6232}','\u{6234}','\u{64CE}','\u{64CA}','\u{64D8}','\u{64E0}','\u{64F0}',";
"    '\u{64E6}','\u{64EC}','\u{64F1}','\u{64E2}','\u{64ED}','\u{6582}','\u{6583}','\u{66D9}',";
"    '\u{66D6}','\u{6A80}','\u{6A94}','\u{6A84}','\u{6AA2}','\u{6A9C}','\u{6ADB}','\u{6AA3}',";
"    '\u{6A7E}','\u{6A97}','\u{6A90}','\u{6AA0}','\u{6B5C}','\u{6BAE}','\u{6BDA}','\u{6C08}',";
"    '\u{6FD8}','\u{6FF1}','\u{6FDF}','\u{6FE0}','\u{6FDB}','\u{6FE4}','\u{6FEB}','\u{6FEF}',";
"    '\u{6F80}','\u{6FEC}','\u{6FE1}','\u{6FE9}','\u{6FD5}','\u{6FEE}','\u{6FF0}','\u{71E7}',";
"    '\u{71DF}','\u{71EE}','\u{71E6}','\u{71E5}','\u{71ED}','\u{71EC}','\u{71F4}','\u{71E0}',";
"    '\u{7235}','\u{7246}','\u{7370}','\u{7372}','\u{74A9}','\u{74B0}','\u{74A6}','\u{74A8}',";
"    '\u{7646}','\u{7642}','\u{764C}','\u{76EA}','\u{77B3}','\u{77AA}','\u{77B0}','\u{77AC}',";
"    '\u{77A7}','\u{77AD}','\u{77EF}','\u{78F7}','\u{78FA}','\u{78F4}','\u{78EF}','\u{7901}',";
"    '\u{79A7}','\u{79AA}','\u{7A57}','\u{7ABF}','\u{7C07}','\u{7C0D}','\u{7BFE}','\u{7BF7}',";
"    '\u{7C0C}','\u{7BE0}','\u{7CE0}','\u{7CDC}','\u{7CDE}','\u{7CE2}','\u{7CDF}','\u{7CD9}',";
"    '\u{7CDD}','\u{7E2E}','\u{7E3E}','\u{7E46}','\u{7E37}','\u{7E32}','\u{7E43}','\u{7E2B}',";
"    '\u{7E3D}','\u{7E31}','\u{7E45}','\u{7E41}','\u{7E34}','\u{7E39}','\u{7E48}','\u{7E35}',";
"    '\u{7E3F}','\u{7E2F}','\u{7F44}','\u{7FF3}','\u{7FFC}','\u{8071}','\u{8072}','\u{8070}',";
"    '\u{806F}','\u{8073}','\u{81C6}','\u{81C3}','\u{81BA}','\u{81C2}','\u{81C0}','\u{81BF}',";
"    '\u{81BD}','\u{81C9}','\u{81BE}','\u{81E8}','\u{8209}','\u{8271}','\u{85AA}','\u{8584}',";
"    '\u{857E}','\u{859C}','\u{8591}','\u{8594}','\u{85AF}','\u{859B}','\u{8587}','\u{85A8}',";
"    '\u{858A}','\u{8667}','\u{87C0}','\u{87D1}','\u{87B3}','\u{87D2}','\u{87C6}','\u{87AB}',";
"    '\u{87BB}','\u{87BA}','\u{87C8}','\u{87CB}','\u{893B}','\u{8936}','\u{8944}','\u{8938}',";
"    '\u{893D}','\u{89AC}','\u{8B0E}','\u{8B17}','\u{8B19}','\u{8B1B}','\u{8B0A}','\u{8B20}',";
"    '\u{8B1D}','\u{8B04}','\u{8B10}','\u{8C41}','\u{8C3F}','\u{8C73}','\u{8CFA}','\u{8CFD}',";
"    '\u{8CFC}','\u{8CF8}','\u{8CFB}','\u{8DA8}','\u{8E49}','\u{8E4B}','\u{8E48}','\u{8E4A}',";
"    '\u{8F44}','\u{8F3E}','\u{8F42}','\u{8F45}','\u{8F3F}','\u{907F}','\u{907D}','\u{9084}',";
"    '\u{9081}','\u{9082}','\u{9080}','\u{9139}','\u{91A3}','\u{919E}','\u{919C}','\u{934D}',";
"    '\u{9382}','\u{9328}','\u{9375}','\u{934A}','\u{9365}','\u{934B}','\u{9318}','\u{937E}',";
"    '\u{936C}','\u{935B}','\u{9370}','\u{935A}','\u{9354}','\u{95CA}','\u{95CB}','\u{95CC}',";
"    '\u{95C8}','\u{95C6}','\u{96B1}','\u{96B8}','\u{96D6}','\u{971C}','\u{971E}','\u{97A0}',";
"    '\u{97D3}','\u{9846}','\u{98B6}','\u{9935}','\u{9A01}','\u{99FF}','\u{9BAE}','\u{9BAB}',"
].
(* /repo/src/generated/whatwg/big5_whatwg_tables.rs.inc:1281-1536 *)
Definition big5_inc_5 : list line := [
"    '\u{9BAA}','\u{9BAD}','\u{9D3B}','\u{9D3F}','\u{9E8B}','\u{9ECF}','\u{9EDE}','\u{9EDC}',";
"    '\u{9EDD}','\u{9EDB}','\u{9F3E}','\u{9F4B}','\u{53E2}','\u{5695}','\u{56AE}','\u{58D9}',";
"    '\u{58D8}','\u{5B38}','\u{5F5D}','\u{61E3}','\u{6233}','\u{64F4}','\u{64F2}','\u{64FE}',";
"    '\u{6506}','\u{64FA}','\u{64FB}','\u{64F7}','\u{65B7}','\u{66DC}','\u{6726}','\u{6AB3}',";
"    '\u{6AAC}','\u{6AC3}','\u{6ABB}','\u{6AB8}','\u{6AC2}','\u{6AAE}','\u{6AAF}','\u{6B5F}',";
"    '\u{6B78}','\u{6BAF}','\u{7009}','\u{700B}','\u{6FFE}','\u{7006}','\u{6FFA}','\u{7011}',";
"    '\u{700F}','\u{71FB}','\u{71FC}','\u{71FE}','\u{71F8}','\u{7377}','\u{7375}','\u{74A7}',";
"    '\u{74BF}','\u{7515}','\u{7656}','\u{7658}','\u{7652}','\u{77BD}','\u{77BF}','\u{77BB}',";
"    '\u{77BC}','\u{790E}','\u{79AE}','\u{7A61}','\u{7A62}','\u{7A60}','\u{7AC4}','\u{7AC5}',";
"    '\u{7C2B}','\u{7C27}','\u{7C2A}','\u{7C1E}','\u{7C23}','\u{7C21}','\u{7CE7}','\u{7E54}',";
"    '\u{7E55}','\u{7E5E}','\u{7E5A}','\u{7E61}','\u{7E52}','\u{7E59}','\u{7F48}','\u{7FF9}',";
"    '\u{7FFB}','\u{8077}','\u{8076}','\u{81CD}','\u{81CF}','\u{820A}','\u{85CF}','\u{85A9}',";
"    '\u{85CD}','\u{85D0}','\u{85C9}','\u{85B0}','\u{85BA}','\u{85B9}','\u{85A6}','\u{87EF}',";
"    '\u{87EC}','\u{87F2}','\u{87E0}','\u{8986}','\u{89B2}','\u{89F4}','\u{8B28}','\u{8B39}',";
"    '\u{8B2C}','\u{8B2B}','\u{8C50}','\u{8D05}','\u{8E59}','\u{8E63}','\u{8E66}','\u{8E64}',";
"    '\u{8E5F}','\u{8E55}','\u{8EC0}','\u{8F49}','\u{8F4D}','\u{9087}','\u{9083}','\u{9088}',";
"    '\u{91AB}','\u{91AC}','\u{91D0}','\u{9394}','\u{938A}','\u{9396}','\u{93A2}','\u{93B3}',";
"    '\u{93AE}','\u{93AC}','\u{93B0}','\u{9398}','\u{939A}','\u{9397}','\u{95D4}','\u{95D6}',";
"    '\u{95D0}','\u{95D5}','\u{96E2}','\u{96DC}','\u{96D9}','\u{96DB}','\u{96DE}','\u{9724}',";
"    '\u{97A3}','\u{97A6}','\u{97AD}','\u{97F9}','\u{984D}','\u{984F}','\u{984C}','\u{984E}',";
"    '\u{9853}','\u{98BA}','\u{993E}','\u{993F}','\u{993D}','\u{992E}','\u{99A5}','\u{9A0E}',";
"    '\u{9AC1}','\u{9B03}','\u{9B06}','\u{9B4F}','\u{9B4E}','\u{9B4D}','\u{9BCA}','\u{9BC9}',";
"    '\u{9BFD}','\u{9BC8}','\u{9BC0}','\u{9D51}','\u{9D5D}','\u{9D60}','\u{9EE0}','\u{9F15}',";
"    '\u{9F2C}','\u{5133}','\u{56A5}','\u{58DE}','\u{58DF}','\u{58E2}','\u{5BF5}','\u{9F90}',";
"    '\u{5EEC}','\u{61F2}','\u{61F7}','\u{61F6}','\u{61F5}','\u{6500}','\u{650F}','\u{66E0}',";
"    '\u{66DD}','\u{6AE5}','\u{6ADD}','\u{6ADA}','\u{6AD3}','\u{701B}','\u{701F}','\u{7028}',";
"    '\u{701A}','\u{701D}','\u{7015}','\u{7018}','\u{7206}','\u{720D}','\u{7258}','\u{72A2}',";
"    '\u{7378}','\u{737A}','\u{74BD}','\u{74CA}','\u{74E3}','\u{7587}','\u{7586}','\u{765F}',";
"    '\u{7661}','\u{77C7}','\u{7919}','\u{79B1}','\u{7A6B}','\u{7A69}','\u{7C3E}','\u{7C3F}',";
"    '\u{7C38}','\u{7C3D}','\u{7C37}','\u{7C40}','\u{7E6B}','\u{7E6D}','\u{7E79}','\u{7E69}',";
"    '\u{7E6A}','\u{7F85}','\u{7E73}','\u{7FB6}','\u{7FB9}','\u{7FB8}','\u{81D8}','\u{85E9}',";
"    '\u{85DD}','\u{85EA}','\u{85D5}','\u{85E4}','\u{85E5}','\u{85F7}','\u{87FB}','\u{8805}',";
"    '\u{880D}','\u{87F9}','\u{87FE}','\u{8960}','\u{895F}','\u{8956}','\u{895E}','\u{8B41}',";
"    '\u{8B5C}','\u{8B58}','\u{8B49}','\u{8B5A}','\u{8B4E}','\u{8B4F}','\u{8B46}','\u{8B59}',";
"    '\u{8D08}','\u{8D0A}','\u{8E7C}','\u{8E72}','\u{8E87}','\u{8E76}','\u{8E6C}','\u{8E7A}',";
"    '\u{8E74}','\u{8F54}','\u{8F4E}','\u{8FAD}','\u{908A}','\u{908B}','\u{91B1}','\u{91AE}',";
"    '\u{93E1}','\u{93D1}','\u{93DF}','\u{93C3}','\u{93C8}','\u{93DC}','\u{93DD}','\u{93D6}',";
"    '\u{93E2}','\u{93CD}','\u{93D8}','\u{93E4}','\u{93D7}','\u{93E8}','\u{95DC}','\u{96B4}',";
"    '\u{96E3}','\u{972A}','\u{9727}','\u{9761}','\u{97DC}','\u{97FB}','\u{985E}','\u{9858}',";
"    '\u{985B}','\u{98BC}','\u{9945}','\u{9949}','\u{9A16}','\u{9A19}','\u{9B0D}','\u{9BE8}',";
"    '\u{9BE7}','\u{9BD6}','\u{9BDB}','\u{9D89}','\u{9D61}','\u{9D72}','\u{9D6A}','\u{9D6C}',";
"    '\u{9E92}','\u{9E97}','\u{9E93}','\u{9EB4}','\u{52F8}','\u{56A8}','\u{56B7}','\u{56B6}',";
"    '\u{56B4}','\u{56BC}','\u{58E4}','\u{5B40}','\u{5B43}','\u{5B7D}','\u{5BF6}','\u{5DC9}',";
"    '\u{61F8}','\u{61FA}','\u{6518}','\u{6514}','\u{6519}','\u{66E6}','\u{6727}','\u{6AEC}',";
"    '\u{703E}','\u{7030}','\u{7032}','\u{7210}','\u{737B}','\u{74CF}','\u{7662}','\u{7665}',";
"    '\u{7926}','\u{792A}','\u{792C}','\u{792B}','\u{7AC7}','\u{7AF6}','\u{7C4C}','\u{7C43}',";
"    '\u{7C4D}','\u{7CEF}','\u{7CF0}','\u{8FAE}','\u{7E7D}','\u{7E7C}','\u{7E82}','\u{7F4C}',";
"    '\u{8000}','\u{81DA}','\u{8266}','\u{85FB}','\u{85F9}','\u{8611}','\u{85FA}','\u{8606}',";
"    '\u{860B}','\u{8607}','\u{860A}','\u{8814}','\u{8815}','\u{8964}','\u{89BA}','\u{89F8}',";
"    '\u{8B70}','\u{8B6C}','\u{8B66}','\u{8B6F}','\u{8B5F}','\u{8B6B}','\u{8D0F}','\u{8D0D}',";
"    '\u{8E89}','\u{8E81}','\u{8E85}','\u{8E82}','\u{91B4}','\u{91CB}','\u{9418}','\u{9403}',";
"    '\u{93FD}','\u{95E1}','\u{9730}','\u{98C4}','\u{9952}','\u{9951}','\u{99A8}','\u{9A2B}',";
"    '\u{9A30}','\u{9A37}','\u{9A35}','\u{9C13}','\u{9C0D}','\u{9E79}','\u{9EB5}','\u{9EE8}',";
"    '\u{9F2F}','\u{9F5F}','\u{9F63}','\u{9F61}','\u{5137}','\u{5138}','\u{56C1}','\u{56C0}',";
"    '\u{56C2}','\u{5914}','\u{5C6C}','\u{5DCD}','\u{61FC}','\u{61FE}','\u{651D}','\u{651C}',";
"    '\u{6595}','\u{66E9}','\u{6AFB}','\u{6B04}','\u{6AFA}','\u{6BB2}','\u{704C}','\u{721B}',";
"    '\u{72A7}','\u{74D6}','\u{74D4}','\u{7669}','\u{77D3}','\u{7C50}','\u{7E8F}','\u{7E8C}',";
"    '\u{7FBC}','\u{8617}','\u{862D}','\u{861A}','\u{8823}','\u{8822}','\u{8821}','\u{881F}',";
"    '\u{896A}','\u{896C}','\u{89BD}','\u{8B74}','\u{8B77}','\u{8B7D}','\u{8D13}','\u{8E8A}',";
"    '\u{8E8D}','\u{8E8B}','\u{8F5F}','\u{8FAF}','\u{91BA}','\u{942E}','\u{9433}','\u{9435}',";
"    '\u{943A}','\u{9438}','\u{9432}','\u{942B}','\u{95E2}','\u{9738}','\u{9739}','\u{9732}',";
"    '\u{97FF}','\u{9867}','\u{9865}','\u{9957}','\u{9A45}','\u{9A43}','\u{9A40}','\u{9A3E}',";
"    '\u{9ACF}','\u{9B54}','\u{9B51}','\u{9C2D}','\u{9C25}','\u{9DAF}','\u{9DB4}','\u{9DC2}',";
"    '\u{9DB8}','\u{9E9D}','\u{9EEF}','\u{9F19}','\u{9F5C}','\u{9F66}','\u{9F67}','\u{513C}',";
"    '\u{513B}','\u{56C8}','\u{56CA}','\u{56C9}','\u{5B7F}','\u{5DD4}','\u{5DD2}','\u{5F4E}',";
"    '\u{61FF}','\u{6524}','\u{6B0A}','\u{6B61}','\u{7051}','\u{7058}','\u{7380}','\u{74E4}',";
"    '\u{758A}','\u{766E}','\u{766C}','\u{79B3}','\u{7C60}','\u{7C5F}','\u{807E}','\u{807D}',";
"    '\u{81DF}','\u{8972}','\u{896F}','\u{89FC}','\u{8B80}','\u{8D16}','\u{8D17}','\u{8E91}',";
"    '\u{8E93}','\u{8F61}','\u{9148}','\u{9444}','\u{9451}','\u{9452}','\u{973D}','\u{973E}',";
"    '\u{97C3}','\u{97C1}','\u{986B}','\u{9955}','\u{9A55}','\u{9A4D}','\u{9AD2}','\u{9B1A}',";
"    '\u{9C49}','\u{9C31}','\u{9C3E}','\u{9C3B}','\u{9DD3}','\u{9DD7}','\u{9F34}','\u{9F6C}',";
"    '\u{9F6A}','\u{9F94}','\u{56CC}','\u{5DD6}','\u{6200}','\u{6523}','\u{652B}','\u{652A}',";
"    '\u{66EC}','\u{6B10}','\u{74DA}','\u{7ACA}','\u{7C64}','\u{7C63}','\u{7C65}','\u{7E93}',";
"    '\u{7E96}','\u{7E94}','\u{81E2}','\u{8638}','\u{863F}','\u{8831}','\u{8B8A}','\u{9090}',";
"    '\u{908F}','\u{9463}','\u{9460}','\u{9464}','\u{9768}','\u{986F}','\u{995C}','\u{9A5A}',";
"    '\u{9A5B}','\u{9A57}','\u{9AD3}','\u{9AD4}','\u{9AD1}','\u{9C54}','\u{9C57}','\u{9C56}',";
"    '\u{9DE5}','\u{9E9F}','\u{9EF4}','\u{56D1}','\u{58E9}','\u{652C}','\u{705E}','\u{7671}',";
"    '\u{7672}','\u{77D7}','\u{7F50}','\u{7F88}','\u{8836}','\u{8839}','\u{8862}','\u{8B93}',";
"    '\u{8B92}','\u{8B96}','\u{8277}','\u{8D1B}','\u{91C0}','\u{946A}','\u{9742}','\u{9748}',";
"    '\u{9744}','\u{97C6}','\u{9870}','\u{9A5F}','\u{9B22}','\u{9B58}','\u{9C5F}','\u{9DF9}',";
"    '\u{9DFA}','\u{9E7C}','\u{9E7D}','\u{9F07}','\u{9F77}','\u{9F72}','\u{5EF3}','\u{6B16}',";
"    '\u{7063}','\u{7C6C}','\u{7C6E}','\u{883B}','\u{89C0}','\u{8EA1}','\u{91C1}','\u{9472}',";
"    '\u{9470}','\u{9871}','\u{995E}','\u{9AD6}','\u{9B23}','\u{9ECC}','\u{7064}','\u{77DA}',";
"    '\u{8B9A}','\u{9477}','\u{97C9}','\u{9A62}','\u{9A65}','\u{7E9C}','\u{8B9C}','\u{8EAA}',";
"    '\u{91C5}','\u{947D}','\u{947E}','\u{947C}','\u{9C77}','\u{9C78}','\u{9EF7}','\u{8C54}',";
"    '\u{947F}','\u{9E1A}','\u{7228}','\u{9A6A}','\u{9B31}','\u{9E1B}','\u{9E1E}','\u{7C72}',";
"    '\u{2460}','\u{2461}','\u{2462}','\u{2463}','\u{2464}','\u{2465}','\u{2466}','\u{2467}',";
"    '\u{2468}','\u{2469}','\u{2474}','\u{2475}','\u{2476}','\u{2477}','\u{2478}','\u{2479}',";
"    '\u{247A}','\u{247B}','\u{247C}','\u{247D}','\u{2170}','\u{2171}','\u{2172}','\u{2173}',";
"    '\u{2174}','\u{2175}','\u{2176}','\u{2177}','\u{2178}','\u{2179}','\u{4E36}','\u{4E3F}',";
"    '\u{4E85}','\u{4EA0}','\u{5182}','\u{5196}','\u{51AB}','\u{52F9}','\u{5338}','\u{5369}',";
"    '\u{53B6}','\u{590A}','\u{5B80}','\u{5DDB}','\u{2F33}','\u{5E7F}','\u{5EF4}','\u{5F50}',";
"    '\u{5F61}','\u{6534}','\u{65E0}','\u{7592}','\u{7676}','\u{8FB5}','\u{96B6}','\u{00A8}',";
"    '\u{02C6}','\u{30FD}','\u{30FE}','\u{309D}','\u{309E}','\u{3003}','\u{4EDD}','\u{3005}',";
"    '\u{3006}','\u{3007}','\u{30FC}','\u{FF3B}','\u{FF3D}','\u{273D}','\u{3041}','\u{3042}',";
"    '\u{3043}','\u{3044}','\u{3045}','\u{3046}','\u{3047}','\u{3048}','\u{3049}','\u{304A}',";
"    '\u{304B}','\u{304C}','\u{304D}','\u{304E}','\u{304F}','\u{3050}','\u{3051}','\u{3052}',";
"    '\u{3053}','\u{3054}','\u{3055}','\u{3056}','\u{3057}','\u{3058}','\u{3059}','\u{305A}',";
"    '\u{305B}','\u{305C}','\u{305D}','\u{305E}','\u{305F}','\u{3060}','\u{3061}','\u{3062}',";
"    '\u{3063}','\u{3064}','\u{3065}','\u{3066}','\u{3067}','\u{3068}','\u{3069}','\u{306A}',";
"    '\u{306B}','\u{306C}','\u{306D}','\u{306E}','\u{306F}','\u{3070}','\u{3071}','\u{3072}',";
"    '\u{3073}','\u{3074}','\u{3075}','\u{3076}','\u{3077}','\u{3078}','\u{3079}','\u{307A}',";
"    '\u{307B}','\u{307C}','\u{307D}','\u{307E}','\u{307F}','\u{3080}','\u{3081}','\u{3082}',";
"    '\u{3083}','\u{3084}','\u{3085}','\u{3086}','\u{3087}','\u{3088}','\u{3089}','\u{308A}',";
"    '\u{308B}','\u{308C}','\u{308D}','\u{308E}','\u{308F}','\u{3090}','\u{3091}','\u{3092}',";
"    '\u{3093}','\u{30A1}','\u{30A2}','\u{30A3}','\u{30A4}','\u{30A5}','\u{30A6}','\u{30A7}',";
"    '\u{30A8}','\u{30A9}','\u{30AA}','\u{30AB}','\u{30AC}','\u{30AD}','\u{30AE}','\u{30AF}',";
"    '\u{30B0}','\u{30B1}','\u{30B2}','\u{30B3}','\u{30B4}','\u{30B5}','\u{30B6}','\u{30B7}',";
"    '\u{30B8}','\u{30B9}','\u{30BA}','\u{30BB}','\u{30BC}','\u{30BD}','\u{30BE}','\u{30BF}',";
"    '\u{30C0}','\u{30C1}','\u{30C2}','\u{30C3}','\u{30C4}','\u{30C5}','\u{30C6}','\u{30C7}',";
"    '\u{30C8}','\u{30C9}','\u{30CA}','\u{30CB}','\u{30CC}','\u{30CD}','\u{30CE}','\u{30CF}',";
"    '\u{30D0}','\u{30D1}','\u{30D2}','\u{30D3}','\u{30D4}','\u{30D5}','\u{30D6}','\u{30D7}',";
"    '\u{30D8}','\u{30D9}','\u{30DA}','\u{30DB}','\u{30DC}','\u{30DD}','\u{30DE}','\u{30DF}',";
"    '\u{30E0}','\u{30E1}','\u{30E2}','\u{30E3}','\u{30E4}','\u{30E5}','\u{30E6}','\u{30E7}',";
"    '\u{30E8}','\u{30E9}','\u{30EA}','\u{30EB}','\u{30EC}','\u{30ED}','\u{30EE}','\u{30EF}',";
"    '\u{30F0}','\u{30F1}','\u{30F2}','\u{30F3}','\u{30F4}','\u{30F5}','\u{30F6}','\u{0410}',";
"    '\u{0411}','\u{0412}','\u{0413}','\u{0414}','\u{0415}','\u{0401}','\u{0416}','\u{0417}',";
"    '\u{0418}','\u{0419}','\u{041A}','\u{041B}','\u{041C}','\u{041D}','\u{041E}','\u{041F}',";
"    '\u{0420}','\u{0421}','\u{0422}','\u{0423}','\u{0424}','\u{0425}','\u{0426}','\u{0427}',";
"    '\u{0428}','\u{0429}','\u{042A}','\u{042B}','\u{042C}','\u{042D}','\u{042E}','\u{042F}',";
"    '\u{0430}','\u{0431}','\u{0432}','\u{0433}','\u{0434}','\u{0435}','\u{0451}','\u{0436}',";
"    '\u{0437}','\u{0438}','\u{0439}','\u{043A}','\u{043B}','\u{043C}','\u{043D}','\u{043E}',";
"    '\u{043F}','\u{0440}','\u{0441}','\u{0442}','\u{0443}','\u{0444}','\u{0445}','\u{0446}',";
"    '\u{0447}','\u{0448}','\u{0449}','\u{044A}','\u{044B}','\u{044C}','\u{044D}','\u{044E}',";
"    '\u{044F}','\u{21E7}','\u{21B8}','\u{21B9}','\u{31CF}','\u{200CC}','\u{4E5A}','\u{2008A}',";
"    '\u{5202}','\u{4491}','\u{9FB0}','\u{5188}','\u{9FB1}','\u{27607}','�','�',";
"    '�','�','�','�','�','�','�','�',";
"    '�','�','�','�','�','�','�','�',";
"    '�','�','�','�','�','�','�','�',";
"    '�','�','�','�','�','�','�','�',";
"    '�','�','�','�','�','�','\u{FFE2}','\u{FFE4}',";
"    '\u{FF07}','\u{FF02}','\u{3231}','\u{2116}','\u{2121}','\u{309B}','\u{309C}','\u{2E80}',";
"    '\u{2E84}','\u{2E86}','\u{2E87}','\u{2E88}','\u{2E8A}','\u{2E8C}','\u{2E8D}','\u{2E95}',";
"    '\u{2E9C}','\u{2E9D}','\u{2EA5}','\u{2EA7}','\u{2EAA}','\u{2EAC}','\u{2EAE}','\u{2EB6}',";
"    '\u{2EBC}','\u{2EBE}','\u{2EC6}','\u{2ECA}','\u{2ECC}','\u{2ECD}','\u{2ECF}','\u{2ED6}',";
"    '\u{2ED7}','\u{2EDE}','\u{2EE3}','�','�','�','\u{0283}','\u{0250}',";
"    '\u{025B}','\u{0254}','\u{0275}','\u{0153}','\u{00F8}','\u{014B}','\u{028A}','\u{026A}',";
"    '\u{4E42}','\u{4E5C}','\u{51F5}','\u{531A}','\u{5382}','\u{4E07}','\u{4E0C}','\u{4E47}',";
"    '\u{4E8D}','\u{56D7}','\u{FA0C}','\u{5C6E}','\u{5F73}','\u{4E0F}','\u{5187}','\u{4E0E}',";
"    '\u{4E2E}','\u{4E93}','\u{4EC2}','\u{4EC9}','\u{4EC8}','\u{5198}','\u{52FC}','\u{536C}',";
"    '\u{53B9}','\u{5720}','\u{5903}','\u{592C}','\u{5C10}','\u{5DFF}','\u{65E1}','\u{6BB3}',";
"    '\u{6BCC}','\u{6C14}','\u{723F}','\u{4E31}','\u{4E3C}','\u{4EE8}','\u{4EDC}','\u{4EE9}',";
"    '\u{4EE1}','\u{4EDD}','\u{4EDA}','\u{520C}','\u{531C}','\u{534C}','\u{5722}','\u{5723}',";
"    '\u{5917}','\u{592F}','\u{5B81}','\u{5B84}','\u{5C12}','\u{5C3B}','\u{5C74}','\u{5C73}',";
"    '\u{5E04}','\u{5E80}','\u{5E82}','\u{5FC9}','\u{6209}','\u{6250}','\u{6C15}','\u{6C36}',";
"    '\u{6C43}','\u{6C3F}','\u{6C3B}','\u{72AE}','\u{72B0}','\u{738A}','\u{79B8}','\u{808A}',";
"    '\u{961E}','\u{4F0E}','\u{4F18}','\u{4F2C}','\u{4EF5}','\u{4F14}','\u{4EF1}','\u{4F00}',";
"    '\u{4EF7}','\u{4F08}','\u{4F1D}','\u{4F02}','\u{4F05}','\u{4F22}','\u{4F13}','\u{4F04}',";
"    '\u{4EF4}','\u{4F12}','\u{51B1}','\u{5213}','\u{5209}','\u{5210}','\u{52A6}','\u{5322}',";
"    '\u{531F}','\u{534D}','\u{538A}','\u{5407}','\u{56E1}','\u{56DF}','\u{572E}','\u{572A}',";
"    '\u{5734}','\u{593C}','\u{5980}','\u{597C}','\u{5985}','\u{597B}','\u{597E}','\u{5977}',";
"    '\u{597F}','\u{5B56}','\u{5C15}','\u{5C25}','\u{5C7C}','\u{5C7A}','\u{5C7B}','\u{5C7E}',";
"    '\u{5DDF}','\u{5E75}','\u{5E84}','\u{5F02}','\u{5F1A}','\u{5F74}','\u{5FD5}','\u{5FD4}',";
"    '\u{5FCF}','\u{625C}','\u{625E}','\u{6264}','\u{6261}','\u{6266}','\u{6262}','\u{6259}',";
"    '\u{6260}','\u{625A}','\u{6265}','\u{65EF}','\u{65EE}','\u{673E}','\u{6739}','\u{6738}',";
"    '\u{673B}','\u{673A}','\u{673F}','\u{673C}','\u{6733}','\u{6C18}','\u{6C46}','\u{6C52}',";
"    '\u{6C5C}','\u{6C4F}','\u{6C4A}','\u{6C54}','\u{6C4B}','\u{6C4C}','\u{7071}','\u{725E}',";
"    '\u{72B4}','\u{72B5}','\u{738E}','\u{752A}','\u{767F}','\u{7A75}','\u{7F51}','\u{8278}',";
"    '\u{827C}','\u{8280}','\u{827D}','\u{827F}','\u{864D}','\u{897E}','\u{9099}','\u{9097}',";
"    '\u{9098}','\u{909B}','\u{9094}','\u{9622}','\u{9624}','\u{9620}','\u{9623}','\u{4F56}',";
"    '\u{4F3B}','\u{4F62}','\u{4F49}','\u{4F53}','\u{4F64}','\u{4F3E}','\u{4F67}','\u{4F52}',";
"    '\u{4F5F}','\u{4F41}','\u{4F58}','\u{4F2D}','\u{4F33}','\u{4F3F}','\u{4F61}','\u{518F}',";
"    '\u{51B9}','\u{521C}','\u{521E}','\u{5221}','\u{52AD}','\u{52AE}','\u{5309}','\u{5363}',";
"    '\u{5372}','\u{538E}','\u{538F}','\u{5430}','\u{5437}','\u{542A}','\u{5454}','\u{5445}',";
"    '\u{5419}','\u{541C}','\u{5425}','\u{5418}','\u{543D}','\u{544F}','\u{5441}','\u{5428}',";
"    '\u{5424}','\u{5447}','\u{56EE}','\u{56E7}','\u{56E5}','\u{5741}','\u{5745}','\u{574C}',";
"    '\u{5749}','\u{574B}','\u{5752}','\u{5906}','\u{5940}','\u{59A6}','\u{5998}','\u{59A0}',";
"    '\u{5997}','\u{598E}','\u{59A2}','\u{5990}','\u{598F}','\u{59A7}','\u{59A1}','\u{5B8E}',";
"    '\u{5B92}','\u{5C28}','\u{5C2A}','\u{5C8D}','\u{5C8F}','\u{5C88}','\u{5C8B}','\u{5C89}',";
"    '\u{5C92}','\u{5C8A}','\u{5C86}','\u{5C93}','\u{5C95}','\u{5DE0}','\u{5E0A}','\u{5E0E}',";
"    '\u{5E8B}','\u{5E89}','\u{5E8C}','\u{5E88}','\u{5E8D}','\u{5F05}','\u{5F1D}','\u{5F78}',";
"    '\u{5F76}','\u{5FD2}','\u{5FD1}','\u{5FD0}','\u{5FED}','\u{5FE8}','\u{5FEE}','\u{5FF3}',";
"    '\u{5FE1}','\u{5FE4}','\u{5FE3}','\u{5FFA}','\u{5FEF}','\u{5FF7}','\u{5FFB}','\u{6000}',";
"    '\u{5FF4}','\u{623A}','\u{6283}','\u{628C}','\u{628E}','\u{628F}','\u{6294}','\u{6287}',";
"    '\u{6271}','\u{627B}','\u{627A}','\u{6270}','\u{6281}','\u{6288}','\u{6277}','\u{627D}',";
"    '\u{6272}','\u{6274}','\u{6537}','\u{65F0}','\u{65F4}','\u{65F3}','\u{65F2}','\u{65F5}',";
"    '\u{6745}','\u{6747}','\u{6759}','\u{6755}','\u{674C}','\u{6748}','\u{675D}','\u{674D}',";
"    '\u{675A}','\u{674B}','\u{6BD0}','\u{6C19}','\u{6C1A}','\u{6C78}','\u{6C67}','\u{6C6B}',";
"    '\u{6C84}','\u{6C8B}','\u{6C8F}','\u{6C71}','\u{6C6F}','\u{6C69}','\u{6C9A}','\u{6C6D}',";
"    '\u{6C87}','\u{6C95}','\u{6C9C}','\u{6C66}','\u{6C73}','\u{6C65}','\u{6C7B}','\u{6C8E}',";
"    '\u{7074}','\u{707A}','\u{7263}','\u{72BF}','\u{72BD}','\u{72C3}','\u{72C6}','\u{72C1}',";
"    '\u{72BA}','\u{72C5}','\u{7395}','\u{7397}','\u{7393}','\u{7394}','\u{7392}','\u{753A}',";
"    '\u{7539}','\u{7594}','\u{7595}','\u{7681}','\u{793D}','\u{8034}','\u{8095}','\u{8099}',";
"    '\u{8090}','\u{8092}','\u{809C}','\u{8290}','\u{828F}','\u{8285}','\u{828E}','\u{8291}',";
"    '\u{8293}','\u{828A}','\u{8283}','\u{8284}','\u{8C78}','\u{8FC9}','\u{8FBF}','\u{909F}',";
"    '\u{90A1}','\u{90A5}','\u{909E}','\u{90A7}','\u{90A0}','\u{9630}','\u{9628}','\u{962F}',";
"    '\u{962D}','\u{4E33}','\u{4F98}','\u{4F7C}','\u{4F85}','\u{4F7D}','\u{4F80}','\u{4F87}',";
"    '\u{4F76}','\u{4F74}','\u{4F89}','\u{4F84}','\u{4F77}','\u{4F4C}','\u{4F97}','\u{4F6A}',";
"    '\u{4F9A}','\u{4F79}','\u{4F81}','\u{4F78}','\u{4F90}','\u{4F9C}','\u{4F94}','\u{4F9E}',";
"    '\u{4F92}','\u{4F82}','\u{4F95}','\u{4F6B}','\u{4F6E}','\u{519E}','\u{51BC}','\u{51BE}',";
"    '\u{5235}','\u{5232}','\u{5233}','\u{5246}','\u{5231}','\u{52BC}','\u{530A}','\u{530B}',";
"    '\u{533C}','\u{5392}','\u{5394}','\u{5487}','\u{547F}','\u{5481}','\u{5491}','\u{5482}',";
"    '\u{5488}','\u{546B}','\u{547A}','\u{547E}','\u{5465}','\u{546C}','\u{5474}','\u{5466}',";
"    '\u{548D}','\u{546F}','\u{5461}','\u{5460}','\u{5498}','\u{5463}','\u{5467}','\u{5464}',";
"    '\u{56F7}','\u{56F9}','\u{576F}','\u{5772}','\u{576D}','\u{576B}','\u{5771}','\u{5770}',";
"    '\u{5776}','\u{5780}','\u{5775}','\u{577B}','\u{5773}','\u{5774}','\u{5762}','\u{5768}',";
"    '\u{577D}','\u{590C}','\u{5945}','\u{59B5}','\u{59BA}','\u{59CF}','\u{59CE}','\u{59B2}',";
"    '\u{59CC}','\u{59C1}','\u{59B6}','\u{59BC}','\u{59C3}','\u{59D6}','\u{59B1}','\u{59BD}',";
"    '\u{59C0}','\u{59C8}','\u{59B4}','\u{59C7}','\u{5B62}','\u{5B65}','\u{5B93}','\u{5B95}',";
"    '\u{5C44}','\u{5C47}','\u{5CAE}','\u{5CA4}','\u{5CA0}','\u{5CB5}','\u{5CAF}','\u{5CA8}',";
"    '\u{5CAC}','\u{5C9F}','\u{5CA3}','\u{5CAD}','\u{5CA2}','\u{5CAA}','\u{5CA7}','\u{5C9D}',";
"    '\u{5CA5}','\u{5CB6}','\u{5CB0}','\u{5CA6}','\u{5E17}','\u{5E14}','\u{5E19}','\u{5F28}',";
"    '\u{5F22}','\u{5F23}','\u{5F24}','\u{5F54}','\u{5F82}','\u{5F7E}','\u{5F7D}','\u{5FDE}',";
"    '\u{5FE5}','\u{602D}','\u{6026}','\u{6019}','\u{6032}','\u{600B}','\u{6034}','\u{600A}',";
"    '\u{6017}','\u{6033}','\u{601A}','\u{601E}','\u{602C}','\u{6022}','\u{600D}','\u{6010}',";
"    '\u{602E}','\u{6013}','\u{6011}','\u{600C}','\u{6009}','\u{601C}','\u{6214}','\u{623D}',";
"    '\u{62AD}','\u{62B4}','\u{62D1}','\u{62BE}','\u{62AA}','\u{62B6}','\u{62CA}','\u{62AE}',";
"    '\u{62B3}','\u{62AF}','\u{62BB}','\u{62A9}','\u{62B0}','\u{62B8}','\u{653D}','\u{65A8}',";
"    '\u{65BB}','\u{6609}','\u{65FC}','\u{6604}','\u{6612}','\u{6608}','\u{65FB}','\u{6603}',";
"    '\u{660B}','\u{660D}','\u{6605}','\u{65FD}','\u{6611}','\u{6610}','\u{66F6}','\u{670A}',";
"    '\u{6785}','\u{676C}','\u{678E}','\u{6792}','\u{6776}','\u{677B}','\u{6798}','\u{6786}',";
"    '\u{6784}','\u{6774}','\u{678D}','\u{678C}','\u{677A}','\u{679F}','\u{6791}','\u{6799}',";
"    '\u{6783}','\u{677D}','\u{6781}','\u{6778}','\u{6779}','\u{6794}','\u{6B25}','\u{6B80}',";
"    '\u{6B7E}','\u{6BDE}','\u{6C1D}','\u{6C93}','\u{6CEC}','\u{6CEB}','\u{6CEE}','\u{6CD9}',";
"    '\u{6CB6}','\u{6CD4}','\u{6CAD}','\u{6CE7}','\u{6CB7}','\u{6CD0}','\u{6CC2}','\u{6CBA}',";
"    '\u{6CC3}','\u{6CC6}','\u{6CED}','\u{6CF2}','\u{6CD2}','\u{6CDD}','\u{6CB4}','\u{6C8A}',";
"    '\u{6C9D}','\u{6C80}','\u{6CDE}','\u{6CC0}','\u{6D30}','\u{6CCD}','\u{6CC7}','\u{6CB0}',";
"    '\u{6CF9}','\u{6CCF}','\u{6CE9}','\u{6CD1}','\u{7094}','\u{7098}','\u{7085}','\u{7093}',";
"    '\u{7086}','\u{7084}','\u{7091}','\u{7096}','\u{7082}','\u{709A}','\u{7083}','\u{726A}',";
"    '\u{72D6}','\u{72CB}','\u{72D8}','\u{72C9}','\u{72DC}','\u{72D2}','\u{72D4}','\u{72DA}',";
"    '\u{72CC}','\u{72D1}','\u{73A4}','\u{73A1}','\u{73AD}','\u{73A6}','\u{73A2}','\u{73A0}',";
"    '\u{73AC}','\u{739D}','\u{74DD}','\u{74E8}','\u{753F}','\u{7540}','\u{753E}','\u{758C}',";
"    '\u{7598}','\u{76AF}','\u{76F3}','\u{76F1}','\u{76F0}','\u{76F5}','\u{77F8}','\u{77FC}',";
"    '\u{77F9}','\u{77FB}','\u{77FA}','\u{77F7}','\u{7942}','\u{793F}','\u{79C5}','\u{7A78}',";
"    '\u{7A7B}','\u{7AFB}','\u{7C75}','\u{7CFD}','\u{8035}','\u{808F}','\u{80AE}','\u{80A3}',";
"    '\u{80B8}','\u{80B5}','\u{80AD}','\u{8220}','\u{82A0}','\u{82C0}','\u{82AB}','\u{829A}',";
"    '\u{8298}','\u{829B}','\u{82B5}','\u{82A7}','\u{82AE}','\u{82BC}','\u{829E}','\u{82BA}',";
"    '\u{82B4}','\u{82A8}','\u{82A1}','\u{82A9}','\u{82C2}','\u{82A4}','\u{82C3}','\u{82B6}',";
"    '\u{82A2}','\u{8670}','\u{866F}','\u{866D}','\u{866E}','\u{8C56}','\u{8FD2}','\u{8FCB}',";
"    '\u{8FD3}','\u{8FCD}','\u{8FD6}','\u{8FD5}','\u{8FD7}','\u{90B2}','\u{90B4}','\u{90AF}',";
"    '\u{90B3}','\u{90B0}','\u{9639}','\u{963D}','\u{963C}','\u{963A}','\u{9643}','\u{4FCD}',";
"    '\u{4FC5}','\u{4FD3}','\u{4FB2}','\u{4FC9}','\u{4FCB}','\u{4FC1}','\u{4FD4}','\u{4FDC}',";
"    '\u{4FD9}','\u{4FBB}','\u{4FB3}','\u{4FDB}','\u{4FC7}','\u{4FD6}','\u{4FBA}','\u{4FC0}',";
"    '\u{4FB9}','\u{4FEC}','\u{5244}','\u{5249}','\u{52C0}','\u{52C2}','\u{533D}','\u{537C}',";
"    '\u{5397}','\u{5396}','\u{5399}','\u{5398}','\u{54BA}','\u{54A1}','\u{54AD}','\u{54A5}',";
"    '\u{54CF}','\u{54C3}','\u{830D}','\u{54B7}','\u{54AE}','\u{54D6}','\u{54B6}','\u{54C5}',";
"    '\u{54C6}','\u{54A0}','\u{5470}','\u{54BC}','\u{54A2}','\u{54BE}','\u{5472}','\u{54DE}',";
"    '\u{54B0}','\u{57B5}','\u{579E}','\u{579F}','\u{57A4}','\u{578C}','\u{5797}','\u{579D}',";
"    '\u{579B}','\u{5794}','\u{5798}','\u{578F}','\u{5799}','\u{57A5}','\u{579A}','\u{5795}',";
"    '\u{58F4}','\u{590D}','\u{5953}','\u{59E1}','\u{59DE}','\u{59EE}','\u{5A00}','\u{59F1}',";
"    '\u{59DD}','\u{59FA}','\u{59FD}','\u{59FC}','\u{59F6}','\u{59E4}','\u{59F2}','\u{59F7}',";
"    '\u{59DB}','\u{59E9}','\u{59F3}','\u{59F5}','\u{59E0}','\u{59FE}','\u{59F4}','\u{59ED}',";
"    '\u{5BA8}','\u{5C4C}','\u{5CD0}','\u{5CD8}','\u{5CCC}','\u{5CD7}','\u{5CCB}','\u{5CDB}',";
"    '\u{5CDE}','\u{5CDA}','\u{5CC9}','\u{5CC7}','\u{5CCA}','\u{5CD6}','\u{5CD3}','\u{5CD4}',";
"    '\u{5CCF}','\u{5CC8}','\u{5CC6}','\u{5CCE}','\u{5CDF}','\u{5CF8}','\u{5DF9}','\u{5E21}',";
"    '\u{5E22}','\u{5E23}','\u{5E20}','\u{5E24}','\u{5EB0}','\u{5EA4}','\u{5EA2}','\u{5E9B}',";
"    '\u{5EA3}','\u{5EA5}','\u{5F07}','\u{5F2E}','\u{5F56}','\u{5F86}','\u{6037}','\u{6039}',";
"    '\u{6054}','\u{6072}','\u{605E}','\u{6045}','\u{6053}','\u{6047}','\u{6049}','\u{605B}',";
"    '\u{604C}','\u{6040}','\u{6042}','\u{605F}','\u{6024}','\u{6044}','\u{6058}','\u{6066}',";
"    '\u{606E}','\u{6242}','\u{6243}','\u{62CF}','\u{630D}','\u{630B}','\u{62F5}','\u{630E}',";
"    '\u{6303}','\u{62EB}','\u{62F9}','\u{630F}','\u{630C}','\u{62F8}','\u{62F6}','\u{6300}',";
"    '\u{6313}','\u{6314}','\u{62FA}','\u{6315}','\u{62FB}','\u{62F0}','\u{6541}','\u{6543}',";
"    '\u{65AA}','\u{65BF}','\u{6636}','\u{6621}','\u{6632}','\u{6635}','\u{661C}','\u{6626}',";
"    '\u{6622}','\u{6633}','\u{662B}','\u{663A}','\u{661D}','\u{6634}','\u{6639}','\u{662E}',";
"    '\u{670F}','\u{6710}','\u{67C1}','\u{67F2}','\u{67C8}','\u{67BA}','\u{67DC}','\u{67BB}',";
"    '\u{67F8}','\u{67D8}','\u{67C0}','\u{67B7}','\u{67C5}','\u{67EB}','\u{67E4}','\u{67DF}',"
].
(* /repo/src/generated/whatwg/big5_whatwg_tables.rs.inc:1537-1792 *)
Definition big5_inc_6 : list line := [
"    '\u{67B5}','\u{67CD}','\u{67B3}','\u{67F7}','\u{67F6}','\u{67EE}','\u{67E3}','\u{67C2}',";
"    '\u{67B9}','\u{67CE}','\u{67E7}','\u{67F0}','\u{67B2}','\u{67FC}','\u{67C6}','\u{67ED}',";
"    '\u{67CC}','\u{67AE}','\u{67E6}','\u{67DB}','\u{67FA}','\u{67C9}','\u{67CA}','\u{67C3}',";
"    '\u{67EA}','\u{67CB}','\u{6B28}','\u{6B82}','\u{6B84}','\u{6BB6}','\u{6BD6}','\u{6BD8}',";
"    '\u{6BE0}','\u{6C20}','\u{6C21}','\u{6D28}','\u{6D34}','\u{6D2D}','\u{6D1F}','\u{6D3C}',";
"    '\u{6D3F}','\u{6D12}','\u{6D0A}','\u{6CDA}','\u{6D33}','\u{6D04}','\u{6D19}','\u{6D3A}',";
"    '\u{6D1A}','\u{6D11}','\u{6D00}','\u{6D1D}','\u{6D42}','\u{6D01}','\u{6D18}','\u{6D37}',";
"    '\u{6D03}','\u{6D0F}','\u{6D40}','\u{6D07}','\u{6D20}','\u{6D2C}','\u{6D08}','\u{6D22}',";
"    '\u{6D09}','\u{6D10}','\u{70B7}','\u{709F}','\u{70BE}','\u{70B1}','\u{70B0}','\u{70A1}',";
"    '\u{70B4}','\u{70B5}','\u{70A9}','\u{7241}','\u{7249}','\u{724A}','\u{726C}','\u{7270}',";
"    '\u{7273}','\u{726E}','\u{72CA}','\u{72E4}','\u{72E8}','\u{72EB}','\u{72DF}','\u{72EA}',";
"    '\u{72E6}','\u{72E3}','\u{7385}','\u{73CC}','\u{73C2}','\u{73C8}','\u{73C5}','\u{73B9}',";
"    '\u{73B6}','\u{73B5}','\u{73B4}','\u{73EB}','\u{73BF}','\u{73C7}','\u{73BE}','\u{73C3}',";
"    '\u{73C6}','\u{73B8}','\u{73CB}','\u{74EC}','\u{74EE}','\u{752E}','\u{7547}','\u{7548}',";
"    '\u{75A7}','\u{75AA}','\u{7679}','\u{76C4}','\u{7708}','\u{7703}','\u{7704}','\u{7705}',";
"    '\u{770A}','\u{76F7}','\u{76FB}','\u{76FA}','\u{77E7}','\u{77E8}','\u{7806}','\u{7811}',";
"    '\u{7812}','\u{7805}','\u{7810}','\u{780F}','\u{780E}','\u{7809}','\u{7803}','\u{7813}',";
"    '\u{794A}','\u{794C}','\u{794B}','\u{7945}','\u{7944}','\u{79D5}','\u{79CD}','\u{79CF}',";
"    '\u{79D6}','\u{79CE}','\u{7A80}','\u{7A7E}','\u{7AD1}','\u{7B00}','\u{7B01}','\u{7C7A}',";
"    '\u{7C78}','\u{7C79}','\u{7C7F}','\u{7C80}','\u{7C81}','\u{7D03}','\u{7D08}','\u{7D01}',";
"    '\u{7F58}','\u{7F91}','\u{7F8D}','\u{7FBE}','\u{8007}','\u{800E}','\u{800F}','\u{8014}',";
"    '\u{8037}','\u{80D8}','\u{80C7}','\u{80E0}','\u{80D1}','\u{80C8}','\u{80C2}','\u{80D0}',";
"    '\u{80C5}','\u{80E3}','\u{80D9}','\u{80DC}','\u{80CA}','\u{80D5}','\u{80C9}','\u{80CF}',";
"    '\u{80D7}','\u{80E6}','\u{80CD}','\u{81FF}','\u{8221}','\u{8294}','\u{82D9}','\u{82FE}',";
"    '\u{82F9}','\u{8307}','\u{82E8}','\u{8300}','\u{82D5}','\u{833A}','\u{82EB}','\u{82D6}',";
"    '\u{82F4}','\u{82EC}','\u{82E1}','\u{82F2}','\u{82F5}','\u{830C}','\u{82FB}','\u{82F6}',";
"    '\u{82F0}','\u{82EA}','\u{82E4}','\u{82E0}','\u{82FA}','\u{82F3}','\u{82ED}','\u{8677}',";
"    '\u{8674}','\u{867C}','\u{8673}','\u{8841}','\u{884E}','\u{8867}','\u{886A}','\u{8869}',";
"    '\u{89D3}','\u{8A04}','\u{8A07}','\u{8D72}','\u{8FE3}','\u{8FE1}','\u{8FEE}','\u{8FE0}',";
"    '\u{90F1}','\u{90BD}','\u{90BF}','\u{90D5}','\u{90C5}','\u{90BE}','\u{90C7}','\u{90CB}',";
"    '\u{90C8}','\u{91D4}','\u{91D3}','\u{9654}','\u{964F}','\u{9651}','\u{9653}','\u{964A}',";
"    '\u{964E}','\u{501E}','\u{5005}','\u{5007}','\u{5013}','\u{5022}','\u{5030}','\u{501B}',";
"    '\u{4FF5}','\u{4FF4}','\u{5033}','\u{5037}','\u{502C}','\u{4FF6}','\u{4FF7}','\u{5017}',";
"    '\u{501C}','\u{5020}','\u{5027}','\u{5035}','\u{502F}','\u{5031}','\u{500E}','\u{515A}',";
"    '\u{5194}','\u{5193}','\u{51CA}','\u{51C4}','\u{51C5}','\u{51C8}','\u{51CE}','\u{5261}',";
"    '\u{525A}','\u{5252}','\u{525E}','\u{525F}','\u{5255}','\u{5262}','\u{52CD}','\u{530E}',";
"    '\u{539E}','\u{5526}','\u{54E2}','\u{5517}','\u{5512}','\u{54E7}','\u{54F3}','\u{54E4}',";
"    '\u{551A}','\u{54FF}','\u{5504}','\u{5508}','\u{54EB}','\u{5511}','\u{5505}','\u{54F1}',";
"    '\u{550A}','\u{54FB}','\u{54F7}','\u{54F8}','\u{54E0}','\u{550E}','\u{5503}','\u{550B}',";
"    '\u{5701}','\u{5702}','\u{57CC}','\u{5832}','\u{57D5}','\u{57D2}','\u{57BA}','\u{57C6}',";
"    '\u{57BD}','\u{57BC}','\u{57B8}','\u{57B6}','\u{57BF}','\u{57C7}','\u{57D0}','\u{57B9}',";
"    '\u{57C1}','\u{590E}','\u{594A}','\u{5A19}','\u{5A16}','\u{5A2D}','\u{5A2E}','\u{5A15}',";
"    '\u{5A0F}','\u{5A17}','\u{5A0A}','\u{5A1E}','\u{5A33}','\u{5B6C}','\u{5BA7}','\u{5BAD}',";
"    '\u{5BAC}','\u{5C03}','\u{5C56}','\u{5C54}','\u{5CEC}','\u{5CFF}','\u{5CEE}','\u{5CF1}',";
"    '\u{5CF7}','\u{5D00}','\u{5CF9}','\u{5E29}','\u{5E28}','\u{5EA8}','\u{5EAE}','\u{5EAA}',";
"    '\u{5EAC}','\u{5F33}','\u{5F30}','\u{5F67}','\u{605D}','\u{605A}','\u{6067}','\u{6041}',";
"    '\u{60A2}','\u{6088}','\u{6080}','\u{6092}','\u{6081}','\u{609D}','\u{6083}','\u{6095}',";
"    '\u{609B}','\u{6097}','\u{6087}','\u{609C}','\u{608E}','\u{6219}','\u{6246}','\u{62F2}',";
"    '\u{6310}','\u{6356}','\u{632C}','\u{6344}','\u{6345}','\u{6336}','\u{6343}','\u{63E4}',";
"    '\u{6339}','\u{634B}','\u{634A}','\u{633C}','\u{6329}','\u{6341}','\u{6334}','\u{6358}',";
"    '\u{6354}','\u{6359}','\u{632D}','\u{6347}','\u{6333}','\u{635A}','\u{6351}','\u{6338}',";
"    '\u{6357}','\u{6340}','\u{6348}','\u{654A}','\u{6546}','\u{65C6}','\u{65C3}','\u{65C4}',";
"    '\u{65C2}','\u{664A}','\u{665F}','\u{6647}','\u{6651}','\u{6712}','\u{6713}','\u{681F}',";
"    '\u{681A}','\u{6849}','\u{6832}','\u{6833}','\u{683B}','\u{684B}','\u{684F}','\u{6816}',";
"    '\u{6831}','\u{681C}','\u{6835}','\u{682B}','\u{682D}','\u{682F}','\u{684E}','\u{6844}',";
"    '\u{6834}','\u{681D}','\u{6812}','\u{6814}','\u{6826}','\u{6828}','\u{682E}','\u{684D}',";
"    '\u{683A}','\u{6825}','\u{6820}','\u{6B2C}','\u{6B2F}','\u{6B2D}','\u{6B31}','\u{6B34}',";
"    '\u{6B6D}','\u{8082}','\u{6B88}','\u{6BE6}','\u{6BE4}','\u{6BE8}','\u{6BE3}','\u{6BE2}',";
"    '\u{6BE7}','\u{6C25}','\u{6D7A}','\u{6D63}','\u{6D64}','\u{6D76}','\u{6D0D}','\u{6D61}',";
"    '\u{6D92}','\u{6D58}','\u{6D62}','\u{6D6D}','\u{6D6F}','\u{6D91}','\u{6D8D}','\u{6DEF}',";
"    '\u{6D7F}','\u{6D86}','\u{6D5E}','\u{6D67}','\u{6D60}','\u{6D97}','\u{6D70}','\u{6D7C}',";
"    '\u{6D5F}','\u{6D82}','\u{6D98}','\u{6D2F}','\u{6D68}','\u{6D8B}','\u{6D7E}','\u{6D80}',";
"    '\u{6D84}','\u{6D16}','\u{6D83}','\u{6D7B}','\u{6D7D}','\u{6D75}','\u{6D90}','\u{70DC}',";
"    '\u{70D3}','\u{70D1}','\u{70DD}','\u{70CB}','\u{7F39}','\u{70E2}','\u{70D7}','\u{70D2}',";
"    '\u{70DE}','\u{70E0}','\u{70D4}','\u{70CD}','\u{70C5}','\u{70C6}','\u{70C7}','\u{70DA}',";
"    '\u{70CE}','\u{70E1}','\u{7242}','\u{7278}','\u{7277}','\u{7276}','\u{7300}','\u{72FA}',";
"    '\u{72F4}','\u{72FE}','\u{72F6}','\u{72F3}','\u{72FB}','\u{7301}','\u{73D3}','\u{73D9}',";
"    '\u{73E5}','\u{73D6}','\u{73BC}','\u{73E7}','\u{73E3}','\u{73E9}','\u{73DC}','\u{73D2}',";
"    '\u{73DB}','\u{73D4}','\u{73DD}','\u{73DA}','\u{73D7}','\u{73D8}','\u{73E8}','\u{74DE}',";
"    '\u{74DF}','\u{74F4}','\u{74F5}','\u{7521}','\u{755B}','\u{755F}','\u{75B0}','\u{75C1}',";
"    '\u{75BB}','\u{75C4}','\u{75C0}','\u{75BF}','\u{75B6}','\u{75BA}','\u{768A}','\u{76C9}',";
"    '\u{771D}','\u{771B}','\u{7710}','\u{7713}','\u{7712}','\u{7723}','\u{7711}','\u{7715}',";
"    '\u{7719}','\u{771A}','\u{7722}','\u{7727}','\u{7823}','\u{782C}','\u{7822}','\u{7835}',";
"    '\u{782F}','\u{7828}','\u{782E}','\u{782B}','\u{7821}','\u{7829}','\u{7833}','\u{782A}',";
"    '\u{7831}','\u{7954}','\u{795B}','\u{794F}','\u{795C}','\u{7953}','\u{7952}','\u{7951}',";
"    '\u{79EB}','\u{79EC}','\u{79E0}','\u{79EE}','\u{79ED}','\u{79EA}','\u{79DC}','\u{79DE}',";
"    '\u{79DD}','\u{7A86}','\u{7A89}','\u{7A85}','\u{7A8B}','\u{7A8C}','\u{7A8A}','\u{7A87}',";
"    '\u{7AD8}','\u{7B10}','\u{7B04}','\u{7B13}','\u{7B05}','\u{7B0F}','\u{7B08}','\u{7B0A}',";
"    '\u{7B0E}','\u{7B09}','\u{7B12}','\u{7C84}','\u{7C91}','\u{7C8A}','\u{7C8C}','\u{7C88}',";
"    '\u{7C8D}','\u{7C85}','\u{7D1E}','\u{7D1D}','\u{7D11}','\u{7D0E}','\u{7D18}','\u{7D16}',";
"    '\u{7D13}','\u{7D1F}','\u{7D12}','\u{7D0F}','\u{7D0C}','\u{7F5C}','\u{7F61}','\u{7F5E}',";
"    '\u{7F60}','\u{7F5D}','\u{7F5B}','\u{7F96}','\u{7F92}','\u{7FC3}','\u{7FC2}','\u{7FC0}',";
"    '\u{8016}','\u{803E}','\u{8039}','\u{80FA}','\u{80F2}','\u{80F9}','\u{80F5}','\u{8101}',";
"    '\u{80FB}','\u{8100}','\u{8201}','\u{822F}','\u{8225}','\u{8333}','\u{832D}','\u{8344}',";
"    '\u{8319}','\u{8351}','\u{8325}','\u{8356}','\u{833F}','\u{8341}','\u{8326}','\u{831C}',";
"    '\u{8322}','\u{8342}','\u{834E}','\u{831B}','\u{832A}','\u{8308}','\u{833C}','\u{834D}',";
"    '\u{8316}','\u{8324}','\u{8320}','\u{8337}','\u{832F}','\u{8329}','\u{8347}','\u{8345}',";
"    '\u{834C}','\u{8353}','\u{831E}','\u{832C}','\u{834B}','\u{8327}','\u{8348}','\u{8653}',";
"    '\u{8652}','\u{86A2}','\u{86A8}','\u{8696}','\u{868D}','\u{8691}','\u{869E}','\u{8687}',";
"    '\u{8697}','\u{8686}','\u{868B}','\u{869A}','\u{8685}','\u{86A5}','\u{8699}','\u{86A1}',";
"    '\u{86A7}','\u{8695}','\u{8698}','\u{868E}','\u{869D}','\u{8690}','\u{8694}','\u{8843}',";
"    '\u{8844}','\u{886D}','\u{8875}','\u{8876}','\u{8872}','\u{8880}','\u{8871}','\u{887F}',";
"    '\u{886F}','\u{8883}','\u{887E}','\u{8874}','\u{887C}','\u{8A12}','\u{8C47}','\u{8C57}',";
"    '\u{8C7B}','\u{8CA4}','\u{8CA3}','\u{8D76}','\u{8D78}','\u{8DB5}','\u{8DB7}','\u{8DB6}',";
"    '\u{8ED1}','\u{8ED3}','\u{8FFE}','\u{8FF5}','\u{9002}','\u{8FFF}','\u{8FFB}','\u{9004}',";
"    '\u{8FFC}','\u{8FF6}','\u{90D6}','\u{90E0}','\u{90D9}','\u{90DA}','\u{90E3}','\u{90DF}',";
"    '\u{90E5}','\u{90D8}','\u{90DB}','\u{90D7}','\u{90DC}','\u{90E4}','\u{9150}','\u{914E}',";
"    '\u{914F}','\u{91D5}','\u{91E2}','\u{91DA}','\u{965C}','\u{965F}','\u{96BC}','\u{98E3}',";
"    '\u{9ADF}','\u{9B2F}','\u{4E7F}','\u{5070}','\u{506A}','\u{5061}','\u{505E}','\u{5060}',";
"    '\u{5053}','\u{504B}','\u{505D}','\u{5072}','\u{5048}','\u{504D}','\u{5041}','\u{505B}',";
"    '\u{504A}','\u{5062}','\u{5015}','\u{5045}','\u{505F}','\u{5069}','\u{506B}','\u{5063}',";
"    '\u{5064}','\u{5046}','\u{5040}','\u{506E}','\u{5073}','\u{5057}','\u{5051}','\u{51D0}',";
"    '\u{526B}','\u{526D}','\u{526C}','\u{526E}','\u{52D6}','\u{52D3}','\u{532D}','\u{539C}',";
"    '\u{5575}','\u{5576}','\u{553C}','\u{554D}','\u{5550}','\u{5534}','\u{552A}','\u{5551}',";
"    '\u{5562}','\u{5536}','\u{5535}','\u{5530}','\u{5552}','\u{5545}','\u{550C}','\u{5532}',";
"    '\u{5565}','\u{554E}','\u{5539}','\u{5548}','\u{552D}','\u{553B}','\u{5540}','\u{554B}',";
"    '\u{570A}','\u{5707}','\u{57FB}','\u{5814}','\u{57E2}','\u{57F6}','\u{57DC}','\u{57F4}',";
"    '\u{5800}','\u{57ED}','\u{57FD}','\u{5808}','\u{57F8}','\u{580B}','\u{57F3}','\u{57CF}',";
"    '\u{5807}','\u{57EE}','\u{57E3}','\u{57F2}','\u{57E5}','\u{57EC}','\u{57E1}','\u{580E}',";
"    '\u{57FC}','\u{5810}','\u{57E7}','\u{5801}','\u{580C}','\u{57F1}','\u{57E9}','\u{57F0}',";
"    '\u{580D}','\u{5804}','\u{595C}','\u{5A60}','\u{5A58}','\u{5A55}','\u{5A67}','\u{5A5E}',";
"    '\u{5A38}','\u{5A35}','\u{5A6D}','\u{5A50}','\u{5A5F}','\u{5A65}','\u{5A6C}','\u{5A53}',";
"    '\u{5A64}','\u{5A57}','\u{5A43}','\u{5A5D}','\u{5A52}','\u{5A44}','\u{5A5B}','\u{5A48}',";
"    '\u{5A8E}','\u{5A3E}','\u{5A4D}','\u{5A39}','\u{5A4C}','\u{5A70}','\u{5A69}','\u{5A47}',";
"    '\u{5A51}','\u{5A56}','\u{5A42}','\u{5A5C}','\u{5B72}','\u{5B6E}','\u{5BC1}','\u{5BC0}',";
"    '\u{5C59}','\u{5D1E}','\u{5D0B}','\u{5D1D}','\u{5D1A}','\u{5D20}','\u{5D0C}','\u{5D28}',";
"    '\u{5D0D}','\u{5D26}','\u{5D25}','\u{5D0F}','\u{5D30}','\u{5D12}','\u{5D23}','\u{5D1F}',";
"    '\u{5D2E}','\u{5E3E}','\u{5E34}','\u{5EB1}','\u{5EB4}','\u{5EB9}','\u{5EB2}','\u{5EB3}',";
"    '\u{5F36}','\u{5F38}','\u{5F9B}','\u{5F96}','\u{5F9F}','\u{608A}','\u{6090}','\u{6086}',";
"    '\u{60BE}','\u{60B0}','\u{60BA}','\u{60D3}','\u{60D4}','\u{60CF}','\u{60E4}','\u{60D9}',";
"    '\u{60DD}','\u{60C8}','\u{60B1}','\u{60DB}','\u{60B7}','\u{60CA}','\u{60BF}','\u{60C3}',";
"    '\u{60CD}','\u{60C0}','\u{6332}','\u{6365}','\u{638A}','\u{6382}','\u{637D}','\u{63BD}',";
"    '\u{639E}','\u{63AD}','\u{639D}','\u{6397}','\u{63AB}','\u{638E}','\u{636F}','\u{6387}',";
"    '\u{6390}','\u{636E}','\u{63AF}','\u{6375}','\u{639C}','\u{636D}','\u{63AE}','\u{637C}',";
"    '\u{63A4}','\u{633B}','\u{639F}','\u{6378}','\u{6385}','\u{6381}','\u{6391}','\u{638D}',";
"    '\u{6370}','\u{6553}','\u{65CD}','\u{6665}','\u{6661}','\u{665B}','\u{6659}','\u{665C}',";
"    '\u{6662}','\u{6718}','\u{6879}','\u{6887}','\u{6890}','\u{689C}','\u{686D}','\u{686E}',";
"    '\u{68AE}','\u{68AB}','\u{6956}','\u{686F}','\u{68A3}','\u{68AC}','\u{68A9}','\u{6875}',";
"    '\u{6874}','\u{68B2}','\u{688F}','\u{6877}','\u{6892}','\u{687C}','\u{686B}','\u{6872}',";
"    '\u{68AA}','\u{6880}','\u{6871}','\u{687E}','\u{689B}','\u{6896}','\u{688B}','\u{68A0}',";
"    '\u{6889}','\u{68A4}','\u{6878}','\u{687B}','\u{6891}','\u{688C}','\u{688A}','\u{687D}',";
"    '\u{6B36}','\u{6B33}','\u{6B37}','\u{6B38}','\u{6B91}','\u{6B8F}','\u{6B8D}','\u{6B8E}',";
"    '\u{6B8C}','\u{6C2A}','\u{6DC0}','\u{6DAB}','\u{6DB4}','\u{6DB3}','\u{6E74}','\u{6DAC}',";
"    '\u{6DE9}','\u{6DE2}','\u{6DB7}','\u{6DF6}','\u{6DD4}','\u{6E00}','\u{6DC8}','\u{6DE0}',";
"    '\u{6DDF}','\u{6DD6}','\u{6DBE}','\u{6DE5}','\u{6DDC}','\u{6DDD}','\u{6DDB}','\u{6DF4}',";
"    '\u{6DCA}','\u{6DBD}','\u{6DED}','\u{6DF0}','\u{6DBA}','\u{6DD5}','\u{6DC2}','\u{6DCF}',";
"    '\u{6DC9}','\u{6DD0}','\u{6DF2}','\u{6DD3}','\u{6DFD}','\u{6DD7}','\u{6DCD}','\u{6DE3}',";
"    '\u{6DBB}','\u{70FA}','\u{710D}','\u{70F7}','\u{7117}','\u{70F4}','\u{710C}','\u{70F0}',";
"    '\u{7104}','\u{70F3}','\u{7110}','\u{70FC}','\u{70FF}','\u{7106}','\u{7113}','\u{7100}',";
"    '\u{70F8}','\u{70F6}','\u{710B}','\u{7102}','\u{710E}','\u{727E}','\u{727B}','\u{727C}',";
"    '\u{727F}','\u{731D}','\u{7317}','\u{7307}','\u{7311}','\u{7318}','\u{730A}','\u{7308}',";
"    '\u{72FF}','\u{730F}','\u{731E}','\u{7388}','\u{73F6}','\u{73F8}','\u{73F5}','\u{7404}',";
"    '\u{7401}','\u{73FD}','\u{7407}','\u{7400}','\u{73FA}','\u{73FC}','\u{73FF}','\u{740C}',";
"    '\u{740B}','\u{73F4}','\u{7408}','\u{7564}','\u{7563}','\u{75CE}','\u{75D2}','\u{75CF}',";
"    '\u{75CB}','\u{75CC}','\u{75D1}','\u{75D0}','\u{768F}','\u{7689}','\u{76D3}','\u{7739}',";
"    '\u{772F}','\u{772D}','\u{7731}','\u{7732}','\u{7734}','\u{7733}','\u{773D}','\u{7725}',";
"    '\u{773B}','\u{7735}','\u{7848}','\u{7852}','\u{7849}','\u{784D}','\u{784A}','\u{784C}',";
"    '\u{7826}','\u{7845}','\u{7850}','\u{7964}','\u{7967}','\u{7969}','\u{796A}','\u{7963}',";
"    '\u{796B}','\u{7961}','\u{79BB}','\u{79FA}','\u{79F8}','\u{79F6}','\u{79F7}','\u{7A8F}',";
"    '\u{7A94}','\u{7A90}','\u{7B35}','\u{7B47}','\u{7B34}','\u{7B25}','\u{7B30}','\u{7B22}',";
"    '\u{7B24}','\u{7B33}','\u{7B18}','\u{7B2A}','\u{7B1D}','\u{7B31}','\u{7B2B}','\u{7B2D}',";
"    '\u{7B2F}','\u{7B32}','\u{7B38}','\u{7B1A}','\u{7B23}','\u{7C94}','\u{7C98}','\u{7C96}',";
"    '\u{7CA3}','\u{7D35}','\u{7D3D}','\u{7D38}','\u{7D36}','\u{7D3A}','\u{7D45}','\u{7D2C}',";
"    '\u{7D29}','\u{7D41}','\u{7D47}','\u{7D3E}','\u{7D3F}','\u{7D4A}','\u{7D3B}','\u{7D28}',";
"    '\u{7F63}','\u{7F95}','\u{7F9C}','\u{7F9D}','\u{7F9B}','\u{7FCA}','\u{7FCB}','\u{7FCD}',";
"    '\u{7FD0}','\u{7FD1}','\u{7FC7}','\u{7FCF}','\u{7FC9}','\u{801F}','\u{801E}','\u{801B}',";
"    '\u{8047}','\u{8043}','\u{8048}','\u{8118}','\u{8125}','\u{8119}','\u{811B}','\u{812D}',";
"    '\u{811F}','\u{812C}','\u{811E}','\u{8121}','\u{8115}','\u{8127}','\u{811D}','\u{8122}',";
"    '\u{8211}','\u{8238}','\u{8233}','\u{823A}','\u{8234}','\u{8232}','\u{8274}','\u{8390}',";
"    '\u{83A3}','\u{83A8}','\u{838D}','\u{837A}','\u{8373}','\u{83A4}','\u{8374}','\u{838F}',";
"    '\u{8381}','\u{8395}','\u{8399}','\u{8375}','\u{8394}','\u{83A9}','\u{837D}','\u{8383}',";
"    '\u{838C}','\u{839D}','\u{839B}','\u{83AA}','\u{838B}','\u{837E}','\u{83A5}','\u{83AF}',";
"    '\u{8388}','\u{8397}','\u{83B0}','\u{837F}','\u{83A6}','\u{8387}','\u{83AE}','\u{8376}',";
"    '\u{839A}','\u{8659}','\u{8656}','\u{86BF}','\u{86B7}','\u{86C2}','\u{86C1}','\u{86C5}',";
"    '\u{86BA}','\u{86B0}','\u{86C8}','\u{86B9}','\u{86B3}','\u{86B8}','\u{86CC}','\u{86B4}',";
"    '\u{86BB}','\u{86BC}','\u{86C3}','\u{86BD}','\u{86BE}','\u{8852}','\u{8889}','\u{8895}',";
"    '\u{88A8}','\u{88A2}','\u{88AA}','\u{889A}','\u{8891}','\u{88A1}','\u{889F}','\u{8898}',";
"    '\u{88A7}','\u{8899}','\u{889B}','\u{8897}','\u{88A4}','\u{88AC}','\u{888C}','\u{8893}',";
"    '\u{888E}','\u{8982}','\u{89D6}','\u{89D9}','\u{89D5}','\u{8A30}','\u{8A27}','\u{8A2C}',";
"    '\u{8A1E}','\u{8C39}','\u{8C3B}','\u{8C5C}','\u{8C5D}','\u{8C7D}','\u{8CA5}','\u{8D7D}',";
"    '\u{8D7B}','\u{8D79}','\u{8DBC}','\u{8DC2}','\u{8DB9}','\u{8DBF}','\u{8DC1}','\u{8ED8}',";
"    '\u{8EDE}','\u{8EDD}','\u{8EDC}','\u{8ED7}','\u{8EE0}','\u{8EE1}','\u{9024}','\u{900B}',";
"    '\u{9011}','\u{901C}','\u{900C}','\u{9021}','\u{90EF}','\u{90EA}','\u{90F0}','\u{90F4}',";
"    '\u{90F2}','\u{90F3}','\u{90D4}','\u{90EB}','\u{90EC}','\u{90E9}','\u{9156}','\u{9158}',";
"    '\u{915A}','\u{9153}','\u{9155}','\u{91EC}','\u{91F4}','\u{91F1}','\u{91F3}','\u{91F8}',";
"    '\u{91E4}','\u{91F9}','\u{91EA}','\u{91EB}','\u{91F7}','\u{91E8}','\u{91EE}','\u{957A}',";
"    '\u{9586}','\u{9588}','\u{967C}','\u{966D}','\u{966B}','\u{9671}','\u{966F}','\u{96BF}',";
"    '\u{976A}','\u{9804}','\u{98E5}','\u{9997}','\u{509B}','\u{5095}','\u{5094}','\u{509E}',";
"    '\u{508B}','\u{50A3}','\u{5083}','\u{508C}','\u{508E}','\u{509D}','\u{5068}','\u{509C}',";
"    '\u{5092}','\u{5082}','\u{5087}','\u{515F}','\u{51D4}','\u{5312}','\u{5311}','\u{53A4}',";
"    '\u{53A7}','\u{5591}','\u{55A8}','\u{55A5}','\u{55AD}','\u{5577}','\u{5645}','\u{55A2}',";
"    '\u{5593}','\u{5588}','\u{558F}','\u{55B5}','\u{5581}','\u{55A3}','\u{5592}','\u{55A4}',";
"    '\u{557D}','\u{558C}','\u{55A6}','\u{557F}','\u{5595}','\u{55A1}','\u{558E}','\u{570C}',";
"    '\u{5829}','\u{5837}','\u{5819}','\u{581E}','\u{5827}','\u{5823}','\u{5828}','\u{57F5}',";
"    '\u{5848}','\u{5825}','\u{581C}','\u{581B}','\u{5833}','\u{583F}','\u{5836}','\u{582E}',";
"    '\u{5839}','\u{5838}','\u{582D}','\u{582C}','\u{583B}','\u{5961}','\u{5AAF}','\u{5A94}',";
"    '\u{5A9F}','\u{5A7A}','\u{5AA2}','\u{5A9E}','\u{5A78}','\u{5AA6}','\u{5A7C}','\u{5AA5}',";
"    '\u{5AAC}','\u{5A95}','\u{5AAE}','\u{5A37}','\u{5A84}','\u{5A8A}','\u{5A97}','\u{5A83}',";
"    '\u{5A8B}','\u{5AA9}','\u{5A7B}','\u{5A7D}','\u{5A8C}','\u{5A9C}','\u{5A8F}','\u{5A93}',";
"    '\u{5A9D}','\u{5BEA}','\u{5BCD}','\u{5BCB}','\u{5BD4}','\u{5BD1}','\u{5BCA}','\u{5BCE}',";
"    '\u{5C0C}','\u{5C30}','\u{5D37}','\u{5D43}','\u{5D6B}','\u{5D41}','\u{5D4B}','\u{5D3F}',";
"    '\u{5D35}','\u{5D51}','\u{5D4E}','\u{5D55}','\u{5D33}','\u{5D3A}','\u{5D52}','\u{5D3D}',";
"    '\u{5D31}','\u{5D59}','\u{5D42}','\u{5D39}','\u{5D49}','\u{5D38}','\u{5D3C}','\u{5D32}',";
"    '\u{5D36}','\u{5D40}','\u{5D45}','\u{5E44}','\u{5E41}','\u{5F58}','\u{5FA6}','\u{5FA5}',";
"    '\u{5FAB}','\u{60C9}','\u{60B9}','\u{60CC}','\u{60E2}','\u{60CE}','\u{60C4}','\u{6114}',";
"    '\u{60F2}','\u{610A}','\u{6116}','\u{6105}','\u{60F5}','\u{6113}','\u{60F8}','\u{60FC}',";
"    '\u{60FE}','\u{60C1}','\u{6103}','\u{6118}','\u{611D}','\u{6110}','\u{60FF}','\u{6104}',";
"    '\u{610B}','\u{624A}','\u{6394}','\u{63B1}','\u{63B0}','\u{63CE}','\u{63E5}','\u{63E8}',";
"    '\u{63EF}','\u{63C3}','\u{649D}','\u{63F3}','\u{63CA}','\u{63E0}','\u{63F6}','\u{63D5}',";
"    '\u{63F2}','\u{63F5}','\u{6461}','\u{63DF}','\u{63BE}','\u{63DD}','\u{63DC}','\u{63C4}',";
"    '\u{63D8}','\u{63D3}','\u{63C2}','\u{63C7}','\u{63CC}','\u{63CB}','\u{63C8}','\u{63F0}',";
"    '\u{63D7}','\u{63D9}','\u{6532}','\u{6567}','\u{656A}','\u{6564}','\u{655C}','\u{6568}',";
"    '\u{6565}','\u{658C}','\u{659D}','\u{659E}','\u{65AE}','\u{65D0}','\u{65D2}','\u{667C}',";
"    '\u{666C}','\u{667B}','\u{6680}','\u{6671}','\u{6679}','\u{666A}','\u{6672}','\u{6701}',";
"    '\u{690C}','\u{68D3}','\u{6904}','\u{68DC}','\u{692A}','\u{68EC}','\u{68EA}','\u{68F1}',";
"    '\u{690F}','\u{68D6}','\u{68F7}','\u{68EB}','\u{68E4}','\u{68F6}','\u{6913}','\u{6910}',";
"    '\u{68F3}','\u{68E1}','\u{6907}','\u{68CC}','\u{6908}','\u{6970}','\u{68B4}','\u{6911}',";
"    '\u{68EF}','\u{68C6}','\u{6914}','\u{68F8}','\u{68D0}','\u{68FD}','\u{68FC}','\u{68E8}',";
"    '\u{690B}','\u{690A}','\u{6917}','\u{68CE}','\u{68C8}','\u{68DD}','\u{68DE}','\u{68E6}',";
"    '\u{68F4}','\u{68D1}','\u{6906}','\u{68D4}','\u{68E9}','\u{6915}','\u{6925}','\u{68C7}',";
"    '\u{6B39}','\u{6B3B}','\u{6B3F}','\u{6B3C}','\u{6B94}','\u{6B97}','\u{6B99}','\u{6B95}',";
"    '\u{6BBD}','\u{6BF0}','\u{6BF2}','\u{6BF3}','\u{6C30}','\u{6DFC}','\u{6E46}','\u{6E47}',";
"    '\u{6E1F}','\u{6E49}','\u{6E88}','\u{6E3C}','\u{6E3D}','\u{6E45}','\u{6E62}','\u{6E2B}',";
"    '\u{6E3F}','\u{6E41}','\u{6E5D}','\u{6E73}','\u{6E1C}','\u{6E33}','\u{6E4B}','\u{6E40}',";
"    '\u{6E51}','\u{6E3B}','\u{6E03}','\u{6E2E}','\u{6E5E}','\u{6E68}','\u{6E5C}','\u{6E61}',";
"    '\u{6E31}','\u{6E28}','\u{6E60}','\u{6E71}','\u{6E6B}','\u{6E39}','\u{6E22}','\u{6E30}',";
"    '\u{6E53}','\u{6E65}','\u{6E27}','\u{6E78}','\u{6E64}','\u{6E77}','\u{6E55}','\u{6E79}',";
"    '\u{6E52}','\u{6E66}','\u{6E35}','\u{6E36}','\u{6E5A}','\u{7120}','\u{711E}','\u{712F}',";
"    '\u{70FB}','\u{712E}','\u{7131}','\u{7123}','\u{7125}','\u{7122}','\u{7132}','\u{711F}',";
"    '\u{7128}','\u{713A}','\u{711B}','\u{724B}','\u{725A}','\u{7288}','\u{7289}','\u{7286}',";
"    '\u{7285}','\u{728B}','\u{7312}','\u{730B}','\u{7330}','\u{7322}','\u{7331}','\u{7333}',";
"    '\u{7327}','\u{7332}','\u{732D}','\u{7326}','\u{7323}','\u{7335}','\u{730C}','\u{742E}',";
"    '\u{742C}','\u{7430}','\u{742B}','\u{7416}','\u{741A}','\u{7421}','\u{742D}','\u{7431}',";
"    '\u{7424}','\u{7423}','\u{741D}','\u{7429}','\u{7420}','\u{7432}','\u{74FB}','\u{752F}',";
"    '\u{756F}','\u{756C}','\u{75E7}','\u{75DA}','\u{75E1}','\u{75E6}','\u{75DD}','\u{75DF}',";
"    '\u{75E4}','\u{75D7}','\u{7695}','\u{7692}','\u{76DA}','\u{7746}','\u{7747}','\u{7744}',";
"    '\u{774D}','\u{7745}','\u{774A}','\u{774E}','\u{774B}','\u{774C}','\u{77DE}','\u{77EC}',";
"    '\u{7860}','\u{7864}','\u{7865}','\u{785C}','\u{786D}','\u{7871}','\u{786A}','\u{786E}',";
"    '\u{7870}','\u{7869}','\u{7868}','\u{785E}','\u{7862}','\u{7974}','\u{7973}','\u{7972}',";
"    '\u{7970}','\u{7A02}','\u{7A0A}','\u{7A03}','\u{7A0C}','\u{7A04}','\u{7A99}','\u{7AE6}',";
"    '\u{7AE4}','\u{7B4A}','\u{7B3B}','\u{7B44}','\u{7B48}','\u{7B4C}','\u{7B4E}','\u{7B40}',";
"    '\u{7B58}','\u{7B45}','\u{7CA2}','\u{7C9E}','\u{7CA8}','\u{7CA1}','\u{7D58}','\u{7D6F}',";
"    '\u{7D63}','\u{7D53}','\u{7D56}','\u{7D67}','\u{7D6A}','\u{7D4F}','\u{7D6D}','\u{7D5C}',";
"    '\u{7D6B}','\u{7D52}','\u{7D54}','\u{7D69}','\u{7D51}','\u{7D5F}','\u{7D4E}','\u{7F3E}',";
"    '\u{7F3F}','\u{7F65}','\u{7F66}','\u{7FA2}','\u{7FA0}','\u{7FA1}','\u{7FD7}','\u{8051}',";
"    '\u{804F}','\u{8050}','\u{80FE}','\u{80D4}','\u{8143}','\u{814A}','\u{8152}','\u{814F}',";
"    '\u{8147}','\u{813D}','\u{814D}','\u{813A}','\u{81E6}','\u{81EE}','\u{81F7}','\u{81F8}',";
"    '\u{81F9}','\u{8204}','\u{823C}','\u{823D}','\u{823F}','\u{8275}','\u{833B}','\u{83CF}',";
"    '\u{83F9}','\u{8423}','\u{83C0}','\u{83E8}','\u{8412}','\u{83E7}','\u{83E4}','\u{83FC}',";
"    '\u{83F6}','\u{8410}','\u{83C6}','\u{83C8}','\u{83EB}','\u{83E3}','\u{83BF}','\u{8401}',";
"    '\u{83DD}','\u{83E5}','\u{83D8}','\u{83FF}','\u{83E1}','\u{83CB}','\u{83CE}','\u{83D6}',";
"    '\u{83F5}','\u{83C9}','\u{8409}','\u{840F}','\u{83DE}','\u{8411}','\u{8406}','\u{83C2}',";
"    '\u{83F3}','\u{83D5}','\u{83FA}','\u{83C7}','\u{83D1}','\u{83EA}','\u{8413}','\u{83C3}',";
"    '\u{83EC}','\u{83EE}','\u{83C4}','\u{83FB}','\u{83D7}','\u{83E2}','\u{841B}','\u{83DB}',";
"    '\u{83FE}','\u{86D8}','\u{86E2}','\u{86E6}','\u{86D3}','\u{86E3}','\u{86DA}','\u{86EA}',";
"    '\u{86DD}','\u{86EB}','\u{86DC}','\u{86EC}','\u{86E9}','\u{86D7}','\u{86E8}','\u{86D1}',";
"    '\u{8848}','\u{8856}','\u{8855}','\u{88BA}','\u{88D7}','\u{88B9}','\u{88B8}','\u{88C0}',";
"    '\u{88BE}','\u{88B6}','\u{88BC}','\u{88B7}','\u{88BD}','\u{88B2}','\u{8901}','\u{88C9}',";
"    '\u{8995}','\u{8998}','\u{8997}','\u{89DD}','\u{89DA}','\u{89DB}','\u{8A4E}','\u{8A4D}',";
"    '\u{8A39}','\u{8A59}','\u{8A40}','\u{8A57}','\u{8A58}','\u{8A44}','\u{8A45}','\u{8A52}',";
"    '\u{8A48}','\u{8A51}','\u{8A4A}','\u{8A4C}','\u{8A4F}','\u{8C5F}','\u{8C81}','\u{8C80}',";
"    '\u{8CBA}','\u{8CBE}','\u{8CB0}','\u{8CB9}','\u{8CB5}','\u{8D84}','\u{8D80}','\u{8D89}',";
"    '\u{8DD8}','\u{8DD3}','\u{8DCD}','\u{8DC7}','\u{8DD6}','\u{8DDC}','\u{8DCF}','\u{8DD5}',";
"    '\u{8DD9}','\u{8DC8}','\u{8DD7}','\u{8DC5}','\u{8EEF}','\u{8EF7}','\u{8EFA}','\u{8EF9}',";
"    '\u{8EE6}','\u{8EEE}','\u{8EE5}','\u{8EF5}','\u{8EE7}','\u{8EE8}','\u{8EF6}','\u{8EEB}',";
"    '\u{8EF1}','\u{8EEC}','\u{8EF4}','\u{8EE9}','\u{902D}','\u{9034}','\u{902F}','\u{9106}',"
].
(* /repo/src/generated/whatwg/big5_whatwg_tables.rs.inc:1793-2048 *)
Definition big5_inc_7 : list line := [
"    '\u{912C}','\u{9104}','\u{90FF}','\u{90FC}','\u{9108}','\u{90F9}','\u{90FB}','\u{9101}',";
"    '\u{9100}','\u{9107}','\u{9105}','\u{9103}','\u{9161}','\u{9164}','\u{915F}','\u{9162}',";
"    '\u{9160}','\u{9201}','\u{920A}','\u{9225}','\u{9203}','\u{921A}','\u{9226}','\u{920F}',";
"    '\u{920C}','\u{9200}','\u{9212}','\u{91FF}','\u{91FD}','\u{9206}','\u{9204}','\u{9227}',";
"    '\u{9202}','\u{921C}','\u{9224}','\u{9219}','\u{9217}','\u{9205}','\u{9216}','\u{957B}',";
"    '\u{958D}','\u{958C}','\u{9590}','\u{9687}','\u{967E}','\u{9688}','\u{9689}','\u{9683}',";
"    '\u{9680}','\u{96C2}','\u{96C8}','\u{96C3}','\u{96F1}','\u{96F0}','\u{976C}','\u{9770}',";
"    '\u{976E}','\u{9807}','\u{98A9}','\u{98EB}','\u{9CE6}','\u{9EF9}','\u{4E83}','\u{4E84}',";
"    '\u{4EB6}','\u{50BD}','\u{50BF}','\u{50C6}','\u{50AE}','\u{50C4}','\u{50CA}','\u{50B4}',";
"    '\u{50C8}','\u{50C2}','\u{50B0}','\u{50C1}','\u{50BA}','\u{50B1}','\u{50CB}','\u{50C9}',";
"    '\u{50B6}','\u{50B8}','\u{51D7}','\u{527A}','\u{5278}','\u{527B}','\u{527C}','\u{55C3}',";
"    '\u{55DB}','\u{55CC}','\u{55D0}','\u{55CB}','\u{55CA}','\u{55DD}','\u{55C0}','\u{55D4}',";
"    '\u{55C4}','\u{55E9}','\u{55BF}','\u{55D2}','\u{558D}','\u{55CF}','\u{55D5}','\u{55E2}',";
"    '\u{55D6}','\u{55C8}','\u{55F2}','\u{55CD}','\u{55D9}','\u{55C2}','\u{5714}','\u{5853}',";
"    '\u{5868}','\u{5864}','\u{584F}','\u{584D}','\u{5849}','\u{586F}','\u{5855}','\u{584E}',";
"    '\u{585D}','\u{5859}','\u{5865}','\u{585B}','\u{583D}','\u{5863}','\u{5871}','\u{58FC}',";
"    '\u{5AC7}','\u{5AC4}','\u{5ACB}','\u{5ABA}','\u{5AB8}','\u{5AB1}','\u{5AB5}','\u{5AB0}',";
"    '\u{5ABF}','\u{5AC8}','\u{5ABB}','\u{5AC6}','\u{5AB7}','\u{5AC0}','\u{5ACA}','\u{5AB4}',";
"    '\u{5AB6}','\u{5ACD}','\u{5AB9}','\u{5A90}','\u{5BD6}','\u{5BD8}','\u{5BD9}','\u{5C1F}',";
"    '\u{5C33}','\u{5D71}','\u{5D63}','\u{5D4A}','\u{5D65}','\u{5D72}','\u{5D6C}','\u{5D5E}',";
"    '\u{5D68}','\u{5D67}','\u{5D62}','\u{5DF0}','\u{5E4F}','\u{5E4E}','\u{5E4A}','\u{5E4D}',";
"    '\u{5E4B}','\u{5EC5}','\u{5ECC}','\u{5EC6}','\u{5ECB}','\u{5EC7}','\u{5F40}','\u{5FAF}',";
"    '\u{5FAD}','\u{60F7}','\u{6149}','\u{614A}','\u{612B}','\u{6145}','\u{6136}','\u{6132}',";
"    '\u{612E}','\u{6146}','\u{612F}','\u{614F}','\u{6129}','\u{6140}','\u{6220}','\u{9168}',";
"    '\u{6223}','\u{6225}','\u{6224}','\u{63C5}','\u{63F1}','\u{63EB}','\u{6410}','\u{6412}',";
"    '\u{6409}','\u{6420}','\u{6424}','\u{6433}','\u{6443}','\u{641F}','\u{6415}','\u{6418}',";
"    '\u{6439}','\u{6437}','\u{6422}','\u{6423}','\u{640C}','\u{6426}','\u{6430}','\u{6428}',";
"    '\u{6441}','\u{6435}','\u{642F}','\u{640A}','\u{641A}','\u{6440}','\u{6425}','\u{6427}',";
"    '\u{640B}','\u{63E7}','\u{641B}','\u{642E}','\u{6421}','\u{640E}','\u{656F}','\u{6592}',";
"    '\u{65D3}','\u{6686}','\u{668C}','\u{6695}','\u{6690}','\u{668B}','\u{668A}','\u{6699}',";
"    '\u{6694}','\u{6678}','\u{6720}','\u{6966}','\u{695F}','\u{6938}','\u{694E}','\u{6962}',";
"    '\u{6971}','\u{693F}','\u{6945}','\u{696A}','\u{6939}','\u{6942}','\u{6957}','\u{6959}',";
"    '\u{697A}','\u{6948}','\u{6949}','\u{6935}','\u{696C}','\u{6933}','\u{693D}','\u{6965}',";
"    '\u{68F0}','\u{6978}','\u{6934}','\u{6969}','\u{6940}','\u{696F}','\u{6944}','\u{6976}',";
"    '\u{6958}','\u{6941}','\u{6974}','\u{694C}','\u{693B}','\u{694B}','\u{6937}','\u{695C}',";
"    '\u{694F}','\u{6951}','\u{6932}','\u{6952}','\u{692F}','\u{697B}','\u{693C}','\u{6B46}',";
"    '\u{6B45}','\u{6B43}','\u{6B42}','\u{6B48}','\u{6B41}','\u{6B9B}','\u{FA0D}','\u{6BFB}',";
"    '\u{6BFC}','\u{6BF9}','\u{6BF7}','\u{6BF8}','\u{6E9B}','\u{6ED6}','\u{6EC8}','\u{6E8F}',";
"    '\u{6EC0}','\u{6E9F}','\u{6E93}','\u{6E94}','\u{6EA0}','\u{6EB1}','\u{6EB9}','\u{6EC6}',";
"    '\u{6ED2}','\u{6EBD}','\u{6EC1}','\u{6E9E}','\u{6EC9}','\u{6EB7}','\u{6EB0}','\u{6ECD}',";
"    '\u{6EA6}','\u{6ECF}','\u{6EB2}','\u{6EBE}','\u{6EC3}','\u{6EDC}','\u{6ED8}','\u{6E99}',";
"    '\u{6E92}','\u{6E8E}','\u{6E8D}','\u{6EA4}','\u{6EA1}','\u{6EBF}','\u{6EB3}','\u{6ED0}',";
"    '\u{6ECA}','\u{6E97}','\u{6EAE}','\u{6EA3}','\u{7147}','\u{7154}','\u{7152}','\u{7163}',";
"    '\u{7160}','\u{7141}','\u{715D}','\u{7162}','\u{7172}','\u{7178}','\u{716A}','\u{7161}',";
"    '\u{7142}','\u{7158}','\u{7143}','\u{714B}','\u{7170}','\u{715F}','\u{7150}','\u{7153}',";
"    '\u{7144}','\u{714D}','\u{715A}','\u{724F}','\u{728D}','\u{728C}','\u{7291}','\u{7290}',";
"    '\u{728E}','\u{733C}','\u{7342}','\u{733B}','\u{733A}','\u{7340}','\u{734A}','\u{7349}',";
"    '\u{7444}','\u{744A}','\u{744B}','\u{7452}','\u{7451}','\u{7457}','\u{7440}','\u{744F}',";
"    '\u{7450}','\u{744E}','\u{7442}','\u{7446}','\u{744D}','\u{7454}','\u{74E1}','\u{74FF}',";
"    '\u{74FE}','\u{74FD}','\u{751D}','\u{7579}','\u{7577}','\u{6983}','\u{75EF}','\u{760F}',";
"    '\u{7603}','\u{75F7}','\u{75FE}','\u{75FC}','\u{75F9}','\u{75F8}','\u{7610}','\u{75FB}',";
"    '\u{75F6}','\u{75ED}','\u{75F5}','\u{75FD}','\u{7699}','\u{76B5}','\u{76DD}','\u{7755}',";
"    '\u{775F}','\u{7760}','\u{7752}','\u{7756}','\u{775A}','\u{7769}','\u{7767}','\u{7754}',";
"    '\u{7759}','\u{776D}','\u{77E0}','\u{7887}','\u{789A}','\u{7894}','\u{788F}','\u{7884}',";
"    '\u{7895}','\u{7885}','\u{7886}','\u{78A1}','\u{7883}','\u{7879}','\u{7899}','\u{7880}',";
"    '\u{7896}','\u{787B}','\u{797C}','\u{7982}','\u{797D}','\u{7979}','\u{7A11}','\u{7A18}',";
"    '\u{7A19}','\u{7A12}','\u{7A17}','\u{7A15}','\u{7A22}','\u{7A13}','\u{7A1B}','\u{7A10}',";
"    '\u{7AA3}','\u{7AA2}','\u{7A9E}','\u{7AEB}','\u{7B66}','\u{7B64}','\u{7B6D}','\u{7B74}',";
"    '\u{7B69}','\u{7B72}','\u{7B65}','\u{7B73}','\u{7B71}','\u{7B70}','\u{7B61}','\u{7B78}',";
"    '\u{7B76}','\u{7B63}','\u{7CB2}','\u{7CB4}','\u{7CAF}','\u{7D88}','\u{7D86}','\u{7D80}',";
"    '\u{7D8D}','\u{7D7F}','\u{7D85}','\u{7D7A}','\u{7D8E}','\u{7D7B}','\u{7D83}','\u{7D7C}',";
"    '\u{7D8C}','\u{7D94}','\u{7D84}','\u{7D7D}','\u{7D92}','\u{7F6D}','\u{7F6B}','\u{7F67}',";
"    '\u{7F68}','\u{7F6C}','\u{7FA6}','\u{7FA5}','\u{7FA7}','\u{7FDB}','\u{7FDC}','\u{8021}',";
"    '\u{8164}','\u{8160}','\u{8177}','\u{815C}','\u{8169}','\u{815B}','\u{8162}','\u{8172}',";
"    '\u{6721}','\u{815E}','\u{8176}','\u{8167}','\u{816F}','\u{8144}','\u{8161}','\u{821D}',";
"    '\u{8249}','\u{8244}','\u{8240}','\u{8242}','\u{8245}','\u{84F1}','\u{843F}','\u{8456}',";
"    '\u{8476}','\u{8479}','\u{848F}','\u{848D}','\u{8465}','\u{8451}','\u{8440}','\u{8486}',";
"    '\u{8467}','\u{8430}','\u{844D}','\u{847D}','\u{845A}','\u{8459}','\u{8474}','\u{8473}',";
"    '\u{845D}','\u{8507}','\u{845E}','\u{8437}','\u{843A}','\u{8434}','\u{847A}','\u{8443}',";
"    '\u{8478}','\u{8432}','\u{8445}','\u{8429}','\u{83D9}','\u{844B}','\u{842F}','\u{8442}',";
"    '\u{842D}','\u{845F}','\u{8470}','\u{8439}','\u{844E}','\u{844C}','\u{8452}','\u{846F}',";
"    '\u{84C5}','\u{848E}','\u{843B}','\u{8447}','\u{8436}','\u{8433}','\u{8468}','\u{847E}',";
"    '\u{8444}','\u{842B}','\u{8460}','\u{8454}','\u{846E}','\u{8450}','\u{870B}','\u{8704}',";
"    '\u{86F7}','\u{870C}','\u{86FA}','\u{86D6}','\u{86F5}','\u{874D}','\u{86F8}','\u{870E}',";
"    '\u{8709}','\u{8701}','\u{86F6}','\u{870D}','\u{8705}','\u{88D6}','\u{88CB}','\u{88CD}',";
"    '\u{88CE}','\u{88DE}','\u{88DB}','\u{88DA}','\u{88CC}','\u{88D0}','\u{8985}','\u{899B}',";
"    '\u{89DF}','\u{89E5}','\u{89E4}','\u{89E1}','\u{89E0}','\u{89E2}','\u{89DC}','\u{89E6}',";
"    '\u{8A76}','\u{8A86}','\u{8A7F}','\u{8A61}','\u{8A3F}','\u{8A77}','\u{8A82}','\u{8A84}',";
"    '\u{8A75}','\u{8A83}','\u{8A81}','\u{8A74}','\u{8A7A}','\u{8C3C}','\u{8C4B}','\u{8C4A}',";
"    '\u{8C65}','\u{8C64}','\u{8C66}','\u{8C86}','\u{8C84}','\u{8C85}','\u{8CCC}','\u{8D68}',";
"    '\u{8D69}','\u{8D91}','\u{8D8C}','\u{8D8E}','\u{8D8F}','\u{8D8D}','\u{8D93}','\u{8D94}',";
"    '\u{8D90}','\u{8D92}','\u{8DF0}','\u{8DE0}','\u{8DEC}','\u{8DF1}','\u{8DEE}','\u{8DD0}',";
"    '\u{8DE9}','\u{8DE3}','\u{8DE2}','\u{8DE7}','\u{8DF2}','\u{8DEB}','\u{8DF4}','\u{8F06}',";
"    '\u{8EFF}','\u{8F01}','\u{8F00}','\u{8F05}','\u{8F07}','\u{8F08}','\u{8F02}','\u{8F0B}',";
"    '\u{9052}','\u{903F}','\u{9044}','\u{9049}','\u{903D}','\u{9110}','\u{910D}','\u{910F}',";
"    '\u{9111}','\u{9116}','\u{9114}','\u{910B}','\u{910E}','\u{916E}','\u{916F}','\u{9248}',";
"    '\u{9252}','\u{9230}','\u{923A}','\u{9266}','\u{9233}','\u{9265}','\u{925E}','\u{9283}',";
"    '\u{922E}','\u{924A}','\u{9246}','\u{926D}','\u{926C}','\u{924F}','\u{9260}','\u{9267}',";
"    '\u{926F}','\u{9236}','\u{9261}','\u{9270}','\u{9231}','\u{9254}','\u{9263}','\u{9250}',";
"    '\u{9272}','\u{924E}','\u{9253}','\u{924C}','\u{9256}','\u{9232}','\u{959F}','\u{959C}',";
"    '\u{959E}','\u{959B}','\u{9692}','\u{9693}','\u{9691}','\u{9697}','\u{96CE}','\u{96FA}',";
"    '\u{96FD}','\u{96F8}','\u{96F5}','\u{9773}','\u{9777}','\u{9778}','\u{9772}','\u{980F}',";
"    '\u{980D}','\u{980E}','\u{98AC}','\u{98F6}','\u{98F9}','\u{99AF}','\u{99B2}','\u{99B0}',";
"    '\u{99B5}','\u{9AAD}','\u{9AAB}','\u{9B5B}','\u{9CEA}','\u{9CED}','\u{9CE7}','\u{9E80}',";
"    '\u{9EFD}','\u{50E6}','\u{50D4}','\u{50D7}','\u{50E8}','\u{50F3}','\u{50DB}','\u{50EA}',";
"    '\u{50DD}','\u{50E4}','\u{50D3}','\u{50EC}','\u{50F0}','\u{50EF}','\u{50E3}','\u{50E0}',";
"    '\u{51D8}','\u{5280}','\u{5281}','\u{52E9}','\u{52EB}','\u{5330}','\u{53AC}','\u{5627}',";
"    '\u{5615}','\u{560C}','\u{5612}','\u{55FC}','\u{560F}','\u{561C}','\u{5601}','\u{5613}',";
"    '\u{5602}','\u{55FA}','\u{561D}','\u{5604}','\u{55FF}','\u{55F9}','\u{5889}','\u{587C}',";
"    '\u{5890}','\u{5898}','\u{5886}','\u{5881}','\u{587F}','\u{5874}','\u{588B}','\u{587A}',";
"    '\u{5887}','\u{5891}','\u{588E}','\u{5876}','\u{5882}','\u{5888}','\u{587B}','\u{5894}',";
"    '\u{588F}','\u{58FE}','\u{596B}','\u{5ADC}','\u{5AEE}','\u{5AE5}','\u{5AD5}','\u{5AEA}',";
"    '\u{5ADA}','\u{5AED}','\u{5AEB}','\u{5AF3}','\u{5AE2}','\u{5AE0}','\u{5ADB}','\u{5AEC}',";
"    '\u{5ADE}','\u{5ADD}','\u{5AD9}','\u{5AE8}','\u{5ADF}','\u{5B77}','\u{5BE0}','\u{5BE3}',";
"    '\u{5C63}','\u{5D82}','\u{5D80}','\u{5D7D}','\u{5D86}','\u{5D7A}','\u{5D81}','\u{5D77}',";
"    '\u{5D8A}','\u{5D89}','\u{5D88}','\u{5D7E}','\u{5D7C}','\u{5D8D}','\u{5D79}','\u{5D7F}',";
"    '\u{5E58}','\u{5E59}','\u{5E53}','\u{5ED8}','\u{5ED1}','\u{5ED7}','\u{5ECE}','\u{5EDC}',";
"    '\u{5ED5}','\u{5ED9}','\u{5ED2}','\u{5ED4}','\u{5F44}','\u{5F43}','\u{5F6F}','\u{5FB6}',";
"    '\u{612C}','\u{6128}','\u{6141}','\u{615E}','\u{6171}','\u{6173}','\u{6152}','\u{6153}',";
"    '\u{6172}','\u{616C}','\u{6180}','\u{6174}','\u{6154}','\u{617A}','\u{615B}','\u{6165}',";
"    '\u{613B}','\u{616A}','\u{6161}','\u{6156}','\u{6229}','\u{6227}','\u{622B}','\u{642B}',";
"    '\u{644D}','\u{645B}','\u{645D}','\u{6474}','\u{6476}','\u{6472}','\u{6473}','\u{647D}',";
"    '\u{6475}','\u{6466}','\u{64A6}','\u{644E}','\u{6482}','\u{645E}','\u{645C}','\u{644B}',";
"    '\u{6453}','\u{6460}','\u{6450}','\u{647F}','\u{643F}','\u{646C}','\u{646B}','\u{6459}',";
"    '\u{6465}','\u{6477}','\u{6573}','\u{65A0}','\u{66A1}','\u{66A0}','\u{669F}','\u{6705}',";
"    '\u{6704}','\u{6722}','\u{69B1}','\u{69B6}','\u{69C9}','\u{69A0}','\u{69CE}','\u{6996}',";
"    '\u{69B0}','\u{69AC}','\u{69BC}','\u{6991}','\u{6999}','\u{698E}','\u{69A7}','\u{698D}',";
"    '\u{69A9}','\u{69BE}','\u{69AF}','\u{69BF}','\u{69C4}','\u{69BD}','\u{69A4}','\u{69D4}',";
"    '\u{69B9}','\u{69CA}','\u{699A}','\u{69CF}','\u{69B3}','\u{6993}','\u{69AA}','\u{69A1}',";
"    '\u{699E}','\u{69D9}','\u{6997}','\u{6990}','\u{69C2}','\u{69B5}','\u{69A5}','\u{69C6}',";
"    '\u{6B4A}','\u{6B4D}','\u{6B4B}','\u{6B9E}','\u{6B9F}','\u{6BA0}','\u{6BC3}','\u{6BC4}',";
"    '\u{6BFE}','\u{6ECE}','\u{6EF5}','\u{6EF1}','\u{6F03}','\u{6F25}','\u{6EF8}','\u{6F37}',";
"    '\u{6EFB}','\u{6F2E}','\u{6F09}','\u{6F4E}','\u{6F19}','\u{6F1A}','\u{6F27}','\u{6F18}',";
"    '\u{6F3B}','\u{6F12}','\u{6EED}','\u{6F0A}','\u{6F36}','\u{6F73}','\u{6EF9}','\u{6EEE}',";
"    '\u{6F2D}','\u{6F40}','\u{6F30}','\u{6F3C}','\u{6F35}','\u{6EEB}','\u{6F07}','\u{6F0E}',";
"    '\u{6F43}','\u{6F05}','\u{6EFD}','\u{6EF6}','\u{6F39}','\u{6F1C}','\u{6EFC}','\u{6F3A}',";
"    '\u{6F1F}','\u{6F0D}','\u{6F1E}','\u{6F08}','\u{6F21}','\u{7187}','\u{7190}','\u{7189}',";
"    '\u{7180}','\u{7185}','\u{7182}','\u{718F}','\u{717B}','\u{7186}','\u{7181}','\u{7197}',";
"    '\u{7244}','\u{7253}','\u{7297}','\u{7295}','\u{7293}','\u{7343}','\u{734D}','\u{7351}',";
"    '\u{734C}','\u{7462}','\u{7473}','\u{7471}','\u{7475}','\u{7472}','\u{7467}','\u{746E}',";
"    '\u{7500}','\u{7502}','\u{7503}','\u{757D}','\u{7590}','\u{7616}','\u{7608}','\u{760C}',";
"    '\u{7615}','\u{7611}','\u{760A}','\u{7614}','\u{76B8}','\u{7781}','\u{777C}','\u{7785}',";
"    '\u{7782}','\u{776E}','\u{7780}','\u{776F}','\u{777E}','\u{7783}','\u{78B2}','\u{78AA}',";
"    '\u{78B4}','\u{78AD}','\u{78A8}','\u{787E}','\u{78AB}','\u{789E}','\u{78A5}','\u{78A0}',";
"    '\u{78AC}','\u{78A2}','\u{78A4}','\u{7998}','\u{798A}','\u{798B}','\u{7996}','\u{7995}',";
"    '\u{7994}','\u{7993}','\u{7997}','\u{7988}','\u{7992}','\u{7990}','\u{7A2B}','\u{7A4A}',";
"    '\u{7A30}','\u{7A2F}','\u{7A28}','\u{7A26}','\u{7AA8}','\u{7AAB}','\u{7AAC}','\u{7AEE}',";
"    '\u{7B88}','\u{7B9C}','\u{7B8A}','\u{7B91}','\u{7B90}','\u{7B96}','\u{7B8D}','\u{7B8C}',";
"    '\u{7B9B}','\u{7B8E}','\u{7B85}','\u{7B98}','\u{5284}','\u{7B99}','\u{7BA4}','\u{7B82}',";
"    '\u{7CBB}','\u{7CBF}','\u{7CBC}','\u{7CBA}','\u{7DA7}','\u{7DB7}','\u{7DC2}','\u{7DA3}',";
"    '\u{7DAA}','\u{7DC1}','\u{7DC0}','\u{7DC5}','\u{7D9D}','\u{7DCE}','\u{7DC4}','\u{7DC6}',";
"    '\u{7DCB}','\u{7DCC}','\u{7DAF}','\u{7DB9}','\u{7D96}','\u{7DBC}','\u{7D9F}','\u{7DA6}',";
"    '\u{7DAE}','\u{7DA9}','\u{7DA1}','\u{7DC9}','\u{7F73}','\u{7FE2}','\u{7FE3}','\u{7FE5}',";
"    '\u{7FDE}','\u{8024}','\u{805D}','\u{805C}','\u{8189}','\u{8186}','\u{8183}','\u{8187}',";
"    '\u{818D}','\u{818C}','\u{818B}','\u{8215}','\u{8497}','\u{84A4}','\u{84A1}','\u{849F}',";
"    '\u{84BA}','\u{84CE}','\u{84C2}','\u{84AC}','\u{84AE}','\u{84AB}','\u{84B9}','\u{84B4}',";
"    '\u{84C1}','\u{84CD}','\u{84AA}','\u{849A}','\u{84B1}','\u{84D0}','\u{849D}','\u{84A7}',";
"    '\u{84BB}','\u{84A2}','\u{8494}','\u{84C7}','\u{84CC}','\u{849B}','\u{84A9}','\u{84AF}',";
"    '\u{84A8}','\u{84D6}','\u{8498}','\u{84B6}','\u{84CF}','\u{84A0}','\u{84D7}','\u{84D4}',";
"    '\u{84D2}','\u{84DB}','\u{84B0}','\u{8491}','\u{8661}','\u{8733}','\u{8723}','\u{8728}',";
"    '\u{876B}','\u{8740}','\u{872E}','\u{871E}','\u{8721}','\u{8719}','\u{871B}','\u{8743}',";
"    '\u{872C}','\u{8741}','\u{873E}','\u{8746}','\u{8720}','\u{8732}','\u{872A}','\u{872D}',";
"    '\u{873C}','\u{8712}','\u{873A}','\u{8731}','\u{8735}','\u{8742}','\u{8726}','\u{8727}',";
"    '\u{8738}','\u{8724}','\u{871A}','\u{8730}','\u{8711}','\u{88F7}','\u{88E7}','\u{88F1}',";
"    '\u{88F2}','\u{88FA}','\u{88FE}','\u{88EE}','\u{88FC}','\u{88F6}','\u{88FB}','\u{88F0}',";
"    '\u{88EC}','\u{88EB}','\u{899D}','\u{89A1}','\u{899F}','\u{899E}','\u{89E9}','\u{89EB}',";
"    '\u{89E8}','\u{8AAB}','\u{8A99}','\u{8A8B}','\u{8A92}','\u{8A8F}','\u{8A96}','\u{8C3D}',";
"    '\u{8C68}','\u{8C69}','\u{8CD5}','\u{8CCF}','\u{8CD7}','\u{8D96}','\u{8E09}','\u{8E02}',";
"    '\u{8DFF}','\u{8E0D}','\u{8DFD}','\u{8E0A}','\u{8E03}','\u{8E07}','\u{8E06}','\u{8E05}',";
"    '\u{8DFE}','\u{8E00}','\u{8E04}','\u{8F10}','\u{8F11}','\u{8F0E}','\u{8F0D}','\u{9123}',";
"    '\u{911C}','\u{9120}','\u{9122}','\u{911F}','\u{911D}','\u{911A}','\u{9124}','\u{9121}',";
"    '\u{911B}','\u{917A}','\u{9172}','\u{9179}','\u{9173}','\u{92A5}','\u{92A4}','\u{9276}',";
"    '\u{929B}','\u{927A}','\u{92A0}','\u{9294}','\u{92AA}','\u{928D}','\u{92A6}','\u{929A}',";
"    '\u{92AB}','\u{9279}','\u{9297}','\u{927F}','\u{92A3}','\u{92EE}','\u{928E}','\u{9282}',";
"    '\u{9295}','\u{92A2}','\u{927D}','\u{9288}','\u{92A1}','\u{928A}','\u{9286}','\u{928C}',";
"    '\u{9299}','\u{92A7}','\u{927E}','\u{9287}','\u{92A9}','\u{929D}','\u{928B}','\u{922D}',";
"    '\u{969E}','\u{96A1}','\u{96FF}','\u{9758}','\u{977D}','\u{977A}','\u{977E}','\u{9783}',";
"    '\u{9780}','\u{9782}','\u{977B}','\u{9784}','\u{9781}','\u{977F}','\u{97CE}','\u{97CD}',";
"    '\u{9816}','\u{98AD}','\u{98AE}','\u{9902}','\u{9900}','\u{9907}','\u{999D}','\u{999C}',";
"    '\u{99C3}','\u{99B9}','\u{99BB}','\u{99BA}','\u{99C2}','\u{99BD}','\u{99C7}','\u{9AB1}',";
"    '\u{9AE3}','\u{9AE7}','\u{9B3E}','\u{9B3F}','\u{9B60}','\u{9B61}','\u{9B5F}','\u{9CF1}',";
"    '\u{9CF2}','\u{9CF5}','\u{9EA7}','\u{50FF}','\u{5103}','\u{5130}','\u{50F8}','\u{5106}',";
"    '\u{5107}','\u{50F6}','\u{50FE}','\u{510B}','\u{510C}','\u{50FD}','\u{510A}','\u{528B}',";
"    '\u{528C}','\u{52F1}','\u{52EF}','\u{5648}','\u{5642}','\u{564C}','\u{5635}','\u{5641}',";
"    '\u{564A}','\u{5649}','\u{5646}','\u{5658}','\u{565A}','\u{5640}','\u{5633}','\u{563D}',";
"    '\u{562C}','\u{563E}','\u{5638}','\u{562A}','\u{563A}','\u{571A}','\u{58AB}','\u{589D}',";
"    '\u{58B1}','\u{58A0}','\u{58A3}','\u{58AF}','\u{58AC}','\u{58A5}','\u{58A1}','\u{58FF}',";
"    '\u{5AFF}','\u{5AF4}','\u{5AFD}','\u{5AF7}','\u{5AF6}','\u{5B03}','\u{5AF8}','\u{5B02}',";
"    '\u{5AF9}','\u{5B01}','\u{5B07}','\u{5B05}','\u{5B0F}','\u{5C67}','\u{5D99}','\u{5D97}',";
"    '\u{5D9F}','\u{5D92}','\u{5DA2}','\u{5D93}','\u{5D95}','\u{5DA0}','\u{5D9C}','\u{5DA1}',";
"    '\u{5D9A}','\u{5D9E}','\u{5E69}','\u{5E5D}','\u{5E60}','\u{5E5C}','\u{7DF3}','\u{5EDB}',";
"    '\u{5EDE}','\u{5EE1}','\u{5F49}','\u{5FB2}','\u{618B}','\u{6183}','\u{6179}','\u{61B1}',";
"    '\u{61B0}','\u{61A2}','\u{6189}','\u{619B}','\u{6193}','\u{61AF}','\u{61AD}','\u{619F}',";
"    '\u{6192}','\u{61AA}','\u{61A1}','\u{618D}','\u{6166}','\u{61B3}','\u{622D}','\u{646E}',";
"    '\u{6470}','\u{6496}','\u{64A0}','\u{6485}','\u{6497}','\u{649C}','\u{648F}','\u{648B}',";
"    '\u{648A}','\u{648C}','\u{64A3}','\u{649F}','\u{6468}','\u{64B1}','\u{6498}','\u{6576}',";
"    '\u{657A}','\u{6579}','\u{657B}','\u{65B2}','\u{65B3}','\u{66B5}','\u{66B0}','\u{66A9}',";
"    '\u{66B2}','\u{66B7}','\u{66AA}','\u{66AF}','\u{6A00}','\u{6A06}','\u{6A17}','\u{69E5}',";
"    '\u{69F8}','\u{6A15}','\u{69F1}','\u{69E4}','\u{6A20}','\u{69FF}','\u{69EC}','\u{69E2}',";
"    '\u{6A1B}','\u{6A1D}','\u{69FE}','\u{6A27}','\u{69F2}','\u{69EE}','\u{6A14}','\u{69F7}',";
"    '\u{69E7}','\u{6A40}','\u{6A08}','\u{69E6}','\u{69FB}','\u{6A0D}','\u{69FC}','\u{69EB}',";
"    '\u{6A09}','\u{6A04}','\u{6A18}','\u{6A25}','\u{6A0F}','\u{69F6}','\u{6A26}','\u{6A07}',";
"    '\u{69F4}','\u{6A16}','\u{6B51}','\u{6BA5}','\u{6BA3}','\u{6BA2}','\u{6BA6}','\u{6C01}',";
"    '\u{6C00}','\u{6BFF}','\u{6C02}','\u{6F41}','\u{6F26}','\u{6F7E}','\u{6F87}','\u{6FC6}',";
"    '\u{6F92}','\u{6F8D}','\u{6F89}','\u{6F8C}','\u{6F62}','\u{6F4F}','\u{6F85}','\u{6F5A}',";
"    '\u{6F96}','\u{6F76}','\u{6F6C}','\u{6F82}','\u{6F55}','\u{6F72}','\u{6F52}','\u{6F50}',";
"    '\u{6F57}','\u{6F94}','\u{6F93}','\u{6F5D}','\u{6F00}','\u{6F61}','\u{6F6B}','\u{6F7D}',";
"    '\u{6F67}','\u{6F90}','\u{6F53}','\u{6F8B}','\u{6F69}','\u{6F7F}','\u{6F95}','\u{6F63}',";
"    '\u{6F77}','\u{6F6A}','\u{6F7B}','\u{71B2}','\u{71AF}','\u{719B}','\u{71B0}','\u{71A0}',";
"    '\u{719A}','\u{71A9}','\u{71B5}','\u{719D}','\u{71A5}','\u{719E}','\u{71A4}','\u{71A1}',";
"    '\u{71AA}','\u{719C}','\u{71A7}','\u{71B3}','\u{7298}','\u{729A}','\u{7358}','\u{7352}',";
"    '\u{735E}','\u{735F}','\u{7360}','\u{735D}','\u{735B}','\u{7361}','\u{735A}','\u{7359}',";
"    '\u{7362}','\u{7487}','\u{7489}','\u{748A}','\u{7486}','\u{7481}','\u{747D}','\u{7485}',";
"    '\u{7488}','\u{747C}','\u{7479}','\u{7508}','\u{7507}','\u{757E}','\u{7625}','\u{761E}',";
"    '\u{7619}','\u{761D}','\u{761C}','\u{7623}','\u{761A}','\u{7628}','\u{761B}','\u{769C}',";
"    '\u{769D}','\u{769E}','\u{769B}','\u{778D}','\u{778F}','\u{7789}','\u{7788}','\u{78CD}',";
"    '\u{78BB}','\u{78CF}','\u{78CC}','\u{78D1}','\u{78CE}','\u{78D4}','\u{78C8}','\u{78C3}',";
"    '\u{78C4}','\u{78C9}','\u{799A}','\u{79A1}','\u{79A0}','\u{799C}','\u{79A2}','\u{799B}',";
"    '\u{6B76}','\u{7A39}','\u{7AB2}','\u{7AB4}','\u{7AB3}','\u{7BB7}','\u{7BCB}','\u{7BBE}',";
"    '\u{7BAC}','\u{7BCE}','\u{7BAF}','\u{7BB9}','\u{7BCA}','\u{7BB5}','\u{7CC5}','\u{7CC8}',";
"    '\u{7CCC}','\u{7CCB}','\u{7DF7}','\u{7DDB}','\u{7DEA}','\u{7DE7}','\u{7DD7}','\u{7DE1}',";
"    '\u{7E03}','\u{7DFA}','\u{7DE6}','\u{7DF6}','\u{7DF1}','\u{7DF0}','\u{7DEE}','\u{7DDF}',";
"    '\u{7F76}','\u{7FAC}','\u{7FB0}','\u{7FAD}','\u{7FED}','\u{7FEB}','\u{7FEA}','\u{7FEC}',";
"    '\u{7FE6}','\u{7FE8}','\u{8064}','\u{8067}','\u{81A3}','\u{819F}','\u{819E}','\u{8195}',";
"    '\u{81A2}','\u{8199}','\u{8197}','\u{8216}','\u{824F}','\u{8253}','\u{8252}','\u{8250}',";
"    '\u{824E}','\u{8251}','\u{8524}','\u{853B}','\u{850F}','\u{8500}','\u{8529}','\u{850E}',";
"    '\u{8509}','\u{850D}','\u{851F}','\u{850A}','\u{8527}','\u{851C}','\u{84FB}','\u{852B}',";
"    '\u{84FA}','\u{8508}','\u{850C}','\u{84F4}','\u{852A}','\u{84F2}','\u{8515}','\u{84F7}',";
"    '\u{84EB}','\u{84F3}','\u{84FC}','\u{8512}','\u{84EA}','\u{84E9}','\u{8516}','\u{84FE}',";
"    '\u{8528}','\u{851D}','\u{852E}','\u{8502}','\u{84FD}','\u{851E}','\u{84F6}','\u{8531}',";
"    '\u{8526}','\u{84E7}','\u{84E8}','\u{84F0}','\u{84EF}','\u{84F9}','\u{8518}','\u{8520}',";
"    '\u{8530}','\u{850B}','\u{8519}','\u{852F}','\u{8662}','\u{8756}','\u{8763}','\u{8764}',";
"    '\u{8777}','\u{87E1}','\u{8773}','\u{8758}','\u{8754}','\u{875B}','\u{8752}','\u{8761}',";
"    '\u{875A}','\u{8751}','\u{875E}','\u{876D}','\u{876A}','\u{8750}','\u{874E}','\u{875F}',";
"    '\u{875D}','\u{876F}','\u{876C}','\u{877A}','\u{876E}','\u{875C}','\u{8765}','\u{874F}',";
"    '\u{877B}','\u{8775}','\u{8762}','\u{8767}','\u{8769}','\u{885A}','\u{8905}','\u{890C}',";
"    '\u{8914}','\u{890B}','\u{8917}','\u{8918}','\u{8919}','\u{8906}','\u{8916}','\u{8911}',";
"    '\u{890E}','\u{8909}','\u{89A2}','\u{89A4}','\u{89A3}','\u{89ED}','\u{89F0}','\u{89EC}',";
"    '\u{8ACF}','\u{8AC6}','\u{8AB8}','\u{8AD3}','\u{8AD1}','\u{8AD4}','\u{8AD5}','\u{8ABB}',";
"    '\u{8AD7}','\u{8ABE}','\u{8AC0}','\u{8AC5}','\u{8AD8}','\u{8AC3}','\u{8ABA}','\u{8ABD}',";
"    '\u{8AD9}','\u{8C3E}','\u{8C4D}','\u{8C8F}','\u{8CE5}','\u{8CDF}','\u{8CD9}','\u{8CE8}',";
"    '\u{8CDA}','\u{8CDD}','\u{8CE7}','\u{8DA0}','\u{8D9C}','\u{8DA1}','\u{8D9B}','\u{8E20}',";
"    '\u{8E23}','\u{8E25}','\u{8E24}','\u{8E2E}','\u{8E15}','\u{8E1B}','\u{8E16}','\u{8E11}',";
"    '\u{8E19}','\u{8E26}','\u{8E27}','\u{8E14}','\u{8E12}','\u{8E18}','\u{8E13}','\u{8E1C}',";
"    '\u{8E17}','\u{8E1A}','\u{8F2C}','\u{8F24}','\u{8F18}','\u{8F1A}','\u{8F20}','\u{8F23}',";
"    '\u{8F16}','\u{8F17}','\u{9073}','\u{9070}','\u{906F}','\u{9067}','\u{906B}','\u{912F}',";
"    '\u{912B}','\u{9129}','\u{912A}','\u{9132}','\u{9126}','\u{912E}','\u{9185}','\u{9186}',";
"    '\u{918A}','\u{9181}','\u{9182}','\u{9184}','\u{9180}','\u{92D0}','\u{92C3}','\u{92C4}',";
"    '\u{92C0}','\u{92D9}','\u{92B6}','\u{92CF}','\u{92F1}','\u{92DF}','\u{92D8}','\u{92E9}',";
"    '\u{92D7}','\u{92DD}','\u{92CC}','\u{92EF}','\u{92C2}','\u{92E8}','\u{92CA}','\u{92C8}',";
"    '\u{92CE}','\u{92E6}','\u{92CD}','\u{92D5}','\u{92C9}','\u{92E0}','\u{92DE}','\u{92E7}',";
"    '\u{92D1}','\u{92D3}','\u{92B5}','\u{92E1}','\u{92C6}','\u{92B4}','\u{957C}','\u{95AC}',";
"    '\u{95AB}','\u{95AE}','\u{95B0}','\u{96A4}','\u{96A2}','\u{96D3}','\u{9705}','\u{9708}',";
"    '\u{9702}','\u{975A}','\u{978A}','\u{978E}','\u{9788}','\u{97D0}','\u{97CF}','\u{981E}',";
"    '\u{981D}','\u{9826}','\u{9829}','\u{9828}','\u{9820}','\u{981B}','\u{9827}','\u{98B2}',";
"    '\u{9908}','\u{98FA}','\u{9911}','\u{9914}','\u{9916}','\u{9917}','\u{9915}','\u{99DC}',";
"    '\u{99CD}','\u{99CF}','\u{99D3}','\u{99D4}','\u{99CE}','\u{99C9}','\u{99D6}','\u{99D8}',";
"    '\u{99CB}','\u{99D7}','\u{99CC}','\u{9AB3}','\u{9AEC}','\u{9AEB}','\u{9AF3}','\u{9AF2}',";
"    '\u{9AF1}','\u{9B46}','\u{9B43}','\u{9B67}','\u{9B74}','\u{9B71}','\u{9B66}','\u{9B76}',";
"    '\u{9B75}','\u{9B70}','\u{9B68}','\u{9B64}','\u{9B6C}','\u{9CFC}','\u{9CFA}','\u{9CFD}',";
"    '\u{9CFF}','\u{9CF7}','\u{9D07}','\u{9D00}','\u{9CF9}','\u{9CFB}','\u{9D08}','\u{9D05}',";
"    '\u{9D04}','\u{9E83}','\u{9ED3}','\u{9F0F}','\u{9F10}','\u{511C}','\u{5113}','\u{5117}',";
"    '\u{511A}','\u{5111}','\u{51DE}','\u{5334}','\u{53E1}','\u{5670}','\u{5660}','\u{566E}',";
"    '\u{5673}','\u{5666}','\u{5663}','\u{566D}','\u{5672}','\u{565E}','\u{5677}','\u{571C}',";
"    '\u{571B}','\u{58C8}','\u{58BD}','\u{58C9}','\u{58BF}','\u{58BA}','\u{58C2}','\u{58BC}',";
"    '\u{58C6}','\u{5B17}','\u{5B19}','\u{5B1B}','\u{5B21}','\u{5B14}','\u{5B13}','\u{5B10}',"
].
(* /repo/src/generated/whatwg/big5_whatwg_tables.rs.inc:2049-2304 *)
Definition big5_inc_8 : list line := [
"    '\u{5B16}','\u{5B28}','\u{5B1A}','\u{5B20}','\u{5B1E}','\u{5BEF}','\u{5DAC}','\u{5DB1}',";
"    '\u{5DA9}','\u{5DA7}','\u{5DB5}','\u{5DB0}','\u{5DAE}','\u{5DAA}','\u{5DA8}','\u{5DB2}',";
"    '\u{5DAD}','\u{5DAF}','\u{5DB4}','\u{5E67}','\u{5E68}','\u{5E66}','\u{5E6F}','\u{5EE9}',";
"    '\u{5EE7}','\u{5EE6}','\u{5EE8}','\u{5EE5}','\u{5F4B}','\u{5FBC}','\u{619D}','\u{61A8}',";
"    '\u{6196}','\u{61C5}','\u{61B4}','\u{61C6}','\u{61C1}','\u{61CC}','\u{61BA}','\u{61BF}',";
"    '\u{61B8}','\u{618C}','\u{64D7}','\u{64D6}','\u{64D0}','\u{64CF}','\u{64C9}','\u{64BD}',";
"    '\u{6489}','\u{64C3}','\u{64DB}','\u{64F3}','\u{64D9}','\u{6533}','\u{657F}','\u{657C}',";
"    '\u{65A2}','\u{66C8}','\u{66BE}','\u{66C0}','\u{66CA}','\u{66CB}','\u{66CF}','\u{66BD}',";
"    '\u{66BB}','\u{66BA}','\u{66CC}','\u{6723}','\u{6A34}','\u{6A66}','\u{6A49}','\u{6A67}',";
"    '\u{6A32}','\u{6A68}','\u{6A3E}','\u{6A5D}','\u{6A6D}','\u{6A76}','\u{6A5B}','\u{6A51}',";
"    '\u{6A28}','\u{6A5A}','\u{6A3B}','\u{6A3F}','\u{6A41}','\u{6A6A}','\u{6A64}','\u{6A50}',";
"    '\u{6A4F}','\u{6A54}','\u{6A6F}','\u{6A69}','\u{6A60}','\u{6A3C}','\u{6A5E}','\u{6A56}',";
"    '\u{6A55}','\u{6A4D}','\u{6A4E}','\u{6A46}','\u{6B55}','\u{6B54}','\u{6B56}','\u{6BA7}',";
"    '\u{6BAA}','\u{6BAB}','\u{6BC8}','\u{6BC7}','\u{6C04}','\u{6C03}','\u{6C06}','\u{6FAD}',";
"    '\u{6FCB}','\u{6FA3}','\u{6FC7}','\u{6FBC}','\u{6FCE}','\u{6FC8}','\u{6F5E}','\u{6FC4}',";
"    '\u{6FBD}','\u{6F9E}','\u{6FCA}','\u{6FA8}','\u{7004}','\u{6FA5}','\u{6FAE}','\u{6FBA}',";
"    '\u{6FAC}','\u{6FAA}','\u{6FCF}','\u{6FBF}','\u{6FB8}','\u{6FA2}','\u{6FC9}','\u{6FAB}',";
"    '\u{6FCD}','\u{6FAF}','\u{6FB2}','\u{6FB0}','\u{71C5}','\u{71C2}','\u{71BF}','\u{71B8}',";
"    '\u{71D6}','\u{71C0}','\u{71C1}','\u{71CB}','\u{71D4}','\u{71CA}','\u{71C7}','\u{71CF}',";
"    '\u{71BD}','\u{71D8}','\u{71BC}','\u{71C6}','\u{71DA}','\u{71DB}','\u{729D}','\u{729E}',";
"    '\u{7369}','\u{7366}','\u{7367}','\u{736C}','\u{7365}','\u{736B}','\u{736A}','\u{747F}',";
"    '\u{749A}','\u{74A0}','\u{7494}','\u{7492}','\u{7495}','\u{74A1}','\u{750B}','\u{7580}',";
"    '\u{762F}','\u{762D}','\u{7631}','\u{763D}','\u{7633}','\u{763C}','\u{7635}','\u{7632}',";
"    '\u{7630}','\u{76BB}','\u{76E6}','\u{779A}','\u{779D}','\u{77A1}','\u{779C}','\u{779B}',";
"    '\u{77A2}','\u{77A3}','\u{7795}','\u{7799}','\u{7797}','\u{78DD}','\u{78E9}','\u{78E5}',";
"    '\u{78EA}','\u{78DE}','\u{78E3}','\u{78DB}','\u{78E1}','\u{78E2}','\u{78ED}','\u{78DF}',";
"    '\u{78E0}','\u{79A4}','\u{7A44}','\u{7A48}','\u{7A47}','\u{7AB6}','\u{7AB8}','\u{7AB5}',";
"    '\u{7AB1}','\u{7AB7}','\u{7BDE}','\u{7BE3}','\u{7BE7}','\u{7BDD}','\u{7BD5}','\u{7BE5}',";
"    '\u{7BDA}','\u{7BE8}','\u{7BF9}','\u{7BD4}','\u{7BEA}','\u{7BE2}','\u{7BDC}','\u{7BEB}',";
"    '\u{7BD8}','\u{7BDF}','\u{7CD2}','\u{7CD4}','\u{7CD7}','\u{7CD0}','\u{7CD1}','\u{7E12}',";
"    '\u{7E21}','\u{7E17}','\u{7E0C}','\u{7E1F}','\u{7E20}','\u{7E13}','\u{7E0E}','\u{7E1C}',";
"    '\u{7E15}','\u{7E1A}','\u{7E22}','\u{7E0B}','\u{7E0F}','\u{7E16}','\u{7E0D}','\u{7E14}',";
"    '\u{7E25}','\u{7E24}','\u{7F43}','\u{7F7B}','\u{7F7C}','\u{7F7A}','\u{7FB1}','\u{7FEF}',";
"    '\u{802A}','\u{8029}','\u{806C}','\u{81B1}','\u{81A6}','\u{81AE}','\u{81B9}','\u{81B5}',";
"    '\u{81AB}','\u{81B0}','\u{81AC}','\u{81B4}','\u{81B2}','\u{81B7}','\u{81A7}','\u{81F2}',";
"    '\u{8255}','\u{8256}','\u{8257}','\u{8556}','\u{8545}','\u{856B}','\u{854D}','\u{8553}',";
"    '\u{8561}','\u{8558}','\u{8540}','\u{8546}','\u{8564}','\u{8541}','\u{8562}','\u{8544}',";
"    '\u{8551}','\u{8547}','\u{8563}','\u{853E}','\u{855B}','\u{8571}','\u{854E}','\u{856E}',";
"    '\u{8575}','\u{8555}','\u{8567}','\u{8560}','\u{858C}','\u{8566}','\u{855D}','\u{8554}',";
"    '\u{8565}','\u{856C}','\u{8663}','\u{8665}','\u{8664}','\u{879B}','\u{878F}','\u{8797}',";
"    '\u{8793}','\u{8792}','\u{8788}','\u{8781}','\u{8796}','\u{8798}','\u{8779}','\u{8787}',";
"    '\u{87A3}','\u{8785}','\u{8790}','\u{8791}','\u{879D}','\u{8784}','\u{8794}','\u{879C}',";
"    '\u{879A}','\u{8789}','\u{891E}','\u{8926}','\u{8930}','\u{892D}','\u{892E}','\u{8927}',";
"    '\u{8931}','\u{8922}','\u{8929}','\u{8923}','\u{892F}','\u{892C}','\u{891F}','\u{89F1}',";
"    '\u{8AE0}','\u{8AE2}','\u{8AF2}','\u{8AF4}','\u{8AF5}','\u{8ADD}','\u{8B14}','\u{8AE4}',";
"    '\u{8ADF}','\u{8AF0}','\u{8AC8}','\u{8ADE}','\u{8AE1}','\u{8AE8}','\u{8AFF}','\u{8AEF}',";
"    '\u{8AFB}','\u{8C91}','\u{8C92}','\u{8C90}','\u{8CF5}','\u{8CEE}','\u{8CF1}','\u{8CF0}',";
"    '\u{8CF3}','\u{8D6C}','\u{8D6E}','\u{8DA5}','\u{8DA7}','\u{8E33}','\u{8E3E}','\u{8E38}',";
"    '\u{8E40}','\u{8E45}','\u{8E36}','\u{8E3C}','\u{8E3D}','\u{8E41}','\u{8E30}','\u{8E3F}',";
"    '\u{8EBD}','\u{8F36}','\u{8F2E}','\u{8F35}','\u{8F32}','\u{8F39}','\u{8F37}','\u{8F34}',";
"    '\u{9076}','\u{9079}','\u{907B}','\u{9086}','\u{90FA}','\u{9133}','\u{9135}','\u{9136}',";
"    '\u{9193}','\u{9190}','\u{9191}','\u{918D}','\u{918F}','\u{9327}','\u{931E}','\u{9308}',";
"    '\u{931F}','\u{9306}','\u{930F}','\u{937A}','\u{9338}','\u{933C}','\u{931B}','\u{9323}',";
"    '\u{9312}','\u{9301}','\u{9346}','\u{932D}','\u{930E}','\u{930D}','\u{92CB}','\u{931D}',";
"    '\u{92FA}','\u{9325}','\u{9313}','\u{92F9}','\u{92F7}','\u{9334}','\u{9302}','\u{9324}',";
"    '\u{92FF}','\u{9329}','\u{9339}','\u{9335}','\u{932A}','\u{9314}','\u{930C}','\u{930B}',";
"    '\u{92FE}','\u{9309}','\u{9300}','\u{92FB}','\u{9316}','\u{95BC}','\u{95CD}','\u{95BE}',";
"    '\u{95B9}','\u{95BA}','\u{95B6}','\u{95BF}','\u{95B5}','\u{95BD}','\u{96A9}','\u{96D4}',";
"    '\u{970B}','\u{9712}','\u{9710}','\u{9799}','\u{9797}','\u{9794}','\u{97F0}','\u{97F8}',";
"    '\u{9835}','\u{982F}','\u{9832}','\u{9924}','\u{991F}','\u{9927}','\u{9929}','\u{999E}',";
"    '\u{99EE}','\u{99EC}','\u{99E5}','\u{99E4}','\u{99F0}','\u{99E3}','\u{99EA}','\u{99E9}',";
"    '\u{99E7}','\u{9AB9}','\u{9ABF}','\u{9AB4}','\u{9ABB}','\u{9AF6}','\u{9AFA}','\u{9AF9}',";
"    '\u{9AF7}','\u{9B33}','\u{9B80}','\u{9B85}','\u{9B87}','\u{9B7C}','\u{9B7E}','\u{9B7B}',";
"    '\u{9B82}','\u{9B93}','\u{9B92}','\u{9B90}','\u{9B7A}','\u{9B95}','\u{9B7D}','\u{9B88}',";
"    '\u{9D25}','\u{9D17}','\u{9D20}','\u{9D1E}','\u{9D14}','\u{9D29}','\u{9D1D}','\u{9D18}',";
"    '\u{9D22}','\u{9D10}','\u{9D19}','\u{9D1F}','\u{9E88}','\u{9E86}','\u{9E87}','\u{9EAE}',";
"    '\u{9EAD}','\u{9ED5}','\u{9ED6}','\u{9EFA}','\u{9F12}','\u{9F3D}','\u{5126}','\u{5125}',";
"    '\u{5122}','\u{5124}','\u{5120}','\u{5129}','\u{52F4}','\u{5693}','\u{568C}','\u{568D}',";
"    '\u{5686}','\u{5684}','\u{5683}','\u{567E}','\u{5682}','\u{567F}','\u{5681}','\u{58D6}',";
"    '\u{58D4}','\u{58CF}','\u{58D2}','\u{5B2D}','\u{5B25}','\u{5B32}','\u{5B23}','\u{5B2C}',";
"    '\u{5B27}','\u{5B26}','\u{5B2F}','\u{5B2E}','\u{5B7B}','\u{5BF1}','\u{5BF2}','\u{5DB7}',";
"    '\u{5E6C}','\u{5E6A}','\u{5FBE}','\u{5FBB}','\u{61C3}','\u{61B5}','\u{61BC}','\u{61E7}',";
"    '\u{61E0}','\u{61E5}','\u{61E4}','\u{61E8}','\u{61DE}','\u{64EF}','\u{64E9}','\u{64E3}',";
"    '\u{64EB}','\u{64E4}','\u{64E8}','\u{6581}','\u{6580}','\u{65B6}','\u{65DA}','\u{66D2}',";
"    '\u{6A8D}','\u{6A96}','\u{6A81}','\u{6AA5}','\u{6A89}','\u{6A9F}','\u{6A9B}','\u{6AA1}',";
"    '\u{6A9E}','\u{6A87}','\u{6A93}','\u{6A8E}','\u{6A95}','\u{6A83}','\u{6AA8}','\u{6AA4}',";
"    '\u{6A91}','\u{6A7F}','\u{6AA6}','\u{6A9A}','\u{6A85}','\u{6A8C}','\u{6A92}','\u{6B5B}',";
"    '\u{6BAD}','\u{6C09}','\u{6FCC}','\u{6FA9}','\u{6FF4}','\u{6FD4}','\u{6FE3}','\u{6FDC}',";
"    '\u{6FED}','\u{6FE7}','\u{6FE6}','\u{6FDE}','\u{6FF2}','\u{6FDD}','\u{6FE2}','\u{6FE8}',";
"    '\u{71E1}','\u{71F1}','\u{71E8}','\u{71F2}','\u{71E4}','\u{71F0}','\u{71E2}','\u{7373}',";
"    '\u{736E}','\u{736F}','\u{7497}','\u{74B2}','\u{74AB}','\u{7490}','\u{74AA}','\u{74AD}',";
"    '\u{74B1}','\u{74A5}','\u{74AF}','\u{7510}','\u{7511}','\u{7512}','\u{750F}','\u{7584}',";
"    '\u{7643}','\u{7648}','\u{7649}','\u{7647}','\u{76A4}','\u{76E9}','\u{77B5}','\u{77AB}',";
"    '\u{77B2}','\u{77B7}','\u{77B6}','\u{77B4}','\u{77B1}','\u{77A8}','\u{77F0}','\u{78F3}',";
"    '\u{78FD}','\u{7902}','\u{78FB}','\u{78FC}','\u{78F2}','\u{7905}','\u{78F9}','\u{78FE}',";
"    '\u{7904}','\u{79AB}','\u{79A8}','\u{7A5C}','\u{7A5B}','\u{7A56}','\u{7A58}','\u{7A54}',";
"    '\u{7A5A}','\u{7ABE}','\u{7AC0}','\u{7AC1}','\u{7C05}','\u{7C0F}','\u{7BF2}','\u{7C00}',";
"    '\u{7BFF}','\u{7BFB}','\u{7C0E}','\u{7BF4}','\u{7C0B}','\u{7BF3}','\u{7C02}','\u{7C09}',";
"    '\u{7C03}','\u{7C01}','\u{7BF8}','\u{7BFD}','\u{7C06}','\u{7BF0}','\u{7BF1}','\u{7C10}',";
"    '\u{7C0A}','\u{7CE8}','\u{7E2D}','\u{7E3C}','\u{7E42}','\u{7E33}','\u{9848}','\u{7E38}',";
"    '\u{7E2A}','\u{7E49}','\u{7E40}','\u{7E47}','\u{7E29}','\u{7E4C}','\u{7E30}','\u{7E3B}',";
"    '\u{7E36}','\u{7E44}','\u{7E3A}','\u{7F45}','\u{7F7F}','\u{7F7E}','\u{7F7D}','\u{7FF4}',";
"    '\u{7FF2}','\u{802C}','\u{81BB}','\u{81C4}','\u{81CC}','\u{81CA}','\u{81C5}','\u{81C7}',";
"    '\u{81BC}','\u{81E9}','\u{825B}','\u{825A}','\u{825C}','\u{8583}','\u{8580}','\u{858F}',";
"    '\u{85A7}','\u{8595}','\u{85A0}','\u{858B}','\u{85A3}','\u{857B}','\u{85A4}','\u{859A}',";
"    '\u{859E}','\u{8577}','\u{857C}','\u{8589}','\u{85A1}','\u{857A}','\u{8578}','\u{8557}',";
"    '\u{858E}','\u{8596}','\u{8586}','\u{858D}','\u{8599}','\u{859D}','\u{8581}','\u{85A2}',";
"    '\u{8582}','\u{8588}','\u{8585}','\u{8579}','\u{8576}','\u{8598}','\u{8590}','\u{859F}',";
"    '\u{8668}','\u{87BE}','\u{87AA}','\u{87AD}','\u{87C5}','\u{87B0}','\u{87AC}','\u{87B9}',";
"    '\u{87B5}','\u{87BC}','\u{87AE}','\u{87C9}','\u{87C3}','\u{87C2}','\u{87CC}','\u{87B7}',";
"    '\u{87AF}','\u{87C4}','\u{87CA}','\u{87B4}','\u{87B6}','\u{87BF}','\u{87B8}','\u{87BD}',";
"    '\u{87DE}','\u{87B2}','\u{8935}','\u{8933}','\u{893C}','\u{893E}','\u{8941}','\u{8952}',";
"    '\u{8937}','\u{8942}','\u{89AD}','\u{89AF}','\u{89AE}','\u{89F2}','\u{89F3}','\u{8B1E}',";
"    '\u{8B18}','\u{8B16}','\u{8B11}','\u{8B05}','\u{8B0B}','\u{8B22}','\u{8B0F}','\u{8B12}',";
"    '\u{8B15}','\u{8B07}','\u{8B0D}','\u{8B08}','\u{8B06}','\u{8B1C}','\u{8B13}','\u{8B1A}',";
"    '\u{8C4F}','\u{8C70}','\u{8C72}','\u{8C71}','\u{8C6F}','\u{8C95}','\u{8C94}','\u{8CF9}',";
"    '\u{8D6F}','\u{8E4E}','\u{8E4D}','\u{8E53}','\u{8E50}','\u{8E4C}','\u{8E47}','\u{8F43}',";
"    '\u{8F40}','\u{9085}','\u{907E}','\u{9138}','\u{919A}','\u{91A2}','\u{919B}','\u{9199}',";
"    '\u{919F}','\u{91A1}','\u{919D}','\u{91A0}','\u{93A1}','\u{9383}','\u{93AF}','\u{9364}',";
"    '\u{9356}','\u{9347}','\u{937C}','\u{9358}','\u{935C}','\u{9376}','\u{9349}','\u{9350}',";
"    '\u{9351}','\u{9360}','\u{936D}','\u{938F}','\u{934C}','\u{936A}','\u{9379}','\u{9357}',";
"    '\u{9355}','\u{9352}','\u{934F}','\u{9371}','\u{9377}','\u{937B}','\u{9361}','\u{935E}',";
"    '\u{9363}','\u{9367}','\u{9380}','\u{934E}','\u{9359}','\u{95C7}','\u{95C0}','\u{95C9}',";
"    '\u{95C3}','\u{95C5}','\u{95B7}','\u{96AE}','\u{96B0}','\u{96AC}','\u{9720}','\u{971F}',";
"    '\u{9718}','\u{971D}','\u{9719}','\u{979A}','\u{97A1}','\u{979C}','\u{979E}','\u{979D}',";
"    '\u{97D5}','\u{97D4}','\u{97F1}','\u{9841}','\u{9844}','\u{984A}','\u{9849}','\u{9845}',";
"    '\u{9843}','\u{9925}','\u{992B}','\u{992C}','\u{992A}','\u{9933}','\u{9932}','\u{992F}',";
"    '\u{992D}','\u{9931}','\u{9930}','\u{9998}','\u{99A3}','\u{99A1}','\u{9A02}','\u{99FA}',";
"    '\u{99F4}','\u{99F7}','\u{99F9}','\u{99F8}','\u{99F6}','\u{99FB}','\u{99FD}','\u{99FE}',";
"    '\u{99FC}','\u{9A03}','\u{9ABE}','\u{9AFE}','\u{9AFD}','\u{9B01}','\u{9AFC}','\u{9B48}',";
"    '\u{9B9A}','\u{9BA8}','\u{9B9E}','\u{9B9B}','\u{9BA6}','\u{9BA1}','\u{9BA5}','\u{9BA4}',";
"    '\u{9B86}','\u{9BA2}','\u{9BA0}','\u{9BAF}','\u{9D33}','\u{9D41}','\u{9D67}','\u{9D36}',";
"    '\u{9D2E}','\u{9D2F}','\u{9D31}','\u{9D38}','\u{9D30}','\u{9D45}','\u{9D42}','\u{9D43}',";
"    '\u{9D3E}','\u{9D37}','\u{9D40}','\u{9D3D}','\u{7FF5}','\u{9D2D}','\u{9E8A}','\u{9E89}',";
"    '\u{9E8D}','\u{9EB0}','\u{9EC8}','\u{9EDA}','\u{9EFB}','\u{9EFF}','\u{9F24}','\u{9F23}',";
"    '\u{9F22}','\u{9F54}','\u{9FA0}','\u{5131}','\u{512D}','\u{512E}','\u{5698}','\u{569C}',";
"    '\u{5697}','\u{569A}','\u{569D}','\u{5699}','\u{5970}','\u{5B3C}','\u{5C69}','\u{5C6A}',";
"    '\u{5DC0}','\u{5E6D}','\u{5E6E}','\u{61D8}','\u{61DF}','\u{61ED}','\u{61EE}','\u{61F1}',";
"    '\u{61EA}','\u{61F0}','\u{61EB}','\u{61D6}','\u{61E9}','\u{64FF}','\u{6504}','\u{64FD}',";
"    '\u{64F8}','\u{6501}','\u{6503}','\u{64FC}','\u{6594}','\u{65DB}','\u{66DA}','\u{66DB}',";
"    '\u{66D8}','\u{6AC5}','\u{6AB9}','\u{6ABD}','\u{6AE1}','\u{6AC6}','\u{6ABA}','\u{6AB6}',";
"    '\u{6AB7}','\u{6AC7}','\u{6AB4}','\u{6AAD}','\u{6B5E}','\u{6BC9}','\u{6C0B}','\u{7007}',";
"    '\u{700C}','\u{700D}','\u{7001}','\u{7005}','\u{7014}','\u{700E}','\u{6FFF}','\u{7000}',";
"    '\u{6FFB}','\u{7026}','\u{6FFC}','\u{6FF7}','\u{700A}','\u{7201}','\u{71FF}','\u{71F9}',";
"    '\u{7203}','\u{71FD}','\u{7376}','\u{74B8}','\u{74C0}','\u{74B5}','\u{74C1}','\u{74BE}',";
"    '\u{74B6}','\u{74BB}','\u{74C2}','\u{7514}','\u{7513}','\u{765C}','\u{7664}','\u{7659}',";
"    '\u{7650}','\u{7653}','\u{7657}','\u{765A}','\u{76A6}','\u{76BD}','\u{76EC}','\u{77C2}',";
"    '\u{77BA}','\u{78FF}','\u{790C}','\u{7913}','\u{7914}','\u{7909}','\u{7910}','\u{7912}',";
"    '\u{7911}','\u{79AD}','\u{79AC}','\u{7A5F}','\u{7C1C}','\u{7C29}','\u{7C19}','\u{7C20}',";
"    '\u{7C1F}','\u{7C2D}','\u{7C1D}','\u{7C26}','\u{7C28}','\u{7C22}','\u{7C25}','\u{7C30}',";
"    '\u{7E5C}','\u{7E50}','\u{7E56}','\u{7E63}','\u{7E58}','\u{7E62}','\u{7E5F}','\u{7E51}',";
"    '\u{7E60}','\u{7E57}','\u{7E53}','\u{7FB5}','\u{7FB3}','\u{7FF7}','\u{7FF8}','\u{8075}',";
"    '\u{81D1}','\u{81D2}','\u{81D0}','\u{825F}','\u{825E}','\u{85B4}','\u{85C6}','\u{85C0}',";
"    '\u{85C3}','\u{85C2}','\u{85B3}','\u{85B5}','\u{85BD}','\u{85C7}','\u{85C4}','\u{85BF}',";
"    '\u{85CB}','\u{85CE}','\u{85C8}','\u{85C5}','\u{85B1}','\u{85B6}','\u{85D2}','\u{8624}',";
"    '\u{85B8}','\u{85B7}','\u{85BE}','\u{8669}','\u{87E7}','\u{87E6}','\u{87E2}','\u{87DB}',";
"    '\u{87EB}','\u{87EA}','\u{87E5}','\u{87DF}','\u{87F3}','\u{87E4}','\u{87D4}','\u{87DC}',";
"    '\u{87D3}','\u{87ED}','\u{87D8}','\u{87E3}','\u{87A4}','\u{87D7}','\u{87D9}','\u{8801}',";
"    '\u{87F4}','\u{87E8}','\u{87DD}','\u{8953}','\u{894B}','\u{894F}','\u{894C}','\u{8946}',";
"    '\u{8950}','\u{8951}','\u{8949}','\u{8B2A}','\u{8B27}','\u{8B23}','\u{8B33}','\u{8B30}',";
"    '\u{8B35}','\u{8B47}','\u{8B2F}','\u{8B3C}','\u{8B3E}','\u{8B31}','\u{8B25}','\u{8B37}',";
"    '\u{8B26}','\u{8B36}','\u{8B2E}','\u{8B24}','\u{8B3B}','\u{8B3D}','\u{8B3A}','\u{8C42}',";
"    '\u{8C75}','\u{8C99}','\u{8C98}','\u{8C97}','\u{8CFE}','\u{8D04}','\u{8D02}','\u{8D00}',";
"    '\u{8E5C}','\u{8E62}','\u{8E60}','\u{8E57}','\u{8E56}','\u{8E5E}','\u{8E65}','\u{8E67}',";
"    '\u{8E5B}','\u{8E5A}','\u{8E61}','\u{8E5D}','\u{8E69}','\u{8E54}','\u{8F46}','\u{8F47}',";
"    '\u{8F48}','\u{8F4B}','\u{9128}','\u{913A}','\u{913B}','\u{913E}','\u{91A8}','\u{91A5}',";
"    '\u{91A7}','\u{91AF}','\u{91AA}','\u{93B5}','\u{938C}','\u{9392}','\u{93B7}','\u{939B}',";
"    '\u{939D}','\u{9389}','\u{93A7}','\u{938E}','\u{93AA}','\u{939E}','\u{93A6}','\u{9395}',";
"    '\u{9388}','\u{9399}','\u{939F}','\u{938D}','\u{93B1}','\u{9391}','\u{93B2}','\u{93A4}',";
"    '\u{93A8}','\u{93B4}','\u{93A3}','\u{93A5}','\u{95D2}','\u{95D3}','\u{95D1}','\u{96B3}',";
"    '\u{96D7}','\u{96DA}','\u{5DC2}','\u{96DF}','\u{96D8}','\u{96DD}','\u{9723}','\u{9722}',";
"    '\u{9725}','\u{97AC}','\u{97AE}','\u{97A8}','\u{97AB}','\u{97A4}','\u{97AA}','\u{97A2}',";
"    '\u{97A5}','\u{97D7}','\u{97D9}','\u{97D6}','\u{97D8}','\u{97FA}','\u{9850}','\u{9851}',";
"    '\u{9852}','\u{98B8}','\u{9941}','\u{993C}','\u{993A}','\u{9A0F}','\u{9A0B}','\u{9A09}',";
"    '\u{9A0D}','\u{9A04}','\u{9A11}','\u{9A0A}','\u{9A05}','\u{9A07}','\u{9A06}','\u{9AC0}',";
"    '\u{9ADC}','\u{9B08}','\u{9B04}','\u{9B05}','\u{9B29}','\u{9B35}','\u{9B4A}','\u{9B4C}',";
"    '\u{9B4B}','\u{9BC7}','\u{9BC6}','\u{9BC3}','\u{9BBF}','\u{9BC1}','\u{9BB5}','\u{9BB8}',";
"    '\u{9BD3}','\u{9BB6}','\u{9BC4}','\u{9BB9}','\u{9BBD}','\u{9D5C}','\u{9D53}','\u{9D4F}',";
"    '\u{9D4A}','\u{9D5B}','\u{9D4B}','\u{9D59}','\u{9D56}','\u{9D4C}','\u{9D57}','\u{9D52}',";
"    '\u{9D54}','\u{9D5F}','\u{9D58}','\u{9D5A}','\u{9E8E}','\u{9E8C}','\u{9EDF}','\u{9F01}',";
"    '\u{9F00}','\u{9F16}','\u{9F25}','\u{9F2B}','\u{9F2A}','\u{9F29}','\u{9F28}','\u{9F4C}',";
"    '\u{9F55}','\u{5134}','\u{5135}','\u{5296}','\u{52F7}','\u{53B4}','\u{56AB}','\u{56AD}',";
"    '\u{56A6}','\u{56A7}','\u{56AA}','\u{56AC}','\u{58DA}','\u{58DD}','\u{58DB}','\u{5912}',";
"    '\u{5B3D}','\u{5B3E}','\u{5B3F}','\u{5DC3}','\u{5E70}','\u{5FBF}','\u{61FB}','\u{6507}',";
"    '\u{6510}','\u{650D}','\u{6509}','\u{650C}','\u{650E}','\u{6584}','\u{65DE}','\u{65DD}',";
"    '\u{66DE}','\u{6AE7}','\u{6AE0}','\u{6ACC}','\u{6AD1}','\u{6AD9}','\u{6ACB}','\u{6ADF}',";
"    '\u{6ADC}','\u{6AD0}','\u{6AEB}','\u{6ACF}','\u{6ACD}','\u{6ADE}','\u{6B60}','\u{6BB0}',";
"    '\u{6C0C}','\u{7019}','\u{7027}','\u{7020}','\u{7016}','\u{702B}','\u{7021}','\u{7022}',";
"    '\u{7023}','\u{7029}','\u{7017}','\u{7024}','\u{701C}','\u{702A}','\u{720C}','\u{720A}',";
"    '\u{7207}','\u{7202}','\u{7205}','\u{72A5}','\u{72A6}','\u{72A4}','\u{72A3}','\u{72A1}',";
"    '\u{74CB}','\u{74C5}','\u{74B7}','\u{74C3}','\u{7516}','\u{7660}','\u{77C9}','\u{77CA}',";
"    '\u{77C4}','\u{77F1}','\u{791D}','\u{791B}','\u{7921}','\u{791C}','\u{7917}','\u{791E}',";
"    '\u{79B0}','\u{7A67}','\u{7A68}','\u{7C33}','\u{7C3C}','\u{7C39}','\u{7C2C}','\u{7C3B}',";
"    '\u{7CEC}','\u{7CEA}','\u{7E76}','\u{7E75}','\u{7E78}','\u{7E70}','\u{7E77}','\u{7E6F}',";
"    '\u{7E7A}','\u{7E72}','\u{7E74}','\u{7E68}','\u{7F4B}','\u{7F4A}','\u{7F83}','\u{7F86}',";
"    '\u{7FB7}','\u{7FFD}','\u{7FFE}','\u{8078}','\u{81D7}','\u{81D5}','\u{8264}','\u{8261}',";
"    '\u{8263}','\u{85EB}','\u{85F1}','\u{85ED}','\u{85D9}','\u{85E1}','\u{85E8}','\u{85DA}',";
"    '\u{85D7}','\u{85EC}','\u{85F2}','\u{85F8}','\u{85D8}','\u{85DF}','\u{85E3}','\u{85DC}',";
"    '\u{85D1}','\u{85F0}','\u{85E6}','\u{85EF}','\u{85DE}','\u{85E2}','\u{8800}','\u{87FA}',";
"    '\u{8803}','\u{87F6}','\u{87F7}','\u{8809}','\u{880C}','\u{880B}','\u{8806}','\u{87FC}',";
"    '\u{8808}','\u{87FF}','\u{880A}','\u{8802}','\u{8962}','\u{895A}','\u{895B}','\u{8957}',";
"    '\u{8961}','\u{895C}','\u{8958}','\u{895D}','\u{8959}','\u{8988}','\u{89B7}','\u{89B6}',";
"    '\u{89F6}','\u{8B50}','\u{8B48}','\u{8B4A}','\u{8B40}','\u{8B53}','\u{8B56}','\u{8B54}',";
"    '\u{8B4B}','\u{8B55}','\u{8B51}','\u{8B42}','\u{8B52}','\u{8B57}','\u{8C43}','\u{8C77}',";
"    '\u{8C76}','\u{8C9A}','\u{8D06}','\u{8D07}','\u{8D09}','\u{8DAC}','\u{8DAA}','\u{8DAD}',";
"    '\u{8DAB}','\u{8E6D}','\u{8E78}','\u{8E73}','\u{8E6A}','\u{8E6F}','\u{8E7B}','\u{8EC2}',";
"    '\u{8F52}','\u{8F51}','\u{8F4F}','\u{8F50}','\u{8F53}','\u{8FB4}','\u{9140}','\u{913F}',";
"    '\u{91B0}','\u{91AD}','\u{93DE}','\u{93C7}','\u{93CF}','\u{93C2}','\u{93DA}','\u{93D0}',";
"    '\u{93F9}','\u{93EC}','\u{93CC}','\u{93D9}','\u{93A9}','\u{93E6}','\u{93CA}','\u{93D4}',";
"    '\u{93EE}','\u{93E3}','\u{93D5}','\u{93C4}','\u{93CE}','\u{93C0}','\u{93D2}','\u{93E7}',";
"    '\u{957D}','\u{95DA}','\u{95DB}','\u{96E1}','\u{9729}','\u{972B}','\u{972C}','\u{9728}',";
"    '\u{9726}','\u{97B3}','\u{97B7}','\u{97B6}','\u{97DD}','\u{97DE}','\u{97DF}','\u{985C}',";
"    '\u{9859}','\u{985D}','\u{9857}','\u{98BF}','\u{98BD}','\u{98BB}','\u{98BE}','\u{9948}',";
"    '\u{9947}','\u{9943}','\u{99A6}','\u{99A7}','\u{9A1A}','\u{9A15}','\u{9A25}','\u{9A1D}',";
"    '\u{9A24}','\u{9A1B}','\u{9A22}','\u{9A20}','\u{9A27}','\u{9A23}','\u{9A1E}','\u{9A1C}',";
"    '\u{9A14}','\u{9AC2}','\u{9B0B}','\u{9B0A}','\u{9B0E}','\u{9B0C}','\u{9B37}','\u{9BEA}',";
"    '\u{9BEB}','\u{9BE0}','\u{9BDE}','\u{9BE4}','\u{9BE6}','\u{9BE2}','\u{9BF0}','\u{9BD4}',";
"    '\u{9BD7}','\u{9BEC}','\u{9BDC}','\u{9BD9}','\u{9BE5}','\u{9BD5}','\u{9BE1}','\u{9BDA}',";
"    '\u{9D77}','\u{9D81}','\u{9D8A}','\u{9D84}','\u{9D88}','\u{9D71}','\u{9D80}','\u{9D78}',";
"    '\u{9D86}','\u{9D8B}','\u{9D8C}','\u{9D7D}','\u{9D6B}','\u{9D74}','\u{9D75}','\u{9D70}',";
"    '\u{9D69}','\u{9D85}','\u{9D73}','\u{9D7B}','\u{9D82}','\u{9D6F}','\u{9D79}','\u{9D7F}',";
"    '\u{9D87}','\u{9D68}','\u{9E94}','\u{9E91}','\u{9EC0}','\u{9EFC}','\u{9F2D}','\u{9F40}',";
"    '\u{9F41}','\u{9F4D}','\u{9F56}','\u{9F57}','\u{9F58}','\u{5337}','\u{56B2}','\u{56B5}',";
"    '\u{56B3}','\u{58E3}','\u{5B45}','\u{5DC6}','\u{5DC7}','\u{5EEE}','\u{5EEF}','\u{5FC0}',";
"    '\u{5FC1}','\u{61F9}','\u{6517}','\u{6516}','\u{6515}','\u{6513}','\u{65DF}','\u{66E8}',";
"    '\u{66E3}','\u{66E4}','\u{6AF3}','\u{6AF0}','\u{6AEA}','\u{6AE8}','\u{6AF9}','\u{6AF1}',";
"    '\u{6AEE}','\u{6AEF}','\u{703C}','\u{7035}','\u{702F}','\u{7037}','\u{7034}','\u{7031}',";
"    '\u{7042}','\u{7038}','\u{703F}','\u{703A}','\u{7039}','\u{7040}','\u{703B}','\u{7033}',";
"    '\u{7041}','\u{7213}','\u{7214}','\u{72A8}','\u{737D}','\u{737C}','\u{74BA}','\u{76AB}',";
"    '\u{76AA}','\u{76BE}','\u{76ED}','\u{77CC}','\u{77CE}','\u{77CF}','\u{77CD}','\u{77F2}',";
"    '\u{7925}','\u{7923}','\u{7927}','\u{7928}','\u{7924}','\u{7929}','\u{79B2}','\u{7A6E}',";
"    '\u{7A6C}','\u{7A6D}','\u{7AF7}','\u{7C49}','\u{7C48}','\u{7C4A}','\u{7C47}','\u{7C45}',";
"    '\u{7CEE}','\u{7E7B}','\u{7E7E}','\u{7E81}','\u{7E80}','\u{7FBA}','\u{7FFF}','\u{8079}',";
"    '\u{81DB}','\u{81D9}','\u{820B}','\u{8268}','\u{8269}','\u{8622}','\u{85FF}','\u{8601}',";
"    '\u{85FE}','\u{861B}','\u{8600}','\u{85F6}','\u{8604}','\u{8609}','\u{8605}','\u{860C}',";
"    '\u{85FD}','\u{8819}','\u{8810}','\u{8811}','\u{8817}','\u{8813}','\u{8816}','\u{8963}',";
"    '\u{8966}','\u{89B9}','\u{89F7}','\u{8B60}','\u{8B6A}','\u{8B5D}','\u{8B68}','\u{8B63}',";
"    '\u{8B65}','\u{8B67}','\u{8B6D}','\u{8DAE}','\u{8E86}','\u{8E88}','\u{8E84}','\u{8F59}',";
"    '\u{8F56}','\u{8F57}','\u{8F55}','\u{8F58}','\u{8F5A}','\u{908D}','\u{9143}','\u{9141}',";
"    '\u{91B7}','\u{91B5}','\u{91B2}','\u{91B3}','\u{940B}','\u{9413}','\u{93FB}','\u{9420}',";
"    '\u{940F}','\u{9414}','\u{93FE}','\u{9415}','\u{9410}','\u{9428}','\u{9419}','\u{940D}',";
"    '\u{93F5}','\u{9400}','\u{93F7}','\u{9407}','\u{940E}','\u{9416}','\u{9412}','\u{93FA}',";
"    '\u{9409}','\u{93F8}','\u{940A}','\u{93FF}','\u{93FC}','\u{940C}','\u{93F6}','\u{9411}',";
"    '\u{9406}','\u{95DE}','\u{95E0}','\u{95DF}','\u{972E}','\u{972F}','\u{97B9}','\u{97BB}',";
"    '\u{97FD}','\u{97FE}','\u{9860}','\u{9862}','\u{9863}','\u{985F}','\u{98C1}','\u{98C2}',";
"    '\u{9950}','\u{994E}','\u{9959}','\u{994C}','\u{994B}','\u{9953}','\u{9A32}','\u{9A34}',";
"    '\u{9A31}','\u{9A2C}','\u{9A2A}','\u{9A36}','\u{9A29}','\u{9A2E}','\u{9A38}','\u{9A2D}',";
"    '\u{9AC7}','\u{9ACA}','\u{9AC6}','\u{9B10}','\u{9B12}','\u{9B11}','\u{9C0B}','\u{9C08}',";
"    '\u{9BF7}','\u{9C05}','\u{9C12}','\u{9BF8}','\u{9C40}','\u{9C07}','\u{9C0E}','\u{9C06}',";
"    '\u{9C17}','\u{9C14}','\u{9C09}','\u{9D9F}','\u{9D99}','\u{9DA4}','\u{9D9D}','\u{9D92}',";
"    '\u{9D98}','\u{9D90}','\u{9D9B}','\u{9DA0}','\u{9D94}','\u{9D9C}','\u{9DAA}','\u{9D97}',";
"    '\u{9DA1}','\u{9D9A}','\u{9DA2}','\u{9DA8}','\u{9D9E}','\u{9DA3}','\u{9DBF}','\u{9DA9}',";
"    '\u{9D96}','\u{9DA6}','\u{9DA7}','\u{9E99}','\u{9E9B}','\u{9E9A}','\u{9EE5}','\u{9EE4}',";
"    '\u{9EE7}','\u{9EE6}','\u{9F30}','\u{9F2E}','\u{9F5B}','\u{9F60}','\u{9F5E}','\u{9F5D}',";
"    '\u{9F59}','\u{9F91}','\u{513A}','\u{5139}','\u{5298}','\u{5297}','\u{56C3}','\u{56BD}',";
"    '\u{56BE}','\u{5B48}','\u{5B47}','\u{5DCB}','\u{5DCF}','\u{5EF1}','\u{61FD}','\u{651B}',";
"    '\u{6B02}','\u{6AFC}','\u{6B03}','\u{6AF8}','\u{6B00}','\u{7043}','\u{7044}','\u{704A}',";
"    '\u{7048}','\u{7049}','\u{7045}','\u{7046}','\u{721D}','\u{721A}','\u{7219}','\u{737E}',";
"    '\u{7517}','\u{766A}','\u{77D0}','\u{792D}','\u{7931}','\u{792F}','\u{7C54}','\u{7C53}',";
"    '\u{7CF2}','\u{7E8A}','\u{7E87}','\u{7E88}','\u{7E8B}','\u{7E86}','\u{7E8D}','\u{7F4D}',";
"    '\u{7FBB}','\u{8030}','\u{81DD}','\u{8618}','\u{862A}','\u{8626}','\u{861F}','\u{8623}',";
"    '\u{861C}','\u{8619}','\u{8627}','\u{862E}','\u{8621}','\u{8620}','\u{8629}','\u{861E}',";
"    '\u{8625}','\u{8829}','\u{881D}','\u{881B}','\u{8820}','\u{8824}','\u{881C}','\u{882B}',";
"    '\u{884A}','\u{896D}','\u{8969}','\u{896E}','\u{896B}','\u{89FA}','\u{8B79}','\u{8B78}',";
"    '\u{8B45}','\u{8B7A}','\u{8B7B}','\u{8D10}','\u{8D14}','\u{8DAF}','\u{8E8E}','\u{8E8C}',";
"    '\u{8F5E}','\u{8F5B}','\u{8F5D}','\u{9146}','\u{9144}','\u{9145}','\u{91B9}','\u{943F}',"
].
(* /repo/src/generated/whatwg/big5_whatwg_tables.rs.inc:2305-2560 *)
Definition big5_inc_9 : list line := [
"    '\u{943B}','\u{9436}','\u{9429}','\u{943D}','\u{943C}','\u{9430}','\u{9439}','\u{942A}',";
"    '\u{9437}','\u{942C}','\u{9440}','\u{9431}','\u{95E5}','\u{95E4}','\u{95E3}','\u{9735}',";
"    '\u{973A}','\u{97BF}','\u{97E1}','\u{9864}','\u{98C9}','\u{98C6}','\u{98C0}','\u{9958}',";
"    '\u{9956}','\u{9A39}','\u{9A3D}','\u{9A46}','\u{9A44}','\u{9A42}','\u{9A41}','\u{9A3A}',";
"    '\u{9A3F}','\u{9ACD}','\u{9B15}','\u{9B17}','\u{9B18}','\u{9B16}','\u{9B3A}','\u{9B52}',";
"    '\u{9C2B}','\u{9C1D}','\u{9C1C}','\u{9C2C}','\u{9C23}','\u{9C28}','\u{9C29}','\u{9C24}',";
"    '\u{9C21}','\u{9DB7}','\u{9DB6}','\u{9DBC}','\u{9DC1}','\u{9DC7}','\u{9DCA}','\u{9DCF}',";
"    '\u{9DBE}','\u{9DC5}','\u{9DC3}','\u{9DBB}','\u{9DB5}','\u{9DCE}','\u{9DB9}','\u{9DBA}',";
"    '\u{9DAC}','\u{9DC8}','\u{9DB1}','\u{9DAD}','\u{9DCC}','\u{9DB3}','\u{9DCD}','\u{9DB2}',";
"    '\u{9E7A}','\u{9E9C}','\u{9EEB}','\u{9EEE}','\u{9EED}','\u{9F1B}','\u{9F18}','\u{9F1A}',";
"    '\u{9F31}','\u{9F4E}','\u{9F65}','\u{9F64}','\u{9F92}','\u{4EB9}','\u{56C6}','\u{56C5}',";
"    '\u{56CB}','\u{5971}','\u{5B4B}','\u{5B4C}','\u{5DD5}','\u{5DD1}','\u{5EF2}','\u{6521}',";
"    '\u{6520}','\u{6526}','\u{6522}','\u{6B0B}','\u{6B08}','\u{6B09}','\u{6C0D}','\u{7055}',";
"    '\u{7056}','\u{7057}','\u{7052}','\u{721E}','\u{721F}','\u{72A9}','\u{737F}','\u{74D8}',";
"    '\u{74D5}','\u{74D9}','\u{74D7}','\u{766D}','\u{76AD}','\u{7935}','\u{79B4}','\u{7A70}',";
"    '\u{7A71}','\u{7C57}','\u{7C5C}','\u{7C59}','\u{7C5B}','\u{7C5A}','\u{7CF4}','\u{7CF1}',";
"    '\u{7E91}','\u{7F4F}','\u{7F87}','\u{81DE}','\u{826B}','\u{8634}','\u{8635}','\u{8633}',";
"    '\u{862C}','\u{8632}','\u{8636}','\u{882C}','\u{8828}','\u{8826}','\u{882A}','\u{8825}',";
"    '\u{8971}','\u{89BF}','\u{89BE}','\u{89FB}','\u{8B7E}','\u{8B84}','\u{8B82}','\u{8B86}',";
"    '\u{8B85}','\u{8B7F}','\u{8D15}','\u{8E95}','\u{8E94}','\u{8E9A}','\u{8E92}','\u{8E90}',";
"    '\u{8E96}','\u{8E97}','\u{8F60}','\u{8F62}','\u{9147}','\u{944C}','\u{9450}','\u{944A}',";
"    '\u{944B}','\u{944F}','\u{9447}','\u{9445}','\u{9448}','\u{9449}','\u{9446}','\u{973F}',";
"    '\u{97E3}','\u{986A}','\u{9869}','\u{98CB}','\u{9954}','\u{995B}','\u{9A4E}','\u{9A53}',";
"    '\u{9A54}','\u{9A4C}','\u{9A4F}','\u{9A48}','\u{9A4A}','\u{9A49}','\u{9A52}','\u{9A50}',";
"    '\u{9AD0}','\u{9B19}','\u{9B2B}','\u{9B3B}','\u{9B56}','\u{9B55}','\u{9C46}','\u{9C48}',";
"    '\u{9C3F}','\u{9C44}','\u{9C39}','\u{9C33}','\u{9C41}','\u{9C3C}','\u{9C37}','\u{9C34}',";
"    '\u{9C32}','\u{9C3D}','\u{9C36}','\u{9DDB}','\u{9DD2}','\u{9DDE}','\u{9DDA}','\u{9DCB}',";
"    '\u{9DD0}','\u{9DDC}','\u{9DD1}','\u{9DDF}','\u{9DE9}','\u{9DD9}','\u{9DD8}','\u{9DD6}',";
"    '\u{9DF5}','\u{9DD5}','\u{9DDD}','\u{9EB6}','\u{9EF0}','\u{9F35}','\u{9F33}','\u{9F32}',";
"    '\u{9F42}','\u{9F6B}','\u{9F95}','\u{9FA2}','\u{513D}','\u{5299}','\u{58E8}','\u{58E7}',";
"    '\u{5972}','\u{5B4D}','\u{5DD8}','\u{882F}','\u{5F4F}','\u{6201}','\u{6203}','\u{6204}',";
"    '\u{6529}','\u{6525}','\u{6596}','\u{66EB}','\u{6B11}','\u{6B12}','\u{6B0F}','\u{6BCA}',";
"    '\u{705B}','\u{705A}','\u{7222}','\u{7382}','\u{7381}','\u{7383}','\u{7670}','\u{77D4}',";
"    '\u{7C67}','\u{7C66}','\u{7E95}','\u{826C}','\u{863A}','\u{8640}','\u{8639}','\u{863C}',";
"    '\u{8631}','\u{863B}','\u{863E}','\u{8830}','\u{8832}','\u{882E}','\u{8833}','\u{8976}',";
"    '\u{8974}','\u{8973}','\u{89FE}','\u{8B8C}','\u{8B8E}','\u{8B8B}','\u{8B88}','\u{8C45}',";
"    '\u{8D19}','\u{8E98}','\u{8F64}','\u{8F63}','\u{91BC}','\u{9462}','\u{9455}','\u{945D}',";
"    '\u{9457}','\u{945E}','\u{97C4}','\u{97C5}','\u{9800}','\u{9A56}','\u{9A59}','\u{9B1E}',";
"    '\u{9B1F}','\u{9B20}','\u{9C52}','\u{9C58}','\u{9C50}','\u{9C4A}','\u{9C4D}','\u{9C4B}',";
"    '\u{9C55}','\u{9C59}','\u{9C4C}','\u{9C4E}','\u{9DFB}','\u{9DF7}','\u{9DEF}','\u{9DE3}',";
"    '\u{9DEB}','\u{9DF8}','\u{9DE4}','\u{9DF6}','\u{9DE1}','\u{9DEE}','\u{9DE6}','\u{9DF2}',";
"    '\u{9DF0}','\u{9DE2}','\u{9DEC}','\u{9DF4}','\u{9DF3}','\u{9DE8}','\u{9DED}','\u{9EC2}',";
"    '\u{9ED0}','\u{9EF2}','\u{9EF3}','\u{9F06}','\u{9F1C}','\u{9F38}','\u{9F37}','\u{9F36}',";
"    '\u{9F43}','\u{9F4F}','\u{9F71}','\u{9F70}','\u{9F6E}','\u{9F6F}','\u{56D3}','\u{56CD}',";
"    '\u{5B4E}','\u{5C6D}','\u{652D}','\u{66ED}','\u{66EE}','\u{6B13}','\u{705F}','\u{7061}',";
"    '\u{705D}','\u{7060}','\u{7223}','\u{74DB}','\u{74E5}','\u{77D5}','\u{7938}','\u{79B7}',";
"    '\u{79B6}','\u{7C6A}','\u{7E97}','\u{7F89}','\u{826D}','\u{8643}','\u{8838}','\u{8837}',";
"    '\u{8835}','\u{884B}','\u{8B94}','\u{8B95}','\u{8E9E}','\u{8E9F}','\u{8EA0}','\u{8E9D}',";
"    '\u{91BE}','\u{91BD}','\u{91C2}','\u{946B}','\u{9468}','\u{9469}','\u{96E5}','\u{9746}',";
"    '\u{9743}','\u{9747}','\u{97C7}','\u{97E5}','\u{9A5E}','\u{9AD5}','\u{9B59}','\u{9C63}',";
"    '\u{9C67}','\u{9C66}','\u{9C62}','\u{9C5E}','\u{9C60}','\u{9E02}','\u{9DFE}','\u{9E07}',";
"    '\u{9E03}','\u{9E06}','\u{9E05}','\u{9E00}','\u{9E01}','\u{9E09}','\u{9DFF}','\u{9DFD}',";
"    '\u{9E04}','\u{9EA0}','\u{9F1E}','\u{9F46}','\u{9F74}','\u{9F75}','\u{9F76}','\u{56D4}',";
"    '\u{652E}','\u{65B8}','\u{6B18}','\u{6B19}','\u{6B17}','\u{6B1A}','\u{7062}','\u{7226}',";
"    '\u{72AA}','\u{77D8}','\u{77D9}','\u{7939}','\u{7C69}','\u{7C6B}','\u{7CF6}','\u{7E9A}',";
"    '\u{7E98}','\u{7E9B}','\u{7E99}','\u{81E0}','\u{81E1}','\u{8646}','\u{8647}','\u{8648}',";
"    '\u{8979}','\u{897A}','\u{897C}','\u{897B}','\u{89FF}','\u{8B98}','\u{8B99}','\u{8EA5}',";
"    '\u{8EA4}','\u{8EA3}','\u{946E}','\u{946D}','\u{946F}','\u{9471}','\u{9473}','\u{9749}',";
"    '\u{9872}','\u{995F}','\u{9C68}','\u{9C6E}','\u{9C6D}','\u{9E0B}','\u{9E0D}','\u{9E10}',";
"    '\u{9E0F}','\u{9E12}','\u{9E11}','\u{9EA1}','\u{9EF5}','\u{9F09}','\u{9F47}','\u{9F78}',";
"    '\u{9F7B}','\u{9F7A}','\u{9F79}','\u{571E}','\u{7066}','\u{7C6F}','\u{883C}','\u{8DB2}',";
"    '\u{8EA6}','\u{91C3}','\u{9474}','\u{9478}','\u{9476}','\u{9475}','\u{9A60}','\u{9C74}',";
"    '\u{9C73}','\u{9C71}','\u{9C75}','\u{9E14}','\u{9E13}','\u{9EF6}','\u{9F0A}','\u{9FA4}',";
"    '\u{7068}','\u{7065}','\u{7CF7}','\u{866A}','\u{883E}','\u{883D}','\u{883F}','\u{8B9E}',";
"    '\u{8C9C}','\u{8EA9}','\u{8EC9}','\u{974B}','\u{9873}','\u{9874}','\u{98CC}','\u{9961}',";
"    '\u{99AB}','\u{9A64}','\u{9A66}','\u{9A67}','\u{9B24}','\u{9E15}','\u{9E17}','\u{9F48}',";
"    '\u{6207}','\u{6B1E}','\u{7227}','\u{864C}','\u{8EA8}','\u{9482}','\u{9480}','\u{9481}',";
"    '\u{9A69}','\u{9A68}','\u{9B2E}','\u{9E19}','\u{7229}','\u{864B}','\u{8B9F}','\u{9483}',";
"    '\u{9C79}','\u{9EB7}','\u{7675}','\u{9A6B}','\u{9C7A}','\u{9E1D}','\u{7069}','\u{706A}',";
"    '\u{9EA4}','\u{9F7E}','\u{9F49}','\u{9F98}','\u{7881}','\u{92B9}','\u{88CF}','\u{58BB}',";
"    '\u{6052}','\u{7CA7}','\u{5AFA}','\u{2554}','\u{2566}','\u{2557}','\u{2560}','\u{256C}',";
"    '\u{2563}','\u{255A}','\u{2569}','\u{255D}','\u{2552}','\u{2564}','\u{2555}','\u{255E}',";
"    '\u{256A}','\u{2561}','\u{2558}','\u{2567}','\u{255B}','\u{2553}','\u{2565}','\u{2556}',";
"    '\u{255F}','\u{256B}','\u{2562}','\u{2559}','\u{2568}','\u{255C}','\u{2551}','\u{2550}',";
"    '\u{256D}','\u{256E}','\u{2570}','\u{256F}','\u{FFED}','\u{20547}','\u{92DB}','\u{205DF}',";
"    '\u{23FC5}','\u{854C}','\u{42B5}','\u{73EF}','\u{51B5}','\u{3649}','\u{24942}','\u{289E4}',";
"    '\u{9344}','\u{219DB}','\u{82EE}','\u{23CC8}','\u{783C}','\u{6744}','\u{62DF}','\u{24933}',";
"    '\u{289AA}','\u{202A0}','\u{26BB3}','\u{21305}','\u{4FAB}','\u{224ED}','\u{5008}','\u{26D29}',";
"    '\u{27A84}','\u{23600}','\u{24AB1}','\u{22513}','\u{5029}','\u{2037E}','\u{5FA4}','\u{20380}',";
"    '\u{20347}','\u{6EDB}','\u{2041F}','\u{507D}','\u{5101}','\u{347A}','\u{510E}','\u{986C}',";
"    '\u{3743}','\u{8416}','\u{249A4}','\u{20487}','\u{5160}','\u{233B4}','\u{516A}','\u{20BFF}',";
"    '\u{220FC}','\u{202E5}','\u{22530}','\u{2058E}','\u{23233}','\u{21983}','\u{5B82}','\u{877D}',";
"    '\u{205B3}','\u{23C99}','\u{51B2}','\u{51B8}','\u{9D34}','\u{51C9}','\u{51CF}','\u{51D1}',";
"    '\u{3CDC}','\u{51D3}','\u{24AA6}','\u{51B3}','\u{51E2}','\u{5342}','\u{51ED}','\u{83CD}',";
"    '\u{693E}','\u{2372D}','\u{5F7B}','\u{520B}','\u{5226}','\u{523C}','\u{52B5}','\u{5257}',";
"    '\u{5294}','\u{52B9}','\u{52C5}','\u{7C15}','\u{8542}','\u{52E0}','\u{860D}','\u{26B13}',";
"    '\u{5305}','\u{28ADE}','\u{5549}','\u{6ED9}','\u{23F80}','\u{20954}','\u{23FEC}','\u{5333}',";
"    '\u{5344}','\u{20BE2}','\u{6CCB}','\u{21726}','\u{681B}','\u{73D5}','\u{604A}','\u{3EAA}',";
"    '\u{38CC}','\u{216E8}','\u{71DD}','\u{44A2}','\u{536D}','\u{5374}','\u{286AB}','\u{537E}',";
"    '\u{537F}','\u{21596}','\u{21613}','\u{77E6}','\u{5393}','\u{28A9B}','\u{53A0}','\u{53AB}',";
"    '\u{53AE}','\u{73A7}','\u{25772}','\u{3F59}','\u{739C}','\u{53C1}','\u{53C5}','\u{6C49}',";
"    '\u{4E49}','\u{57FE}','\u{53D9}','\u{3AAB}','\u{20B8F}','\u{53E0}','\u{23FEB}','\u{22DA3}',";
"    '\u{53F6}','\u{20C77}','\u{5413}','\u{7079}','\u{552B}','\u{6657}','\u{6D5B}','\u{546D}',";
"    '\u{26B53}','\u{20D74}','\u{555D}','\u{548F}','\u{54A4}','\u{47A6}','\u{2170D}','\u{20EDD}',";
"    '\u{3DB4}','\u{20D4D}','\u{289BC}','\u{22698}','\u{5547}','\u{4CED}','\u{542F}','\u{7417}',";
"    '\u{5586}','\u{55A9}','\u{5605}','\u{218D7}','\u{2403A}','\u{4552}','\u{24435}','\u{66B3}',";
"    '\u{210B4}','\u{5637}','\u{66CD}','\u{2328A}','\u{66A4}','\u{66AD}','\u{564D}','\u{564F}',";
"    '\u{78F1}','\u{56F1}','\u{9787}','\u{53FE}','\u{5700}','\u{56EF}','\u{56ED}','\u{28B66}',";
"    '\u{3623}','\u{2124F}','\u{5746}','\u{241A5}','\u{6C6E}','\u{708B}','\u{5742}','\u{36B1}',";
"    '\u{26C7E}','\u{57E6}','\u{21416}','\u{5803}','\u{21454}','\u{24363}','\u{5826}','\u{24BF5}',";
"    '\u{585C}','\u{58AA}','\u{3561}','\u{58E0}','\u{58DC}','\u{2123C}','\u{58FB}','\u{5BFF}',";
"    '\u{5743}','\u{2A150}','\u{24278}','\u{93D3}','\u{35A1}','\u{591F}','\u{68A6}','\u{36C3}',";
"    '\u{6E59}','\u{2163E}','\u{5A24}','\u{5553}','\u{21692}','\u{8505}','\u{59C9}','\u{20D4E}',";
"    '\u{26C81}','\u{26D2A}','\u{217DC}','\u{59D9}','\u{217FB}','\u{217B2}','\u{26DA6}','\u{6D71}',";
"    '\u{21828}','\u{216D5}','\u{59F9}','\u{26E45}','\u{5AAB}','\u{5A63}','\u{36E6}','\u{249A9}',";
"    '\u{5A77}','\u{3708}','\u{5A96}','\u{7465}','\u{5AD3}','\u{26FA1}','\u{22554}','\u{3D85}',";
"    '\u{21911}','\u{3732}','\u{216B8}','\u{5E83}','\u{52D0}','\u{5B76}','\u{6588}','\u{5B7C}',";
"    '\u{27A0E}','\u{4004}','\u{485D}','\u{20204}','\u{5BD5}','\u{6160}','\u{21A34}','\u{259CC}',";
"    '\u{205A5}','\u{5BF3}','\u{5B9D}','\u{4D10}','\u{5C05}','\u{21B44}','\u{5C13}','\u{73CE}',";
"    '\u{5C14}','\u{21CA5}','\u{26B28}','\u{5C49}','\u{48DD}','\u{5C85}','\u{5CE9}','\u{5CEF}',";
"    '\u{5D8B}','\u{21DF9}','\u{21E37}','\u{5D10}','\u{5D18}','\u{5D46}','\u{21EA4}','\u{5CBA}',";
"    '\u{5DD7}','\u{82FC}','\u{382D}','\u{24901}','\u{22049}','\u{22173}','\u{8287}','\u{3836}',";
"    '\u{3BC2}','\u{5E2E}','\u{6A8A}','\u{5E75}','\u{5E7A}','\u{244BC}','\u{20CD3}','\u{53A6}',";
"    '\u{4EB7}','\u{5ED0}','\u{53A8}','\u{21771}','\u{5E09}','\u{5EF4}','\u{28482}','\u{5EF9}',";
"    '\u{5EFB}','\u{38A0}','\u{5EFC}','\u{683E}','\u{941B}','\u{5F0D}','\u{201C1}','\u{2F894}',";
"    '\u{3ADE}','\u{48AE}','\u{2133A}','\u{5F3A}','\u{26888}','\u{223D0}','\u{5F58}','\u{22471}',";
"    '\u{5F63}','\u{97BD}','\u{26E6E}','\u{5F72}','\u{9340}','\u{28A36}','\u{5FA7}','\u{5DB6}',";
"    '\u{3D5F}','\u{25250}','\u{21F6A}','\u{270F8}','\u{22668}','\u{91D6}','\u{2029E}','\u{28A29}',";
"    '\u{6031}','\u{6685}','\u{21877}','\u{3963}','\u{3DC7}','\u{3639}','\u{5790}','\u{227B4}',";
"    '\u{7971}','\u{3E40}','\u{609E}','\u{60A4}','\u{60B3}','\u{24982}','\u{2498F}','\u{27A53}',";
"    '\u{74A4}','\u{50E1}','\u{5AA0}','\u{6164}','\u{8424}','\u{6142}','\u{2F8A6}','\u{26ED2}',";
"    '\u{6181}','\u{51F4}','\u{20656}','\u{6187}','\u{5BAA}','\u{23FB7}','\u{2285F}','\u{61D3}',";
"    '\u{28B9D}','\u{2995D}','\u{61D0}','\u{3932}','\u{22980}','\u{228C1}','\u{6023}','\u{615C}',";
"    '\u{651E}','\u{638B}','\u{20118}','\u{62C5}','\u{21770}','\u{62D5}','\u{22E0D}','\u{636C}',";
"    '\u{249DF}','\u{3A17}','\u{6438}','\u{63F8}','\u{2138E}','\u{217FC}','\u{6490}','\u{6F8A}',";
"    '\u{22E36}','\u{9814}','\u{2408C}','\u{2571D}','\u{64E1}','\u{64E5}','\u{947B}','\u{3A66}',";
"    '\u{643A}','\u{3A57}','\u{654D}','\u{6F16}','\u{24A28}','\u{24A23}','\u{6585}','\u{656D}',";
"    '\u{655F}','\u{2307E}','\u{65B5}','\u{24940}','\u{4B37}','\u{65D1}','\u{40D8}','\u{21829}',";
"    '\u{65E0}','\u{65E3}','\u{5FDF}','\u{23400}','\u{6618}','\u{231F7}','\u{231F8}','\u{6644}',";
"    '\u{231A4}','\u{231A5}','\u{664B}','\u{20E75}','\u{6667}','\u{251E6}','\u{6673}','\u{6674}',";
"    '\u{21E3D}','\u{23231}','\u{285F4}','\u{231C8}','\u{25313}','\u{77C5}','\u{228F7}','\u{99A4}',";
"    '\u{6702}','\u{2439C}','\u{24A21}','\u{3B2B}','\u{69FA}','\u{237C2}','\u{675E}','\u{6767}',";
"    '\u{6762}','\u{241CD}','\u{290ED}','\u{67D7}','\u{44E9}','\u{6822}','\u{6E50}','\u{923C}',";
"    '\u{6801}','\u{233E6}','\u{26DA0}','\u{685D}','\u{2346F}','\u{69E1}','\u{6A0B}','\u{28ADF}',";
"    '\u{6973}','\u{68C3}','\u{235CD}','\u{6901}','\u{6900}','\u{3D32}','\u{3A01}','\u{2363C}',";
"    '\u{3B80}','\u{67AC}','\u{6961}','\u{28A4A}','\u{42FC}','\u{6936}','\u{6998}','\u{3BA1}',";
"    '\u{203C9}','\u{8363}','\u{5090}','\u{69F9}','\u{23659}','\u{2212A}','\u{6A45}','\u{23703}',";
"    '\u{6A9D}','\u{3BF3}','\u{67B1}','\u{6AC8}','\u{2919C}','\u{3C0D}','\u{6B1D}','\u{20923}',";
"    '\u{60DE}','\u{6B35}','\u{6B74}','\u{227CD}','\u{6EB5}','\u{23ADB}','\u{203B5}','\u{21958}',";
"    '\u{3740}','\u{5421}','\u{23B5A}','\u{6BE1}','\u{23EFC}','\u{6BDC}','\u{6C37}','\u{2248B}',";
"    '\u{248F1}','\u{26B51}','\u{6C5A}','\u{8226}','\u{6C79}','\u{23DBC}','\u{44C5}','\u{23DBD}',";
"    '\u{241A4}','\u{2490C}','\u{24900}','\u{23CC9}','\u{36E5}','\u{3CEB}','\u{20D32}','\u{9B83}',";
"    '\u{231F9}','\u{22491}','\u{7F8F}','\u{6837}','\u{26D25}','\u{26DA1}','\u{26DEB}','\u{6D96}',";
"    '\u{6D5C}','\u{6E7C}','\u{6F04}','\u{2497F}','\u{24085}','\u{26E72}','\u{8533}','\u{26F74}',";
"    '\u{51C7}','\u{6C9C}','\u{6E1D}','\u{842E}','\u{28B21}','\u{6E2F}','\u{23E2F}','\u{7453}',";
"    '\u{23F82}','\u{79CC}','\u{6E4F}','\u{5A91}','\u{2304B}','\u{6FF8}','\u{370D}','\u{6F9D}',";
"    '\u{23E30}','\u{6EFA}','\u{21497}','\u{2403D}','\u{4555}','\u{93F0}','\u{6F44}','\u{6F5C}',";
"    '\u{3D4E}','\u{6F74}','\u{29170}','\u{3D3B}','\u{6F9F}','\u{24144}','\u{6FD3}','\u{24091}',";
"    '\u{24155}','\u{24039}','\u{23FF0}','\u{23FB4}','\u{2413F}','\u{51DF}','\u{24156}','\u{24157}',";
"    '\u{24140}','\u{261DD}','\u{704B}','\u{707E}','\u{70A7}','\u{7081}','\u{70CC}','\u{70D5}',";
"    '\u{70D6}','\u{70DF}','\u{4104}','\u{3DE8}','\u{71B4}','\u{7196}','\u{24277}','\u{712B}',";
"    '\u{7145}','\u{5A88}','\u{714A}','\u{716E}','\u{5C9C}','\u{24365}','\u{714F}','\u{9362}',";
"    '\u{242C1}','\u{712C}','\u{2445A}','\u{24A27}','\u{24A22}','\u{71BA}','\u{28BE8}','\u{70BD}',";
"    '\u{720E}','\u{9442}','\u{7215}','\u{5911}','\u{9443}','\u{7224}','\u{9341}','\u{25605}',";
"    '\u{722E}','\u{7240}','\u{24974}','\u{68BD}','\u{7255}','\u{7257}','\u{3E55}','\u{23044}',";
"    '\u{680D}','\u{6F3D}','\u{7282}','\u{732A}','\u{732B}','\u{24823}','\u{2882B}','\u{48ED}',";
"    '\u{28804}','\u{7328}','\u{732E}','\u{73CF}','\u{73AA}','\u{20C3A}','\u{26A2E}','\u{73C9}',";
"    '\u{7449}','\u{241E2}','\u{216E7}','\u{24A24}','\u{6623}','\u{36C5}','\u{249B7}','\u{2498D}',";
"    '\u{249FB}','\u{73F7}','\u{7415}','\u{6903}','\u{24A26}','\u{7439}','\u{205C3}','\u{3ED7}',";
"    '\u{745C}','\u{228AD}','\u{7460}','\u{28EB2}','\u{7447}','\u{73E4}','\u{7476}','\u{83B9}',";
"    '\u{746C}','\u{3730}','\u{7474}','\u{93F1}','\u{6A2C}','\u{7482}','\u{4953}','\u{24A8C}',";
"    '\u{2415F}','\u{24A79}','\u{28B8F}','\u{5B46}','\u{28C03}','\u{2189E}','\u{74C8}','\u{21988}',";
"    '\u{750E}','\u{74E9}','\u{751E}','\u{28ED9}','\u{21A4B}','\u{5BD7}','\u{28EAC}','\u{9385}',";
"    '\u{754D}','\u{754A}','\u{7567}','\u{756E}','\u{24F82}','\u{3F04}','\u{24D13}','\u{758E}',";
"    '\u{745D}','\u{759E}','\u{75B4}','\u{7602}','\u{762C}','\u{7651}','\u{764F}','\u{766F}',";
"    '\u{7676}','\u{263F5}','\u{7690}','\u{81EF}','\u{37F8}','\u{26911}','\u{2690E}','\u{76A1}',";
"    '\u{76A5}','\u{76B7}','\u{76CC}','\u{26F9F}','\u{8462}','\u{2509D}','\u{2517D}','\u{21E1C}',";
"    '\u{771E}','\u{7726}','\u{7740}','\u{64AF}','\u{25220}','\u{7758}','\u{232AC}','\u{77AF}',";
"    '\u{28964}','\u{28968}','\u{216C1}','\u{77F4}','\u{7809}','\u{21376}','\u{24A12}','\u{68CA}',";
"    '\u{78AF}','\u{78C7}','\u{78D3}','\u{96A5}','\u{792E}','\u{255E0}','\u{78D7}','\u{7934}',";
"    '\u{78B1}','\u{2760C}','\u{8FB8}','\u{8884}','\u{28B2B}','\u{26083}','\u{2261C}','\u{7986}',";
"    '\u{8900}','\u{6902}','\u{7980}','\u{25857}','\u{799D}','\u{27B39}','\u{793C}','\u{79A9}',";
"    '\u{6E2A}','\u{27126}','\u{3EA8}','\u{79C6}','\u{2910D}','\u{79D4}',";
"];";
"";
"const ENCODE_TABLE: [(char, [u8; 2]); 18490] = [";
"    ('\u{A7}', [0xA1, 0xB1]), ('\u{A8}', [0xC6, 0xD8]), ('\u{AF}', [0xA1, 0xC2]), ";
"    ('\u{B0}', [0xA2, 0x58]), ('\u{B1}', [0xA1, 0xD3]), ('\u{B7}', [0xA1, 0x50]), ";
"    ('\u{C0}', [0x88, 0x59]), ('\u{C1}', [0x88, 0x57]), ('\u{C8}', [0x88, 0x5D]), ";
"    ('\u{C9}', [0x88, 0x5B]), ('\u{CA}', [0x88, 0x66]), ('\u{D2}', [0x88, 0x61]), ";
"    ('\u{D3}', [0x88, 0x5F]), ('\u{D7}', [0xA1, 0xD1]), ('\u{E0}', [0x88, 0x6A]), ";
"    ('\u{E1}', [0x88, 0x68]), ('\u{E8}', [0x88, 0x6F]), ('\u{E9}', [0x88, 0x6D]), ";
"    ('\u{EA}', [0x88, 0xA7]), ('\u{EC}', [0x88, 0x73]), ('\u{ED}', [0x88, 0x71]), ";
"    ('\u{F2}', [0x88, 0x77]), ('\u{F3}', [0x88, 0x75]), ('\u{F7}', [0xA1, 0xD2]), ";
"    ('\u{F8}', [0xC8, 0xFB]), ('\u{F9}', [0x88, 0x7B]), ('\u{FA}', [0x88, 0x79]), ";
"    ('\u{FC}', [0x88, 0xA2]), ('\u{100}', [0x88, 0x56]), ('\u{101}', [0x88, 0x67]), ";
"    ('\u{112}', [0x88, 0x5A]), ('\u{113}', [0x88, 0x6C]), ('\u{11A}', [0x88, 0x5C]), ";
"    ('\u{11B}', [0x88, 0x6E]), ('\u{12B}', [0x88, 0x70]), ('\u{14B}', [0xC8, 0xFC]), ";
"    ('\u{14C}', [0x88, 0x5E]), ('\u{14D}', [0x88, 0x74]), ('\u{153}', [0xC8, 0xFA]), ";
"    ('\u{16B}', [0x88, 0x78]), ('\u{1CD}', [0x88, 0x58]), ('\u{1CE}', [0x88, 0x69]), ";
"    ('\u{1D0}', [0x88, 0x72]), ('\u{1D1}', [0x88, 0x60]), ('\u{1D2}', [0x88, 0x76]), ";
"    ('\u{1D4}', [0x88, 0x7A]), ('\u{1D6}', [0x88, 0x7C]), ('\u{1D8}', [0x88, 0x7D]), ";
"    ('\u{1DA}', [0x88, 0x7E]), ('\u{1DC}', [0x88, 0xA1]), ('\u{250}', [0xC8, 0xF6]), ";
"    ('\u{251}', [0x88, 0x6B]), ('\u{254}', [0xC8, 0xF8]), ('\u{25B}', [0xC8, 0xF7]), ";
"    ('\u{261}', [0x88, 0xA8]), ('\u{26A}', [0xC8, 0xFE]), ('\u{275}', [0xC8, 0xF9]), ";
"    ('\u{283}', [0xC8, 0xF5]), ('\u{28A}', [0xC8, 0xFD]), ('\u{2C6}', [0xC6, 0xD9]), ";
"    ('\u{2C7}', [0xA3, 0xBE]), ('\u{2C9}', [0xA3, 0xBC]), ('\u{2CA}', [0xA3, 0xBD]), ";
"    ('\u{2CB}', [0xA3, 0xBF]), ('\u{2CD}', [0xA1, 0xC5]), ('\u{2D9}', [0xA3, 0xBB]), ";
"    ('\u{391}', [0xA3, 0x44]), ('\u{392}', [0xA3, 0x45]), ('\u{393}', [0xA3, 0x46]), ";
"    ('\u{394}', [0xA3, 0x47]), ('\u{395}', [0xA3, 0x48]), ('\u{396}', [0xA3, 0x49]), ";
"    ('\u{397}', [0xA3, 0x4A]), ('\u{398}', [0xA3, 0x4B]), ('\u{399}', [0xA3, 0x4C]), ";
"    ('\u{39A}', [0xA3, 0x4D]), ('\u{39B}', [0xA3, 0x4E]), ('\u{39C}', [0xA3, 0x4F]), ";
"    ('\u{39D}', [0xA3, 0x50]), ('\u{39E}', [0xA3, 0x51]), ('\u{39F}', [0xA3, 0x52]), ";
"    ('\u{3A0}', [0xA3, 0x53]), ('\u{3A1}', [0xA3, 0x54]), ('\u{3A3}', [0xA3, 0x55]), ";
"    ('\u{3A4}', [0xA3, 0x56]), ('\u{3A5}', [0xA3, 0x57]), ('\u{3A6}', [0xA3, 0x58]), ";
"    ('\u{3A7}', [0xA3, 0x59]), ('\u{3A8}', [0xA3, 0x5A]), ('\u{3A9}', [0xA3, 0x5B]), ";
"    ('\u{3B1}', [0xA3, 0x5C]), ('\u{3B2}', [0xA3, 0x5D]), ('\u{3B3}', [0xA3, 0x5E]), ";
"    ('\u{3B4}', [0xA3, 0x5F]), ('\u{3B5}', [0xA3, 0x60]), ('\u{3B6}', [0xA3, 0x61]), ";
"    ('\u{3B7}', [0xA3, 0x62]), ('\u{3B8}', [0xA3, 0x63]), ('\u{3B9}', [0xA3, 0x64]), ";
"    ('\u{3BA}', [0xA3, 0x65]), ('\u{3BB}', [0xA3, 0x66]), ('\u{3BC}', [0xA3, 0x67]), ";
"    ('\u{3BD}', [0xA3, 0x68]), ('\u{3BE}', [0xA3, 0x69]), ('\u{3BF}', [0xA3, 0x6A]), ";
"    ('\u{3C0}', [0xA3, 0x6B]), ('\u{3C1}', [0xA3, 0x6C]), ('\u{3C3}', [0xA3, 0x6D]), ";
"    ('\u{3C4}', [0xA3, 0x6E]), ('\u{3C5}', [0xA3, 0x6F]), ('\u{3C6}', [0xA3, 0x70]), ";
"    ('\u{3C7}', [0xA3, 0x71]), ('\u{3C8}', [0xA3, 0x72]), ('\u{3C9}', [0xA3, 0x73]), ";
"    ('\u{401}', [0xC7, 0xF9]), ('\u{410}', [0xC7, 0xF3]), ('\u{411}', [0xC7, 0xF4]), ";
"    ('\u{412}', [0xC7, 0xF5]), ('\u{413}', [0xC7, 0xF6]), ('\u{414}', [0xC7, 0xF7]), ";
"    ('\u{415}', [0xC7, 0xF8]), ('\u{416}', [0xC7, 0xFA]), ('\u{417}', [0xC7, 0xFB]), ";
"    ('\u{418}', [0xC7, 0xFC]), ('\u{419}', [0xC7, 0xFD]), ('\u{41A}', [0xC7, 0xFE]), ";
"    ('\u{41B}', [0xC8, 0x40]), ('\u{41C}', [0xC8, 0x41]), ('\u{41D}', [0xC8, 0x42]), ";
"    ('\u{41E}', [0xC8, 0x43]), ('\u{41F}', [0xC8, 0x44]), ('\u{420}', [0xC8, 0x45]), ";
"    ('\u{421}', [0xC8, 0x46]), ('\u{422}', [0xC8, 0x47]), ('\u{423}', [0xC8, 0x48]), ";
"    ('\u{424}', [0xC8, 0x49]), ('\u{425}', [0xC8, 0x4A]), ('\u{426}', [0xC8, 0x4B]), ";
"    ('\u{427}', [0xC8, 0x4C]), ('\u{428}', [0xC8, 0x4D]), ('\u{429}', [0xC8, 0x4E]), ";
"    ('\u{42A}', [0xC8, 0x4F]), ('\u{42B}', [0xC8, 0x50]), ('\u{42C}', [0xC8, 0x51]), ";
"    ('\u{42D}', [0xC8, 0x52]), ('\u{42E}', [0xC8, 0x53]), ('\u{42F}', [0xC8, 0x54]), ";
"    ('\u{430}', [0xC8, 0x55]), ('\u{431}', [0xC8, 0x56]), ('\u{432}', [0xC8, 0x57]), ";
"    ('\u{433}', [0xC8, 0x58]), ('\u{434}', [0xC8, 0x59]), ('\u{435}', [0xC8, 0x5A]), ";
"    ('\u{436}', [0xC8, 0x5C]), ('\u{437}', [0xC8, 0x5D]), ('\u{438}', [0xC8, 0x5E]), ";
"    ('\u{439}', [0xC8, 0x5F]), ('\u{43A}', [0xC8, 0x60]), ('\u{43B}', [0xC8, 0x61]), ";
"    ('\u{43C}', [0xC8, 0x62]), ('\u{43D}', [0xC8, 0x63]), ('\u{43E}', [0xC8, 0x64]), ";
"    ('\u{43F}', [0xC8, 0x65]), ('\u{440}', [0xC8, 0x66]), ('\u{441}', [0xC8, 0x67]), ";
"    ('\u{442}', [0xC8, 0x68]), ('\u{443}', [0xC8, 0x69]), ('\u{444}', [0xC8, 0x6A]), ";
"    ('\u{445}', [0xC8, 0x6B]), ('\u{446}', [0xC8, 0x6C]), ('\u{447}', [0xC8, 0x6D]), ";
"    ('\u{448}', [0xC8, 0x6E]), ('\u{449}', [0xC8, 0x6F]), ('\u{44A}', [0xC8, 0x70]), ";
"    ('\u{44B}', [0xC8, 0x71]), ('\u{44C}', [0xC8, 0x72]), ('\u{44D}', [0xC8, 0x73]), ";
"    ('\u{44E}', [0xC8, 0x74]), ('\u{44F}', [0xC8, 0x75]), ('\u{451}', [0xC8, 0x5B]), ";
"    ('\u{1EBE}', [0x88, 0x63]), ('\u{1EBF}', [0x88, 0xA4]), ('\u{1EC0}', [0x88, 0x65]), ";
"    ('\u{1EC1}', [0x88, 0xA6]), ('\u{2013}', [0xA1, 0x56]), ('\u{2014}', [0xA1, 0x58]), ";
"    ('\u{2018}', [0xA1, 0xA5]), ('\u{2019}', [0xA1, 0xA6]), ('\u{201C}', [0xA1, 0xA7]), ";
"    ('\u{201D}', [0xA1, 0xA8]), ('\u{2025}', [0xA1, 0x4C]), ('\u{2026}', [0xA1, 0x4B]), ";
"    ('\u{2027}', [0xA1, 0x45]), ('\u{2032}', [0xA1, 0xAC]), ('\u{2035}', [0xA1, 0xAB]), ";
"    ('\u{203B}', [0xA1, 0xB0]), ('\u{20AC}', [0xA3, 0xE1]), ('\u{2103}', [0xA2, 0x4A]), ";
"    ('\u{2105}', [0xA1, 0xC1]), ('\u{2109}', [0xA2, 0x4B]), ('\u{2116}', [0xC8, 0xD2]), ";
"    ('\u{2121}', [0xC8, 0xD3]), ('\u{2160}', [0xA2, 0xB9]), ('\u{2161}', [0xA2, 0xBA]), ";
"    ('\u{2162}', [0xA2, 0xBB]), ('\u{2163}', [0xA2, 0xBC]), ('\u{2164}', [0xA2, 0xBD]), ";
"    ('\u{2165}', [0xA2, 0xBE]), ('\u{2166}', [0xA2, 0xBF]), ('\u{2167}', [0xA2, 0xC0]), ";
"    ('\u{2168}', [0xA2, 0xC1]), ('\u{2169}', [0xA2, 0xC2]), ('\u{2170}', [0xC6, 0xB5]), ";
"    ('\u{2171}', [0xC6, 0xB6]), ('\u{2172}', [0xC6, 0xB7]), ('\u{2173}', [0xC6, 0xB8]), ";
"    ('\u{2174}', [0xC6, 0xB9]), ('\u{2175}', [0xC6, 0xBA]), ('\u{2176}', [0xC6, 0xBB]), ";
"    ('\u{2177}', [0xC6, 0xBC]), ('\u{2178}', [0xC6, 0xBD]), ('\u{2179}', [0xC6, 0xBE]), ";
"    ('\u{2190}', [0xA1, 0xF6]), ('\u{2191}', [0xA1, 0xF4]), ('\u{2192}', [0xA1, 0xF7]), ";
"    ('\u{2193}', [0xA1, 0xF5]), ('\u{2196}', [0xA1, 0xF8]), ('\u{2197}', [0xA1, 0xF9]), ";
"    ('\u{2198}', [0xA1, 0xFB]), ('\u{2199}', [0xA1, 0xFA]), ('\u{21B8}', [0xC8, 0x77]), ";
"    ('\u{21B9}', [0xC8, 0x78]), ('\u{21E7}', [0xC8, 0x76]), ('\u{2215}', [0xA2, 0x41]), ";
"    ('\u{221A}', [0xA1, 0xD4]), ('\u{221E}', [0xA1, 0xDB]), ('\u{221F}', [0xA1, 0xE8]), ";
"    ('\u{2220}', [0xA1, 0xE7]), ('\u{2223}', [0xA1, 0xFD]), ('\u{2225}', [0xA1, 0xFC]), "
].
(* /repo/src/generated/whatwg/big5_whatwg_tables.rs.inc:2561-2816 *)
Definition big5_inc_10 : list line := [
"    ('\u{2229}', [0xA1, 0xE4]), ('\u{222A}', [0xA1, 0xE5]), ('\u{222B}', [0xA1, 0xEC]), ";
"    ('\u{222E}', [0xA1, 0xED]), ('\u{2234}', [0xA1, 0xEF]), ('\u{2235}', [0xA1, 0xEE]), ";
"    ('\u{2252}', [0xA1, 0xDC]), ('\u{2260}', [0xA1, 0xDA]), ('\u{2261}', [0xA1, 0xDD]), ";
"    ('\u{2266}', [0xA1, 0xD8]), ('\u{2267}', [0xA1, 0xD9]), ('\u{2295}', [0xA1, 0xF2]), ";
"    ('\u{2299}', [0xA1, 0xF3]), ('\u{22A5}', [0xA1, 0xE6]), ('\u{22BF}', [0xA1, 0xE9]), ";
"    ('\u{23DA}', [0x88, 0xA9]), ('\u{23DB}', [0x88, 0xAA]), ('\u{2400}', [0xA3, 0xC0]), ";
"    ('\u{2401}', [0xA3, 0xC1]), ('\u{2402}', [0xA3, 0xC2]), ('\u{2403}', [0xA3, 0xC3]), ";
"    ('\u{2404}', [0xA3, 0xC4]), ('\u{2405}', [0xA3, 0xC5]), ('\u{2406}', [0xA3, 0xC6]), ";
"    ('\u{2407}', [0xA3, 0xC7]), ('\u{2408}', [0xA3, 0xC8]), ('\u{2409}', [0xA3, 0xC9]), ";
"    ('\u{240A}', [0xA3, 0xCA]), ('\u{240B}', [0xA3, 0xCB]), ('\u{240C}', [0xA3, 0xCC]), ";
"    ('\u{240D}', [0xA3, 0xCD]), ('\u{240E}', [0xA3, 0xCE]), ('\u{240F}', [0xA3, 0xCF]), ";
"    ('\u{2410}', [0xA3, 0xD0]), ('\u{2411}', [0xA3, 0xD1]), ('\u{2412}', [0xA3, 0xD2]), ";
"    ('\u{2413}', [0xA3, 0xD3]), ('\u{2414}', [0xA3, 0xD4]), ('\u{2415}', [0xA3, 0xD5]), ";
"    ('\u{2416}', [0xA3, 0xD6]), ('\u{2417}', [0xA3, 0xD7]), ('\u{2418}', [0xA3, 0xD8]), ";
"    ('\u{2419}', [0xA3, 0xD9]), ('\u{241A}', [0xA3, 0xDA]), ('\u{241B}', [0xA3, 0xDB]), ";
"    ('\u{241C}', [0xA3, 0xDC]), ('\u{241D}', [0xA3, 0xDD]), ('\u{241E}', [0xA3, 0xDE]), ";
"    ('\u{241F}', [0xA3, 0xDF]), ('\u{2421}', [0xA3, 0xE0]), ('\u{2460}', [0xC6, 0xA1]), ";
"    ('\u{2461}', [0xC6, 0xA2]), ('\u{2462}', [0xC6, 0xA3]), ('\u{2463}', [0xC6, 0xA4]), ";
"    ('\u{2464}', [0xC6, 0xA5]), ('\u{2465}', [0xC6, 0xA6]), ('\u{2466}', [0xC6, 0xA7]), ";
"    ('\u{2467}', [0xC6, 0xA8]), ('\u{2468}', [0xC6, 0xA9]), ('\u{2469}', [0xC6, 0xAA]), ";
"    ('\u{2474}', [0xC6, 0xAB]), ('\u{2475}', [0xC6, 0xAC]), ('\u{2476}', [0xC6, 0xAD]), ";
"    ('\u{2477}', [0xC6, 0xAE]), ('\u{2478}', [0xC6, 0xAF]), ('\u{2479}', [0xC6, 0xB0]), ";
"    ('\u{247A}', [0xC6, 0xB1]), ('\u{247B}', [0xC6, 0xB2]), ('\u{247C}', [0xC6, 0xB3]), ";
"    ('\u{247D}', [0xC6, 0xB4]), ('\u{2500}', [0xA2, 0x77]), ('\u{2502}', [0xA2, 0x78]), ";
"    ('\u{250C}', [0xA2, 0x7A]), ('\u{2510}', [0xA2, 0x7B]), ('\u{2514}', [0xA2, 0x7C]), ";
"    ('\u{2518}', [0xA2, 0x7D]), ('\u{251C}', [0xA2, 0x75]), ('\u{2524}', [0xA2, 0x74]), ";
"    ('\u{252C}', [0xA2, 0x73]), ('\u{2534}', [0xA2, 0x72]), ('\u{253C}', [0xA2, 0x71]), ";
"    ('\u{2550}', [0xF9, 0xF9]), ('\u{2551}', [0xF9, 0xF8]), ('\u{2552}', [0xF9, 0xE6]), ";
"    ('\u{2553}', [0xF9, 0xEF]), ('\u{2554}', [0xF9, 0xDD]), ('\u{2555}', [0xF9, 0xE8]), ";
"    ('\u{2556}', [0xF9, 0xF1]), ('\u{2557}', [0xF9, 0xDF]), ('\u{2558}', [0xF9, 0xEC]), ";
"    ('\u{2559}', [0xF9, 0xF5]), ('\u{255A}', [0xF9, 0xE3]), ('\u{255B}', [0xF9, 0xEE]), ";
"    ('\u{255C}', [0xF9, 0xF7]), ('\u{255D}', [0xF9, 0xE5]), ('\u{255E}', [0xF9, 0xE9]), ";
"    ('\u{255F}', [0xF9, 0xF2]), ('\u{2560}', [0xF9, 0xE0]), ('\u{2561}', [0xF9, 0xEB]), ";
"    ('\u{2562}', [0xF9, 0xF4]), ('\u{2563}', [0xF9, 0xE2]), ('\u{2564}', [0xF9, 0xE7]), ";
"    ('\u{2565}', [0xF9, 0xF0]), ('\u{2566}', [0xF9, 0xDE]), ('\u{2567}', [0xF9, 0xED]), ";
"    ('\u{2568}', [0xF9, 0xF6]), ('\u{2569}', [0xF9, 0xE4]), ('\u{256A}', [0xF9, 0xEA]), ";
"    ('\u{256B}', [0xF9, 0xF3]), ('\u{256C}', [0xF9, 0xE1]), ('\u{256D}', [0xA2, 0x7E]), ";
"    ('\u{256E}', [0xA2, 0xA1]), ('\u{256F}', [0xA2, 0xA3]), ('\u{2570}', [0xA2, 0xA2]), ";
"    ('\u{2571}', [0xA2, 0xAC]), ('\u{2572}', [0xA2, 0xAD]), ('\u{2573}', [0xA2, 0xAE]), ";
"    ('\u{2574}', [0xA1, 0x5A]), ('\u{2581}', [0xA2, 0x62]), ('\u{2582}', [0xA2, 0x63]), ";
"    ('\u{2583}', [0xA2, 0x64]), ('\u{2584}', [0xA2, 0x65]), ('\u{2585}', [0xA2, 0x66]), ";
"    ('\u{2586}', [0xA2, 0x67]), ('\u{2587}', [0xA2, 0x68]), ('\u{2588}', [0xA2, 0x69]), ";
"    ('\u{2589}', [0xA2, 0x70]), ('\u{258A}', [0xA2, 0x6F]), ('\u{258B}', [0xA2, 0x6E]), ";
"    ('\u{258C}', [0xA2, 0x6D]), ('\u{258D}', [0xA2, 0x6C]), ('\u{258E}', [0xA2, 0x6B]), ";
"    ('\u{258F}', [0xA2, 0x6A]), ('\u{2594}', [0xA2, 0x76]), ('\u{2595}', [0xA2, 0x79]), ";
"    ('\u{25A0}', [0xA1, 0xBD]), ('\u{25A1}', [0xA1, 0xBC]), ('\u{25B2}', [0xA1, 0xB6]), ";
"    ('\u{25B3}', [0xA1, 0xB5]), ('\u{25BC}', [0xA1, 0xBF]), ('\u{25BD}', [0xA1, 0xBE]), ";
"    ('\u{25C6}', [0xA1, 0xBB]), ('\u{25C7}', [0xA1, 0xBA]), ('\u{25CB}', [0xA1, 0xB3]), ";
"    ('\u{25CE}', [0xA1, 0xB7]), ('\u{25CF}', [0xA1, 0xB4]), ('\u{25E2}', [0xA2, 0xA8]), ";
"    ('\u{25E3}', [0xA2, 0xA9]), ('\u{25E4}', [0xA2, 0xAB]), ('\u{25E5}', [0xA2, 0xAA]), ";
"    ('\u{2605}', [0xA1, 0xB9]), ('\u{2606}', [0xA1, 0xB8]), ('\u{2640}', [0xA1, 0xF0]), ";
"    ('\u{2642}', [0xA1, 0xF1]), ('\u{273D}', [0xC6, 0xE6]), ('\u{2E80}', [0xC8, 0xD6]), ";
"    ('\u{2E84}', [0xC8, 0xD7]), ('\u{2E86}', [0xC8, 0xD8]), ('\u{2E87}', [0xC8, 0xD9]), ";
"    ('\u{2E88}', [0xC8, 0xDA]), ('\u{2E8A}', [0xC8, 0xDB]), ('\u{2E8C}', [0xC8, 0xDC]), ";
"    ('\u{2E8D}', [0xC8, 0xDD]), ('\u{2E95}', [0xC8, 0xDE]), ('\u{2E9C}', [0xC8, 0xDF]), ";
"    ('\u{2E9D}', [0xC8, 0xE0]), ('\u{2EA5}', [0xC8, 0xE1]), ('\u{2EA7}', [0xC8, 0xE2]), ";
"    ('\u{2EAA}', [0xC8, 0xE3]), ('\u{2EAC}', [0xC8, 0xE4]), ('\u{2EAE}', [0xC8, 0xE5]), ";
"    ('\u{2EB6}', [0xC8, 0xE6]), ('\u{2EBC}', [0xC8, 0xE7]), ('\u{2EBE}', [0xC8, 0xE8]), ";
"    ('\u{2EC6}', [0xC8, 0xE9]), ('\u{2ECA}', [0xC8, 0xEA]), ('\u{2ECC}', [0xC8, 0xEB]), ";
"    ('\u{2ECD}', [0xC8, 0xEC]), ('\u{2ECF}', [0xC8, 0xED]), ('\u{2ED6}', [0xC8, 0xEE]), ";
"    ('\u{2ED7}', [0xC8, 0xEF]), ('\u{2EDE}', [0xC8, 0xF0]), ('\u{2EE3}', [0xC8, 0xF1]), ";
"    ('\u{2F33}', [0xC6, 0xCD]), ('\u{3000}', [0xA1, 0x40]), ('\u{3001}', [0xA1, 0x42]), ";
"    ('\u{3002}', [0xA1, 0x43]), ('\u{3003}', [0xA1, 0xB2]), ('\u{3005}', [0xC6, 0xE0]), ";
"    ('\u{3006}', [0xC6, 0xE1]), ('\u{3007}', [0xC6, 0xE2]), ('\u{3008}', [0xA1, 0x71]), ";
"    ('\u{3009}', [0xA1, 0x72]), ('\u{300A}', [0xA1, 0x6D]), ('\u{300B}', [0xA1, 0x6E]), ";
"    ('\u{300C}', [0xA1, 0x75]), ('\u{300D}', [0xA1, 0x76]), ('\u{300E}', [0xA1, 0x79]), ";
"    ('\u{300F}', [0xA1, 0x7A]), ('\u{3010}', [0xA1, 0x69]), ('\u{3011}', [0xA1, 0x6A]), ";
"    ('\u{3012}', [0xA2, 0x45]), ('\u{3014}', [0xA1, 0x65]), ('\u{3015}', [0xA1, 0x66]), ";
"    ('\u{301D}', [0xA1, 0xA9]), ('\u{301E}', [0xA1, 0xAA]), ('\u{3021}', [0xA2, 0xC3]), ";
"    ('\u{3022}', [0xA2, 0xC4]), ('\u{3023}', [0xA2, 0xC5]), ('\u{3024}', [0xA2, 0xC6]), ";
"    ('\u{3025}', [0xA2, 0xC7]), ('\u{3026}', [0xA2, 0xC8]), ('\u{3027}', [0xA2, 0xC9]), ";
"    ('\u{3028}', [0xA2, 0xCA]), ('\u{3029}', [0xA2, 0xCB]), ('\u{3041}', [0xC6, 0xE7]), ";
"    ('\u{3042}', [0xC6, 0xE8]), ('\u{3043}', [0xC6, 0xE9]), ('\u{3044}', [0xC6, 0xEA]), ";
"    ('\u{3045}', [0xC6, 0xEB]), ('\u{3046}', [0xC6, 0xEC]), ('\u{3047}', [0xC6, 0xED]), ";
"    ('\u{3048}', [0xC6, 0xEE]), ('\u{3049}', [0xC6, 0xEF]), ('\u{304A}', [0xC6, 0xF0]), ";
"    ('\u{304B}', [0xC6, 0xF1]), ('\u{304C}', [0xC6, 0xF2]), ('\u{304D}', [0xC6, 0xF3]), ";
"    ('\u{304E}', [0xC6, 0xF4]), ('\u{304F}', [0xC6, 0xF5]), ('\u{3050}', [0xC6, 0xF6]), ";
"    ('\u{3051}', [0xC6, 0xF7]), ('\u{3052}', [0xC6, 0xF8]), ('\u{3053}', [0xC6, 0xF9]), ";
"    ('\u{3054}', [0xC6, 0xFA]), ('\u{3055}', [0xC6, 0xFB]), ('\u{3056}', [0xC6, 0xFC]), ";
"    ('\u{3057}', [0xC6, 0xFD]), ('\u{3058}', [0xC6, 0xFE]), ('\u{3059}', [0xC7, 0x40]), ";
"    ('\u{305A}', [0xC7, 0x41]), ('\u{305B}', [0xC7, 0x42]), ('\u{305C}', [0xC7, 0x43]), ";
"    ('\u{305D}', [0xC7, 0x44]), ('\u{305E}', [0xC7, 0x45]), ('\u{305F}', [0xC7, 0x46]), ";
"    ('\u{3060}', [0xC7, 0x47]), ('\u{3061}', [0xC7, 0x48]), ('\u{3062}', [0xC7, 0x49]), ";
"    ('\u{3063}', [0xC7, 0x4A]), ('\u{3064}', [0xC7, 0x4B]), ('\u{3065}', [0xC7, 0x4C]), ";
"    ('\u{3066}', [0xC7, 0x4D]), ('\u{3067}', [0xC7, 0x4E]), ('\u{3068}', [0xC7, 0x4F]), ";
"    ('\u{3069}', [0xC7, 0x50]), ('\u{306A}', [0xC7, 0x51]), ('\u{306B}', [0xC7, 0x52]), ";
"    ('\u{306C}', [0xC7, 0x53]), ('\u{306D}', [0xC7, 0x54]), ('\u{306E}', [0xC7, 0x55]), ";
"    ('\u{306F}', [0xC7, 0x56]), ('\u{3070}', [0xC7, 0x57]), ('\u{3071}', [0xC7, 0x58]), ";
"    ('\u{3072}', [0xC7, 0x59]), ('\u{3073}', [0xC7, 0x5A]), ('\u{3074}', [0xC7, 0x5B]), ";
"    ('\u{3075}', [0xC7, 0x5C]), ('\u{3076}', [0xC7, 0x5D]), ('\u{3077}', [0xC7, 0x5E]), ";
"    ('\u{3078}', [0xC7, 0x5F]), ('\u{3079}', [0xC7, 0x60]), ('\u{307A}', [0xC7, 0x61]), ";
"    ('\u{307B}', [0xC7, 0x62]), ('\u{307C}', [0xC7, 0x63]), ('\u{307D}', [0xC7, 0x64]), ";
"    ('\u{307E}', [0xC7, 0x65]), ('\u{307F}', [0xC7, 0x66]), ('\u{3080}', [0xC7, 0x67]), ";
"    ('\u{3081}', [0xC7, 0x68]), ('\u{3082}', [0xC7, 0x69]), ('\u{3083}', [0xC7, 0x6A]), ";
"    ('\u{3084}', [0xC7, 0x6B]), ('\u{3085}', [0xC7, 0x6C]), ('\u{3086}', [0xC7, 0x6D]), ";
"    ('\u{3087}', [0xC7, 0x6E]), ('\u{3088}', [0xC7, 0x6F]), ('\u{3089}', [0xC7, 0x70]), ";
"    ('\u{308A}', [0xC7, 0x71]), ('\u{308B}', [0xC7, 0x72]), ('\u{308C}', [0xC7, 0x73]), ";
"    ('\u{308D}', [0xC7, 0x74]), ('\u{308E}', [0xC7, 0x75]), ('\u{308F}', [0xC7, 0x76]), ";
"    ('\u{3090}', [0xC7, 0x77]), ('\u{3091}', [0xC7, 0x78]), ('\u{3092}', [0xC7, 0x79]), ";
"    ('\u{3093}', [0xC7, 0x7A]), ('\u{309B}', [0xC8, 0xD4]), ('\u{309C}', [0xC8, 0xD5]), ";
"    ('\u{309D}', [0xC6, 0xDC]), ('\u{309E}', [0xC6, 0xDD]), ('\u{30A1}', [0xC7, 0x7B]), ";
"    ('\u{30A2}', [0xC7, 0x7C]), ('\u{30A3}', [0xC7, 0x7D]), ('\u{30A4}', [0xC7, 0x7E]), ";
"    ('\u{30A5}', [0xC7, 0xA1]), ('\u{30A6}', [0xC7, 0xA2]), ('\u{30A7}', [0xC7, 0xA3]), ";
"    ('\u{30A8}', [0xC7, 0xA4]), ('\u{30A9}', [0xC7, 0xA5]), ('\u{30AA}', [0xC7, 0xA6]), ";
"    ('\u{30AB}', [0xC7, 0xA7]), ('\u{30AC}', [0xC7, 0xA8]), ('\u{30AD}', [0xC7, 0xA9]), ";
"    ('\u{30AE}', [0xC7, 0xAA]), ('\u{30AF}', [0xC7, 0xAB]), ('\u{30B0}', [0xC7, 0xAC]), ";
"    ('\u{30B1}', [0xC7, 0xAD]), ('\u{30B2}', [0xC7, 0xAE]), ('\u{30B3}', [0xC7, 0xAF]), ";
"    ('\u{30B4}', [0xC7, 0xB0]), ('\u{30B5}', [0xC7, 0xB1]), ('\u{30B6}', [0xC7, 0xB2]), ";
"    ('\u{30B7}', [0xC7, 0xB3]), ('\u{30B8}', [0xC7, 0xB4]), ('\u{30B9}', [0xC7, 0xB5]), ";
"    ('\u{30BA}', [0xC7, 0xB6]), ('\u{30BB}', [0xC7, 0xB7]), ('\u{30BC}', [0xC7, 0xB8]), ";
"    ('\u{30BD}', [0xC7, 0xB9]), ('\u{30BE}', [0xC7, 0xBA]), ('\u{30BF}', [0xC7, 0xBB]), ";
"    ('\u{30C0}', [0xC7, 0xBC]), ('\u{30C1}', [0xC7, 0xBD]), ('\u{30C2}', [0xC7, 0xBE]), ";
"    ('\u{30C3}', [0xC7, 0xBF]), ('\u{30C4}', [0xC7, 0xC0]), ('\u{30C5}', [0xC7, 0xC1]), ";
"    ('\u{30C6}', [0xC7, 0xC2]), ('\u{30C7}', [0xC7, 0xC3]), ('\u{30C8}', [0xC7, 0xC4]), ";
"    ('\u{30C9}', [0xC7, 0xC5]), ('\u{30CA}', [0xC7, 0xC6]), ('\u{30CB}', [0xC7, 0xC7]), ";
"    ('\u{30CC}', [0xC7, 0xC8]), ('\u{30CD}', [0xC7, 0xC9]), ('\u{30CE}', [0xC7, 0xCA]), ";
"    ('\u{30CF}', [0xC7, 0xCB]), ('\u{30D0}', [0xC7, 0xCC]), ('\u{30D1}', [0xC7, 0xCD]), ";
"    ('\u{30D2}', [0xC7, 0xCE]), ('\u{30D3}', [0xC7, 0xCF]), ('\u{30D4}', [0xC7, 0xD0]), ";
"    ('\u{30D5}', [0xC7, 0xD1]), ('\u{30D6}', [0xC7, 0xD2]), ('\u{30D7}', [0xC7, 0xD3]), ";
"    ('\u{30D8}', [0xC7, 0xD4]), ('\u{30D9}', [0xC7, 0xD5]), ('\u{30DA}', [0xC7, 0xD6]), ";
"    ('\u{30DB}', [0xC7, 0xD7]), ('\u{30DC}', [0xC7, 0xD8]), ('\u{30DD}', [0xC7, 0xD9]), ";
"    ('\u{30DE}', [0xC7, 0xDA]), ('\u{30DF}', [0xC7, 0xDB]), ('\u{30E0}', [0xC7, 0xDC]), ";
"    ('\u{30E1}', [0xC7, 0xDD]), ('\u{30E2}', [0xC7, 0xDE]), ('\u{30E3}', [0xC7, 0xDF]), ";
"    ('\u{30E4}', [0xC7, 0xE0]), ('\u{30E5}', [0xC7, 0xE1]), ('\u{30E6}', [0xC7, 0xE2]), ";
"    ('\u{30E7}', [0xC7, 0xE3]), ('\u{30E8}', [0xC7, 0xE4]), ('\u{30E9}', [0xC7, 0xE5]), ";
"    ('\u{30EA}', [0xC7, 0xE6]), ('\u{30EB}', [0xC7, 0xE7]), ('\u{30EC}', [0xC7, 0xE8]), ";
"    ('\u{30ED}', [0xC7, 0xE9]), ('\u{30EE}', [0xC7, 0xEA]), ('\u{30EF}', [0xC7, 0xEB]), ";
"    ('\u{30F0}', [0xC7, 0xEC]), ('\u{30F1}', [0xC7, 0xED]), ('\u{30F2}', [0xC7, 0xEE]), ";
"    ('\u{30F3}', [0xC7, 0xEF]), ('\u{30F4}', [0xC7, 0xF0]), ('\u{30F5}', [0xC7, 0xF1]), ";
"    ('\u{30F6}', [0xC7, 0xF2]), ('\u{30FC}', [0xC6, 0xE3]), ('\u{30FD}', [0xC6, 0xDA]), ";
"    ('\u{30FE}', [0xC6, 0xDB]), ('\u{3105}', [0xA3, 0x74]), ('\u{3106}', [0xA3, 0x75]), ";
"    ('\u{3107}', [0xA3, 0x76]), ('\u{3108}', [0xA3, 0x77]), ('\u{3109}', [0xA3, 0x78]), ";
"    ('\u{310A}', [0xA3, 0x79]), ('\u{310B}', [0xA3, 0x7A]), ('\u{310C}', [0xA3, 0x7B]), ";
"    ('\u{310D}', [0xA3, 0x7C]), ('\u{310E}', [0xA3, 0x7D]), ('\u{310F}', [0xA3, 0x7E]), ";
"    ('\u{3110}', [0xA3, 0xA1]), ('\u{3111}', [0xA3, 0xA2]), ('\u{3112}', [0xA3, 0xA3]), ";
"    ('\u{3113}', [0xA3, 0xA4]), ('\u{3114}', [0xA3, 0xA5]), ('\u{3115}', [0xA3, 0xA6]), ";
"    ('\u{3116}', [0xA3, 0xA7]), ('\u{3117}', [0xA3, 0xA8]), ('\u{3118}', [0xA3, 0xA9]), ";
"    ('\u{3119}', [0xA3, 0xAA]), ('\u{311A}', [0xA3, 0xAB]), ('\u{311B}', [0xA3, 0xAC]), ";
"    ('\u{311C}', [0xA3, 0xAD]), ('\u{311D}', [0xA3, 0xAE]), ('\u{311E}', [0xA3, 0xAF]), ";
"    ('\u{311F}', [0xA3, 0xB0]), ('\u{3120}', [0xA3, 0xB1]), ('\u{3121}', [0xA3, 0xB2]), ";
"    ('\u{3122}', [0xA3, 0xB3]), ('\u{3123}', [0xA3, 0xB4]), ('\u{3124}', [0xA3, 0xB5]), ";
"    ('\u{3125}', [0xA3, 0xB6]), ('\u{3126}', [0xA3, 0xB7]), ('\u{3127}', [0xA3, 0xB8]), ";
"    ('\u{3128}', [0xA3, 0xB9]), ('\u{3129}', [0xA3, 0xBA]), ('\u{31C0}', [0x88, 0x40]), ";
"    ('\u{31C1}', [0x88, 0x41]), ('\u{31C2}', [0x88, 0x42]), ('\u{31C3}', [0x88, 0x43]), ";
"    ('\u{31C4}', [0x88, 0x44]), ('\u{31C5}', [0x88, 0x46]), ('\u{31C6}', [0x88, 0x49]), ";
"    ('\u{31C7}', [0x88, 0x4A]), ('\u{31C8}', [0x88, 0x4D]), ('\u{31C9}', [0x88, 0x4F]), ";
"    ('\u{31CA}', [0x88, 0x50]), ('\u{31CB}', [0x88, 0x51]), ('\u{31CC}', [0x88, 0x52]), ";
"    ('\u{31CD}', [0x88, 0x54]), ('\u{31CE}', [0x88, 0x55]), ('\u{31CF}', [0xC8, 0x79]), ";
"    ('\u{3231}', [0xC8, 0xD1]), ('\u{32A3}', [0xA1, 0xC0]), ('\u{338E}', [0xA2, 0x55]), ";
"    ('\u{338F}', [0xA2, 0x56]), ('\u{339C}', [0xA2, 0x50]), ('\u{339D}', [0xA2, 0x51]), ";
"    ('\u{339E}', [0xA2, 0x52]), ('\u{33A1}', [0xA2, 0x54]), ('\u{33C4}', [0xA2, 0x57]), ";
"    ('\u{33CE}', [0xA2, 0x53]), ('\u{33D1}', [0xA1, 0xEB]), ('\u{33D2}', [0xA1, 0xEA]), ";
"    ('\u{33D5}', [0xA2, 0x4F]), ('\u{3435}', [0x92, 0x77]), ('\u{3440}', [0x96, 0xDF]), ";
"    ('\u{344A}', [0x8C, 0xF4]), ('\u{344C}', [0x89, 0xD5]), ('\u{3464}', [0x93, 0xCD]), ";
"    ('\u{3473}', [0x9B, 0xDF]), ('\u{347A}', [0xFA, 0x68]), ('\u{347D}', [0x89, 0xDA]), ";
"    ('\u{347E}', [0x8F, 0x59]), ('\u{3493}', [0x89, 0xDB]), ('\u{3496}', [0x8F, 0x5D]), ";
"    ('\u{34A5}', [0x89, 0xDC]), ('\u{34AF}', [0x96, 0xF7]), ('\u{34BC}', [0x8A, 0xDA]), ";
"    ('\u{34C1}', [0x8B, 0xDC]), ('\u{34C8}', [0x97, 0xDB]), ('\u{34DF}', [0x9E, 0x53]), ";
"    ('\u{34E4}', [0x9D, 0xAA]), ('\u{34E6}', [0x87, 0xBE]), ('\u{34FB}', [0x9B, 0xEA]), ";
"    ('\u{3506}', [0x8A, 0x6E]), ('\u{353E}', [0x8B, 0xC8]), ('\u{3551}', [0x89, 0xE8]), ";
"    ('\u{3553}', [0x89, 0xEA]), ('\u{3559}', [0x8C, 0x4B]), ('\u{3561}', [0xFB, 0x70]), ";
"    ('\u{356D}', [0x89, 0xED]), ('\u{3570}', [0x94, 0xDD]), ('\u{3572}', [0x89, 0xEE]), ";
"    ('\u{3577}', [0x9E, 0xB4]), ('\u{3578}', [0x8A, 0xD3]), ('\u{3584}', [0x92, 0xDB]), ";
"    ('\u{3597}', [0x94, 0xDB]), ('\u{3598}', [0x89, 0xF9]), ('\u{35A1}', [0xFB, 0x7A]), ";
"    ('\u{35A5}', [0x89, 0xFB]), ('\u{35AD}', [0x9E, 0xFC]), ('\u{35BF}', [0x89, 0xFC]), ";
"    ('\u{35C1}', [0x89, 0xBF]), ('\u{35C5}', [0x89, 0xFE]), ('\u{35C7}', [0x89, 0xE6]), ";
"    ('\u{35CA}', [0x9D, 0x46]), ('\u{35CE}', [0x9D, 0xEE]), ('\u{35D2}', [0xA0, 0x7E]), ";
"    ('\u{35D6}', [0xA0, 0x68]), ('\u{35DB}', [0x98, 0xE9]), ('\u{35DD}', [0x8B, 0x68]), ";
"    ('\u{35F1}', [0x8D, 0xFD]), ('\u{35F2}', [0x8B, 0xBE]), ('\u{35F3}', [0x9F, 0xD9]), ";
"    ('\u{35FB}', [0x8A, 0xEB]), ('\u{35FE}', [0x9F, 0xD7]), ('\u{3609}', [0x8B, 0x6A]), ";
"    ('\u{3618}', [0x9C, 0x5C]), ('\u{361A}', [0x8B, 0xB1]), ('\u{3623}', [0xFB, 0x5E]), ";
"    ('\u{3625}', [0x87, 0x70]), ('\u{362D}', [0x9D, 0xF3]), ('\u{3635}', [0xA0, 0xD0]), ";
"    ('\u{3639}', [0xFC, 0x66]), ('\u{363E}', [0x92, 0xE9]), ('\u{3647}', [0x9A, 0xEC]), ";
"    ('\u{3648}', [0x8F, 0xAB]), ('\u{3649}', [0xFA, 0x48]), ('\u{364E}', [0x8E, 0x45]), ";
"    ('\u{365F}', [0x9C, 0x6F]), ('\u{3661}', [0x8D, 0x5C]), ('\u{367A}', [0x9E, 0xDE]), ";
"    ('\u{3681}', [0x89, 0xEF]), ('\u{369A}', [0x96, 0xE9]), ('\u{36A5}', [0x9E, 0xBB]), ";
"    ('\u{36AA}', [0x94, 0xDE]), ('\u{36AC}', [0x9E, 0xB8]), ('\u{36B0}', [0x97, 0xBA]), ";
"    ('\u{36B1}', [0xFB, 0x65]), ('\u{36B5}', [0x95, 0xD6]), ('\u{36B9}', [0x9C, 0xBB]), ";
"    ('\u{36BC}', [0x97, 0xDA]), ('\u{36C1}', [0x8F, 0x45]), ('\u{36C3}', [0xFB, 0x7D]), ";
"    ('\u{36C4}', [0x91, 0x58]), ('\u{36C5}', [0xFE, 0x64]), ('\u{36C7}', [0x98, 0x56]), ";
"    ('\u{36C8}', [0x9B, 0x4D]), ('\u{36D3}', [0x93, 0x5B]), ('\u{36D4}', [0x95, 0xC7]), ";
"    ('\u{36D6}', [0x97, 0xE7]), ('\u{36DD}', [0x93, 0x59]), ('\u{36E1}', [0x91, 0xF5]), ";
"    ('\u{36E2}', [0x97, 0xB8]), ('\u{36E5}', [0xFD, 0xA2]), ('\u{36E6}', [0xFB, 0xB6]), ";
"    ('\u{36F5}', [0x92, 0xFA]), ('\u{3701}', [0x93, 0x57]), ('\u{3703}', [0x8B, 0xA6]), ";
"    ('\u{3708}', [0xFB, 0xB9]), ('\u{370A}', [0x97, 0xB0]), ('\u{370D}', [0xFD, 0xC4]), ";
"    ('\u{371C}', [0x9C, 0xA1]), ('\u{3722}', [0x91, 0xF2]), ('\u{3723}', [0x91, 0xF9]), ";
"    ('\u{3725}', [0x8F, 0xF1]), ('\u{372C}', [0x97, 0x45]), ('\u{372D}', [0x98, 0x53]), ";
"    ('\u{3730}', [0xFE, 0x78]), ('\u{3732}', [0xFB, 0xC1]), ('\u{3733}', [0x92, 0x51]), ";
"    ('\u{373A}', [0x9D, 0xAD]), ('\u{3740}', [0xFD, 0x6C]), ('\u{3743}', [0xFA, 0x6B]), ";
"    ('\u{3762}', [0x9B, 0xC2]), ('\u{376F}', [0x9A, 0x7B]), ('\u{3797}', [0x8B, 0x60]), ";
"    ('\u{37A0}', [0x93, 0x4B]), ('\u{37B9}', [0x9A, 0xBD]), ('\u{37BE}', [0x91, 0xB7]), ";
"    ('\u{37D6}', [0x8D, 0x4B]), ('\u{37F2}', [0x95, 0xB4]), ('\u{37F8}', [0xFE, 0xC5]), ";
"    ('\u{37FB}', [0x9E, 0xF0]), ('\u{380F}', [0x8D, 0x64]), ('\u{3819}', [0x92, 0x69]), ";
"    ('\u{3820}', [0x8D, 0x67]), ('\u{382D}', [0xFB, 0xEA]), ('\u{3836}', [0xFB, 0xEF]), ";
"    ('\u{3838}', [0x8D, 0x68]), ('\u{3863}', [0x93, 0xEB]), ('\u{3875}', [0x87, 0x7A]), ";
"    ('\u{38A0}', [0xFC, 0x42]), ('\u{38C3}', [0x91, 0x66]), ('\u{38CC}', [0xFA, 0xCD]), ";
"    ('\u{38D1}', [0x93, 0xDD]), ('\u{38D4}', [0x8D, 0x52]), ('\u{38FA}', [0x8B, 0xCC]), ";
"    ('\u{3908}', [0x8D, 0x6D]), ('\u{3914}', [0x8D, 0x6E]), ('\u{3927}', [0x96, 0xA8]), ";
"    ('\u{3932}', [0xFC, 0xA6]), ('\u{393F}', [0x8D, 0x6F]), ('\u{394D}', [0x8D, 0x70]), ";
"    ('\u{3963}', [0xFC, 0x64]), ('\u{3978}', [0x8C, 0xF3]), ('\u{3980}', [0x90, 0x60]), ";
"    ('\u{3989}', [0x8D, 0x74]), ('\u{398A}', [0x97, 0xC3]), ('\u{3992}', [0x8A, 0xD0]), ";
"    ('\u{3999}', [0x92, 0x74]), ('\u{399B}', [0x9B, 0xBE]), ('\u{39A1}', [0x9C, 0xC8]), ";
"    ('\u{39A4}', [0x9C, 0xBA]), ('\u{39B8}', [0x8D, 0x78]), ('\u{39DC}', [0x9E, 0xB9]), ";
"    ('\u{39E2}', [0x95, 0x5A]), ('\u{39E5}', [0x91, 0xB4]), ('\u{39EC}', [0x8A, 0x48]), ";
"    ('\u{39F8}', [0x8D, 0x7D]), ('\u{39FB}', [0x8A, 0x7D]), ('\u{39FE}', [0x8A, 0xC2]), ";
"    ('\u{3A01}', [0xFD, 0x4A]), ('\u{3A03}', [0x8D, 0xA1]), ('\u{3A06}', [0x8A, 0xD1]), ";
"    ('\u{3A17}', [0xFC, 0xB4]), ('\u{3A18}', [0x8B, 0x47]), ('\u{3A29}', [0x93, 0xA4]), ";
"    ('\u{3A2A}', [0x9E, 0xDA]), ('\u{3A34}', [0x8A, 0x51]), ('\u{3A4B}', [0x8D, 0xA6]), ";
"    ('\u{3A52}', [0x9E, 0xC5]), ('\u{3A57}', [0xFC, 0xC4]), ('\u{3A5C}', [0xA0, 0x78]), ";
"    ('\u{3A5E}', [0x94, 0xB5]), ('\u{3A66}', [0xFC, 0xC2]), ('\u{3A67}', [0x8A, 0x6B]), ";
"    ('\u{3A97}', [0x8D, 0xAB]), ('\u{3AAB}', [0xFA, 0xE8]), ('\u{3ABD}', [0x8D, 0xAD]), ";
"    ('\u{3ADE}', [0xFC, 0x49]), ('\u{3AE0}', [0x93, 0xC1]), ('\u{3AF0}', [0x90, 0x6F]), ";
"    ('\u{3AF2}', [0x8D, 0xB0]), ('\u{3AF5}', [0x87, 0xA2]), ('\u{3AFB}', [0x94, 0x7E]), ";
"    ('\u{3B0E}', [0x90, 0xFA]), ('\u{3B19}', [0x94, 0x79]), ('\u{3B22}', [0x8D, 0xB2]), ";
"    ('\u{3B2B}', [0xFC, 0xEE]), ('\u{3B39}', [0x99, 0x7B]), ('\u{3B42}', [0x8D, 0xB4]), ";
"    ('\u{3B58}', [0x8D, 0xB7]), ('\u{3B60}', [0x91, 0xB3]), ('\u{3B71}', [0x8D, 0xBB]), ";
"    ('\u{3B72}', [0x8D, 0xBA]), ('\u{3B7B}', [0x8D, 0xBC]), ('\u{3B7C}', [0x90, 0x44]), ";
"    ('\u{3B80}', [0xFD, 0x4C]), ('\u{3B95}', [0x87, 0x4B]), ('\u{3B96}', [0x93, 0xE4]), ";
"    ('\u{3B99}', [0x93, 0xE0]), ('\u{3BA1}', [0xFD, 0x53]), ('\u{3BBC}', [0x8D, 0xC3]), ";
"    ('\u{3BBE}', [0x9B, 0xB8]), ('\u{3BC2}', [0xFB, 0xF0]), ('\u{3BC4}', [0x93, 0xE9]), ";
"    ('\u{3BD7}', [0x93, 0xF6]), ('\u{3BDD}', [0x8D, 0xC5]), ('\u{3BEC}', [0x8D, 0xCA]), ";
"    ('\u{3BF2}', [0x8D, 0xCC]), ('\u{3BF3}', [0xFD, 0x5D]), ('\u{3BF4}', [0x93, 0xB5]), ";
"    ('\u{3C0D}', [0xFD, 0x61]), ('\u{3C11}', [0x9C, 0xF8]), ('\u{3C15}', [0x92, 0x52]), ";
"    ('\u{3C18}', [0xA0, 0xE8]), ('\u{3C54}', [0x9C, 0xA5]), ('\u{3C8B}', [0x8C, 0x56]), ";
"    ('\u{3CCB}', [0x8D, 0xD6]), ('\u{3CCD}', [0x97, 0xC0]), ('\u{3CD1}', [0xA0, 0xDE]), ";
"    ('\u{3CD6}', [0x97, 0xD2]), ('\u{3CDC}', [0xFA, 0xA5]), ('\u{3CEB}', [0xFD, 0xA3]), ";
"    ('\u{3CEF}', [0x8D, 0xDB]), ('\u{3D12}', [0x8C, 0xEA]), ('\u{3D13}', [0x8E, 0xAF]), ";
"    ('\u{3D1D}', [0x91, 0xB5]), ('\u{3D32}', [0xFD, 0x49]), ('\u{3D3B}', [0xFD, 0xD1]), ";
"    ('\u{3D46}', [0x8D, 0xEB]), ('\u{3D4C}', [0x97, 0xC6]), ('\u{3D4E}', [0xFD, 0xCE]), ";
"    ('\u{3D51}', [0x90, 0xFC]), ('\u{3D5F}', [0xFC, 0x59]), ('\u{3D62}', [0x96, 0xD6]), ";
"    ('\u{3D69}', [0x97, 0xC5]), ('\u{3D6A}', [0x8D, 0xEF]), ('\u{3D6F}', [0x97, 0xD7]), ";
"    ('\u{3D75}', [0x8D, 0xF0]), ('\u{3D7D}', [0x96, 0xA6]), ('\u{3D85}', [0xFB, 0xBF]), ";
"    ('\u{3D88}', [0x8C, 0xDF]), ('\u{3D8A}', [0x8D, 0xF3]), ('\u{3D8F}', [0x94, 0x49]), ";
"    ('\u{3D91}', [0x8D, 0xF5]), ('\u{3DA5}', [0x98, 0x72]), ('\u{3DAD}', [0x8E, 0x6B]), ";
"    ('\u{3DB4}', [0xFA, 0xFD]), ('\u{3DBF}', [0x8F, 0x50]), ('\u{3DC6}', [0x9D, 0xCC]), ";
"    ('\u{3DC7}', [0xFC, 0x65]), ('\u{3DC9}', [0x8C, 0x44]), ('\u{3DCC}', [0x99, 0x6E]), ";
"    ('\u{3DCD}', [0x94, 0xA1]), ('\u{3DD3}', [0x8F, 0x63]), ('\u{3DDB}', [0xA0, 0xDA]), ";
"    ('\u{3DE7}', [0x92, 0x53]), ('\u{3DE8}', [0xFD, 0xE9]), ('\u{3DEB}', [0x9D, 0xB5]), ";
"    ('\u{3DF3}', [0x98, 0x79]), ('\u{3DF4}', [0x87, 0x6A]), ('\u{3DF7}', [0x9D, 0x5D]), ";
"    ('\u{3DFC}', [0x8D, 0x63]), ('\u{3DFD}', [0x96, 0x69]), ('\u{3E06}', [0x9F, 0x70]), ";
"    ('\u{3E40}', [0xFC, 0x6A]), ('\u{3E43}', [0x8A, 0xC7]), ('\u{3E48}', [0x89, 0xD7]), ";
"    ('\u{3E55}', [0xFE, 0x4D]), ('\u{3E74}', [0x9E, 0xDD]), ('\u{3EA8}', [0xFE, 0xFB]), ";
"    ('\u{3EA9}', [0x98, 0xBC]), ('\u{3EAA}', [0xFA, 0xCC]), ('\u{3EAD}', [0x95, 0xB0]), ";
"    ('\u{3EB1}', [0x94, 0x64]), ('\u{3EB8}', [0x93, 0x6F]), ('\u{3EBF}', [0x94, 0xB9]), ";
"    ('\u{3EC2}', [0x95, 0xEC]), ('\u{3EC7}', [0x91, 0xEE]), ('\u{3ECA}', [0x98, 0xC3]), ";
"    ('\u{3ECC}', [0x95, 0xF6]), ('\u{3ED0}', [0x8F, 0xFD]), ('\u{3ED1}', [0x98, 0xC5]), ";
"    ('\u{3ED6}', [0x97, 0x66]), ('\u{3ED7}', [0xFE, 0x6E]), ('\u{3EDA}', [0x97, 0xDD]), ";
"    ('\u{3EDB}', [0x8C, 0xAA]), ('\u{3EDE}', [0x92, 0xD2]), ('\u{3EE1}', [0x97, 0x61]), ";
"    ('\u{3EE2}', [0x98, 0xCB]), ('\u{3EE7}', [0x95, 0xF0]), ('\u{3EE9}', [0x97, 0x5D]), ";
"    ('\u{3EEB}', [0x91, 0xE3]), ('\u{3EEC}', [0x87, 0x7E]), ('\u{3EF0}', [0x98, 0xCC]), ";
"    ('\u{3EF3}', [0x94, 0x69]), ('\u{3EF4}', [0x98, 0xCD]), ('\u{3EFA}', [0x98, 0xCE]), ";
"    ('\u{3EFC}', [0x95, 0xFC]), ('\u{3EFF}', [0x94, 0xA3]), ('\u{3F00}', [0x96, 0x62]), ";
"    ('\u{3F04}', [0xFE, 0xB6]), ('\u{3F06}', [0x94, 0x63]), ('\u{3F07}', [0x8D, 0x47]), ";
"    ('\u{3F0E}', [0x98, 0xD0]), ('\u{3F53}', [0x98, 0xD1]), ('\u{3F58}', [0x94, 0x75]), ";
"    ('\u{3F59}', [0xFA, 0xE0]), ('\u{3F63}', [0x94, 0x72]), ('\u{3F7C}', [0x98, 0xD6]), ";
"    ('\u{3F93}', [0x8A, 0xF0]), ('\u{3FC0}', [0x98, 0xD9]), ('\u{3FC8}', [0x8D, 0x5A]), "
].
(* /repo/src/generated/whatwg/big5_whatwg_tables.rs.inc:2817-3072 *)
Definition big5_inc_11 : list line := [
"    ('\u{3FD7}', [0x98, 0xDB]), ('\u{3FDC}', [0x98, 0xDD]), ('\u{3FE5}', [0x98, 0xA8]), ";
"    ('\u{3FED}', [0x8A, 0x6D]), ('\u{3FF9}', [0x8A, 0xFB]), ('\u{3FFA}', [0x8A, 0xAE]), ";
"    ('\u{4004}', [0xFB, 0xC9]), ('\u{4009}', [0x8C, 0x5D]), ('\u{401D}', [0x98, 0xE4]), ";
"    ('\u{4039}', [0x98, 0xE6]), ('\u{4045}', [0x98, 0xE8]), ('\u{4053}', [0x8A, 0x4D]), ";
"    ('\u{4057}', [0x92, 0x57]), ('\u{4062}', [0x95, 0xDF]), ('\u{4065}', [0xA0, 0xAC]), ";
"    ('\u{406A}', [0x98, 0xEB]), ('\u{406F}', [0x98, 0xEC]), ('\u{4071}', [0x8C, 0xC3]), ";
"    ('\u{40A8}', [0x98, 0xF4]), ('\u{40B4}', [0x87, 0xD9]), ('\u{40BB}', [0x8A, 0xB8]), ";
"    ('\u{40BF}', [0x9E, 0xE7]), ('\u{40C8}', [0x94, 0xBC]), ('\u{40D8}', [0xFC, 0xD1]), ";
"    ('\u{40DF}', [0x9C, 0xC6]), ('\u{40F8}', [0x8D, 0x4A]), ('\u{40FA}', [0x9E, 0x7E]), ";
"    ('\u{4102}', [0x8D, 0x44]), ('\u{4103}', [0x98, 0xFE]), ('\u{4104}', [0xFD, 0xE8]), ";
"    ('\u{4109}', [0x99, 0x40]), ('\u{410E}', [0x94, 0xC9]), ('\u{4131}', [0x87, 0xC6]), ";
"    ('\u{4132}', [0x94, 0xD3]), ('\u{4167}', [0x99, 0x46]), ('\u{416C}', [0x90, 0xC0]), ";
"    ('\u{416E}', [0x94, 0xD1]), ('\u{417C}', [0x8D, 0x4E]), ('\u{417F}', [0x95, 0x73]), ";
"    ('\u{4181}', [0x87, 0xCE]), ('\u{4190}', [0x93, 0xC2]), ('\u{41B2}', [0x99, 0x48]), ";
"    ('\u{41C4}', [0x99, 0x4B]), ('\u{41CA}', [0x8E, 0x55]), ('\u{41CF}', [0x99, 0x4E]), ";
"    ('\u{41DB}', [0x8E, 0xFE]), ('\u{41ED}', [0x8D, 0x5F]), ('\u{41EF}', [0x8E, 0x59]), ";
"    ('\u{41F9}', [0x94, 0xEC]), ('\u{4211}', [0x94, 0xEF]), ('\u{4223}', [0x8C, 0x60]), ";
"    ('\u{4240}', [0x8F, 0x74]), ('\u{4260}', [0x99, 0x55]), ('\u{426A}', [0x95, 0x44]), ";
"    ('\u{4276}', [0x8C, 0xCB]), ('\u{427A}', [0x99, 0x56]), ('\u{428C}', [0x99, 0x59]), ";
"    ('\u{4294}', [0x99, 0x5B]), ('\u{42A2}', [0x8C, 0xC4]), ('\u{42B5}', [0xFA, 0x45]), ";
"    ('\u{42B9}', [0x90, 0xB7]), ('\u{42BC}', [0x97, 0x43]), ('\u{42F4}', [0x95, 0xCD]), ";
"    ('\u{42FB}', [0x97, 0xC9]), ('\u{42FC}', [0xFD, 0x50]), ('\u{430A}', [0x87, 0xAA]), ";
"    ('\u{432B}', [0x8E, 0xB9]), ('\u{436E}', [0x95, 0xC6]), ('\u{4397}', [0x99, 0x67]), ";
"    ('\u{439A}', [0x8C, 0xE3]), ('\u{43BA}', [0x8A, 0xB9]), ('\u{43C1}', [0x8D, 0xFC]), ";
"    ('\u{43D9}', [0x8A, 0x76]), ('\u{43DF}', [0x9D, 0x51]), ('\u{43ED}', [0x99, 0x73]), ";
"    ('\u{43F0}', [0x87, 0x40]), ('\u{43F2}', [0x9D, 0x4F]), ('\u{4401}', [0x99, 0x7A]), ";
"    ('\u{4402}', [0x95, 0x64]), ('\u{4413}', [0x99, 0xA1]), ('\u{4425}', [0x99, 0xA5]), ";
"    ('\u{442D}', [0x99, 0xA7]), ('\u{447A}', [0x8E, 0xED]), ('\u{448F}', [0x99, 0xAD]), ";
"    ('\u{4491}', [0xC8, 0x7E]), ('\u{449F}', [0x94, 0x6E]), ('\u{44A0}', [0x8F, 0x70]), ";
"    ('\u{44A2}', [0xFA, 0xD0]), ('\u{44B0}', [0x99, 0xB3]), ('\u{44B7}', [0xA0, 0x53]), ";
"    ('\u{44BD}', [0x8D, 0x5E]), ('\u{44C0}', [0x96, 0x5C]), ('\u{44C3}', [0x8C, 0xE0]), ";
"    ('\u{44C5}', [0xFD, 0x7A]), ('\u{44CE}', [0x97, 0xFE]), ('\u{44DD}', [0x92, 0xBD]), ";
"    ('\u{44DE}', [0x8D, 0x5D]), ('\u{44DF}', [0x97, 0xFD]), ('\u{44E1}', [0x87, 0xDB]), ";
"    ('\u{44E4}', [0x8F, 0x64]), ('\u{44E9}', [0xFC, 0xF7]), ('\u{44EA}', [0x95, 0x62]), ";
"    ('\u{44EB}', [0x97, 0xCD]), ('\u{44EC}', [0x9E, 0x64]), ('\u{44F4}', [0x92, 0x4C]), ";
"    ('\u{4503}', [0x8E, 0xC9]), ('\u{4504}', [0x99, 0xBC]), ('\u{4509}', [0x9D, 0xA5]), ";
"    ('\u{450B}', [0x8F, 0x54]), ('\u{4516}', [0x8F, 0x7C]), ('\u{451B}', [0x8D, 0x55]), ";
"    ('\u{451D}', [0x8E, 0xA2]), ('\u{4527}', [0x8F, 0x7A]), ('\u{452E}', [0x97, 0xAE]), ";
"    ('\u{4533}', [0x96, 0xC8]), ('\u{4536}', [0x8C, 0xE4]), ('\u{453B}', [0x99, 0xC3]), ";
"    ('\u{453D}', [0x90, 0xD6]), ('\u{453F}', [0x9C, 0xBE]), ('\u{4543}', [0x8F, 0x76]), ";
"    ('\u{4551}', [0x94, 0x70]), ('\u{4552}', [0xFB, 0x4B]), ('\u{4555}', [0xFD, 0xCA]), ";
"    ('\u{4558}', [0x8C, 0xEF]), ('\u{455C}', [0x8E, 0xC7]), ('\u{4561}', [0x8D, 0x54]), ";
"    ('\u{4562}', [0xA0, 0xF9]), ('\u{456A}', [0x8F, 0xA9]), ('\u{456D}', [0x8D, 0x51]), ";
"    ('\u{4577}', [0x99, 0xC7]), ('\u{4578}', [0x87, 0x44]), ('\u{4585}', [0x90, 0xD7]), ";
"    ('\u{45A6}', [0x87, 0x43]), ('\u{45B3}', [0x87, 0x47]), ('\u{45DA}', [0x87, 0x58]), ";
"    ('\u{45E9}', [0x9E, 0xDF]), ('\u{45EA}', [0x8D, 0x59]), ('\u{4603}', [0x87, 0x42]), ";
"    ('\u{4606}', [0x99, 0xCE]), ('\u{460F}', [0x8F, 0xBA]), ('\u{4615}', [0x8F, 0xEB]), ";
"    ('\u{4617}', [0x99, 0xCF]), ('\u{465B}', [0x8F, 0xC2]), ('\u{467A}', [0x92, 0xC9]), ";
"    ('\u{4680}', [0x97, 0xDC]), ('\u{46A1}', [0x87, 0x5D]), ('\u{46AE}', [0x87, 0xCC]), ";
"    ('\u{46BB}', [0x8D, 0x45]), ('\u{46CF}', [0x95, 0xB3]), ('\u{46D0}', [0x9C, 0x79]), ";
"    ('\u{46F5}', [0x95, 0xB2]), ('\u{46F7}', [0x8D, 0x4C]), ('\u{4713}', [0x8F, 0xDB]), ";
"    ('\u{4718}', [0x9B, 0xE3]), ('\u{4736}', [0x87, 0x4C]), ('\u{4744}', [0x87, 0x4D]), ";
"    ('\u{474E}', [0x9E, 0x7A]), ('\u{474F}', [0x87, 0x57]), ('\u{477C}', [0x9B, 0xEE]), ";
"    ('\u{4798}', [0x99, 0xDE]), ('\u{47A6}', [0xFA, 0xFA]), ('\u{47D5}', [0x8A, 0x52]), ";
"    ('\u{47ED}', [0x99, 0xE1]), ('\u{47F4}', [0x8A, 0x67]), ('\u{4800}', [0x8B, 0xB5]), ";
"    ('\u{480B}', [0x8A, 0xAC]), ('\u{4837}', [0x99, 0xE9]), ('\u{485D}', [0xFB, 0xCA]), ";
"    ('\u{4871}', [0x97, 0xDE]), ('\u{489B}', [0x95, 0xD1]), ('\u{48AD}', [0x99, 0xF5]), ";
"    ('\u{48AE}', [0xFC, 0x4A]), ('\u{48D0}', [0x9B, 0xA9]), ('\u{48DD}', [0xFB, 0xDC]), ";
"    ('\u{48ED}', [0xFE, 0x56]), ('\u{48F3}', [0x9E, 0xA4]), ('\u{48FA}', [0x9D, 0x49]), ";
"    ('\u{4906}', [0x95, 0xDB]), ('\u{4911}', [0x89, 0xC5]), ('\u{491E}', [0x99, 0xF8]), ";
"    ('\u{4925}', [0x96, 0x64]), ('\u{492A}', [0x90, 0x55]), ('\u{492D}', [0x96, 0xD4]), ";
"    ('\u{492F}', [0x87, 0xC4]), ('\u{4930}', [0x87, 0xAE]), ('\u{4935}', [0x97, 0x7C]), ";
"    ('\u{493C}', [0x96, 0x4D]), ('\u{493E}', [0x97, 0xE1]), ('\u{4945}', [0x9A, 0x48]), ";
"    ('\u{4951}', [0x9A, 0x49]), ('\u{4953}', [0xFE, 0x7D]), ('\u{4965}', [0x90, 0xAA]), ";
"    ('\u{496A}', [0x9A, 0x50]), ('\u{4972}', [0x93, 0x47]), ('\u{4989}', [0x8E, 0xD8]), ";
"    ('\u{49A1}', [0x90, 0xC9]), ('\u{49A7}', [0x9A, 0x55]), ('\u{49DF}', [0x90, 0xBC]), ";
"    ('\u{49E5}', [0x9A, 0x58]), ('\u{49E7}', [0x8B, 0xB8]), ('\u{4A0F}', [0x90, 0xD5]), ";
"    ('\u{4A1D}', [0x96, 0x41]), ('\u{4A24}', [0x9A, 0x5A]), ('\u{4A35}', [0x9A, 0x5C]), ";
"    ('\u{4A96}', [0x97, 0xC2]), ('\u{4AA4}', [0x87, 0x5C]), ('\u{4AB4}', [0x8A, 0xBB]), ";
"    ('\u{4AB8}', [0x9B, 0xAA]), ('\u{4AD1}', [0x90, 0xF5]), ('\u{4AE4}', [0x9A, 0x60]), ";
"    ('\u{4AFF}', [0x91, 0x45]), ('\u{4B10}', [0x8C, 0x58]), ('\u{4B19}', [0x9A, 0x63]), ";
"    ('\u{4B20}', [0x8C, 0x49]), ('\u{4B2C}', [0x8B, 0xB6]), ('\u{4B37}', [0xFC, 0xCF]), ";
"    ('\u{4B6F}', [0x96, 0x6B]), ('\u{4B70}', [0x9A, 0x6E]), ('\u{4B72}', [0x91, 0x4F]), ";
"    ('\u{4B7B}', [0x97, 0x46]), ('\u{4B7E}', [0xA0, 0xE6]), ('\u{4B8E}', [0x92, 0xD7]), ";
"    ('\u{4B90}', [0x96, 0x75]), ('\u{4B93}', [0x93, 0xD4]), ('\u{4B96}', [0x91, 0xBB]), ";
"    ('\u{4B97}', [0x96, 0x79]), ('\u{4B9D}', [0x9A, 0x70]), ('\u{4BBD}', [0x96, 0x78]), ";
"    ('\u{4BBE}', [0x91, 0xCD]), ('\u{4BC0}', [0x9C, 0x4A]), ('\u{4C04}', [0xA0, 0x6F]), ";
"    ('\u{4C07}', [0xA0, 0x6A]), ('\u{4C0E}', [0x91, 0x5F]), ('\u{4C32}', [0x87, 0x41]), ";
"    ('\u{4C3B}', [0x9F, 0xA5]), ('\u{4C3E}', [0x89, 0xBA]), ('\u{4C40}', [0x87, 0x4F]), ";
"    ('\u{4C47}', [0x87, 0x4E]), ('\u{4C57}', [0x87, 0x55]), ('\u{4C5B}', [0x9E, 0xCD]), ";
"    ('\u{4C6D}', [0x9A, 0x79]), ('\u{4C77}', [0x8C, 0xF2]), ('\u{4C7B}', [0x8D, 0x57]), ";
"    ('\u{4C7D}', [0x9D, 0xCE]), ('\u{4C81}', [0x8C, 0xD2]), ('\u{4C85}', [0x87, 0x59]), ";
"    ('\u{4CA4}', [0x9D, 0x73]), ('\u{4CAE}', [0x96, 0xB9]), ('\u{4CB0}', [0x96, 0xBC]), ";
"    ('\u{4CB7}', [0x9C, 0xD1]), ('\u{4CCD}', [0x89, 0xB7]), ('\u{4CE1}', [0x9E, 0xEE]), ";
"    ('\u{4CE2}', [0x87, 0x49]), ('\u{4CED}', [0xFB, 0x43]), ('\u{4D07}', [0x87, 0x5B]), ";
"    ('\u{4D09}', [0x9E, 0xC9]), ('\u{4D10}', [0xFB, 0xD3]), ('\u{4D34}', [0x91, 0xAE]), ";
"    ('\u{4D76}', [0x8D, 0x58]), ('\u{4D77}', [0x87, 0x46]), ('\u{4D89}', [0x8D, 0x56]), ";
"    ('\u{4D91}', [0x9D, 0x78]), ('\u{4D9C}', [0x9D, 0x7B]), ('\u{4E00}', [0xA4, 0x40]), ";
"    ('\u{4E01}', [0xA4, 0x42]), ('\u{4E03}', [0xA4, 0x43]), ('\u{4E04}', [0x9E, 0xB3]), ";
"    ('\u{4E07}', [0xC9, 0x45]), ('\u{4E08}', [0xA4, 0x56]), ('\u{4E09}', [0xA4, 0x54]), ";
"    ('\u{4E0A}', [0xA4, 0x57]), ('\u{4E0B}', [0xA4, 0x55]), ('\u{4E0C}', [0xC9, 0x46]), ";
"    ('\u{4E0D}', [0xA4, 0xA3]), ('\u{4E0E}', [0xC9, 0x4F]), ('\u{4E0F}', [0xC9, 0x4D]), ";
"    ('\u{4E10}', [0xA4, 0xA2]), ('\u{4E11}', [0xA4, 0xA1]), ('\u{4E14}', [0xA5, 0x42]), ";
"    ('\u{4E15}', [0xA5, 0x41]), ('\u{4E16}', [0xA5, 0x40]), ('\u{4E18}', [0xA5, 0x43]), ";
"    ('\u{4E19}', [0xA4, 0xFE]), ('\u{4E1A}', [0x9E, 0xB2]), ('\u{4E1C}', [0x9D, 0xD6]), ";
"    ('\u{4E1E}', [0xA5, 0xE0]), ('\u{4E1F}', [0xA5, 0xE1]), ('\u{4E21}', [0x99, 0x4F]), ";
"    ('\u{4E24}', [0x89, 0xCE]), ('\u{4E26}', [0xA8, 0xC3]), ('\u{4E28}', [0x8B, 0xC0]), ";
"    ('\u{4E2A}', [0x9F, 0xC4]), ('\u{4E2B}', [0xA4, 0x58]), ('\u{4E2C}', [0x8B, 0xD4]), ";
"    ('\u{4E2D}', [0xA4, 0xA4]), ('\u{4E2E}', [0xC9, 0x50]), ('\u{4E2F}', [0x8C, 0x72]), ";
"    ('\u{4E30}', [0xA4, 0xA5]), ('\u{4E31}', [0xC9, 0x63]), ('\u{4E32}', [0xA6, 0xEA]), ";
"    ('\u{4E33}', [0xCB, 0xB1]), ('\u{4E36}', [0xC6, 0xBF]), ('\u{4E37}', [0x8B, 0xF9]), ";
"    ('\u{4E38}', [0xA4, 0x59]), ('\u{4E39}', [0xA4, 0xA6]), ('\u{4E3B}', [0xA5, 0x44]), ";
"    ('\u{4E3C}', [0xC9, 0x64]), ('\u{4E3D}', [0x89, 0x46]), ('\u{4E3F}', [0xC6, 0xC0]), ";
"    ('\u{4E42}', [0xC9, 0x40]), ('\u{4E43}', [0xA4, 0x44]), ('\u{4E45}', [0xA4, 0x5B]), ";
"    ('\u{4E47}', [0xC9, 0x47]), ('\u{4E48}', [0xA4, 0x5C]), ('\u{4E49}', [0xFA, 0xE5]), ";
"    ('\u{4E4B}', [0xA4, 0xA7]), ('\u{4E4D}', [0xA5, 0x45]), ('\u{4E4E}', [0xA5, 0x47]), ";
"    ('\u{4E4F}', [0xA5, 0x46]), ('\u{4E52}', [0xA5, 0xE2]), ('\u{4E53}', [0xA5, 0xE3]), ";
"    ('\u{4E56}', [0xA8, 0xC4]), ('\u{4E58}', [0xAD, 0xBC]), ('\u{4E59}', [0xA4, 0x41]), ";
"    ('\u{4E5A}', [0xC8, 0x7B]), ('\u{4E5B}', [0x8B, 0xC6]), ('\u{4E5C}', [0xC9, 0x41]), ";
"    ('\u{4E5D}', [0xA4, 0x45]), ('\u{4E5E}', [0xA4, 0x5E]), ('\u{4E5F}', [0xA4, 0x5D]), ";
"    ('\u{4E69}', [0xA5, 0xE4]), ('\u{4E6A}', [0x9C, 0x57]), ('\u{4E73}', [0xA8, 0xC5]), ";
"    ('\u{4E78}', [0x9A, 0xFB]), ('\u{4E7E}', [0xB0, 0xAE]), ('\u{4E7F}', [0xD4, 0x4B]), ";
"    ('\u{4E80}', [0x89, 0xD0]), ('\u{4E81}', [0x89, 0xCF]), ('\u{4E82}', [0xB6, 0xC3]), ";
"    ('\u{4E83}', [0xDC, 0xB1]), ('\u{4E84}', [0xDC, 0xB2]), ('\u{4E85}', [0xC6, 0xC1]), ";
"    ('\u{4E86}', [0xA4, 0x46]), ('\u{4E87}', [0x89, 0xD1]), ('\u{4E88}', [0xA4, 0xA9]), ";
"    ('\u{4E89}', [0x89, 0xE2]), ('\u{4E8B}', [0xA8, 0xC6]), ('\u{4E8C}', [0xA4, 0x47]), ";
"    ('\u{4E8D}', [0xC9, 0x48]), ('\u{4E8E}', [0xA4, 0x5F]), ('\u{4E91}', [0xA4, 0xAA]), ";
"    ('\u{4E92}', [0xA4, 0xAC]), ('\u{4E93}', [0xC9, 0x51]), ('\u{4E94}', [0xA4, 0xAD]), ";
"    ('\u{4E95}', [0xA4, 0xAB]), ('\u{4E98}', [0x92, 0x7E]), ('\u{4E99}', [0xA5, 0xE5]), ";
"    ('\u{4E9A}', [0x9D, 0xBA]), ('\u{4E9B}', [0xA8, 0xC7]), ('\u{4E9E}', [0xA8, 0xC8]), ";
"    ('\u{4E9F}', [0xAB, 0x45]), ('\u{4EA0}', [0xC6, 0xC2]), ('\u{4EA1}', [0xA4, 0x60]), ";
"    ('\u{4EA2}', [0xA4, 0xAE]), ('\u{4EA3}', [0x8C, 0x6F]), ('\u{4EA4}', [0xA5, 0xE6]), ";
"    ('\u{4EA5}', [0xA5, 0xE8]), ('\u{4EA6}', [0xA5, 0xE7]), ('\u{4EA8}', [0xA6, 0xEB]), ";
"    ('\u{4EAB}', [0xA8, 0xC9]), ('\u{4EAC}', [0xA8, 0xCA]), ('\u{4EAD}', [0xAB, 0x46]), ";
"    ('\u{4EAE}', [0xAB, 0x47]), ('\u{4EB3}', [0xAD, 0xBD]), ('\u{4EB6}', [0xDC, 0xB3]), ";
"    ('\u{4EB7}', [0xFB, 0xF8]), ('\u{4EB9}', [0xF6, 0xD6]), ('\u{4EBA}', [0xA4, 0x48]), ";
"    ('\u{4EBB}', [0x8B, 0xC7]), ('\u{4EBC}', [0x92, 0x6B]), ('\u{4EBF}', [0x89, 0xD2]), ";
"    ('\u{4EC0}', [0xA4, 0xB0]), ('\u{4EC1}', [0xA4, 0xAF]), ('\u{4EC2}', [0xC9, 0x52]), ";
"    ('\u{4EC3}', [0xA4, 0xB1]), ('\u{4EC4}', [0xA4, 0xB7]), ('\u{4EC6}', [0xA4, 0xB2]), ";
"    ('\u{4EC7}', [0xA4, 0xB3]), ('\u{4EC8}', [0xC9, 0x54]), ('\u{4EC9}', [0xC9, 0x53]), ";
"    ('\u{4ECA}', [0xA4, 0xB5]), ('\u{4ECB}', [0xA4, 0xB6]), ('\u{4ECD}', [0xA4, 0xB4]), ";
"    ('\u{4ECE}', [0x9F, 0xCF]), ('\u{4ED4}', [0xA5, 0x4A]), ('\u{4ED5}', [0xA5, 0x4B]), ";
"    ('\u{4ED6}', [0xA5, 0x4C]), ('\u{4ED7}', [0xA5, 0x4D]), ('\u{4ED8}', [0xA5, 0x49]), ";
"    ('\u{4ED9}', [0xA5, 0x50]), ('\u{4EDA}', [0xC9, 0x6A]), ('\u{4EDC}', [0xC9, 0x66]), ";
"    ('\u{4EDD}', [0xC6, 0xDF]), ('\u{4EDE}', [0xA5, 0x51]), ('\u{4EDF}', [0xA5, 0x61]), ";
"    ('\u{4EE1}', [0xC9, 0x68]), ('\u{4EE3}', [0xA5, 0x4E]), ('\u{4EE4}', [0xA5, 0x4F]), ";
"    ('\u{4EE5}', [0xA5, 0x48]), ('\u{4EE8}', [0xC9, 0x65]), ('\u{4EE9}', [0xC9, 0x67]), ";
"    ('\u{4EEA}', [0x9D, 0xA9]), ('\u{4EEB}', [0x89, 0xD3]), ('\u{4EEE}', [0x99, 0xE2]), ";
"    ('\u{4EF0}', [0xA5, 0xF5]), ('\u{4EF1}', [0xC9, 0xB0]), ('\u{4EF2}', [0xA5, 0xF2]), ";
"    ('\u{4EF3}', [0xA5, 0xF6]), ('\u{4EF4}', [0xC9, 0xBA]), ('\u{4EF5}', [0xC9, 0xAE]), ";
"    ('\u{4EF6}', [0xA5, 0xF3]), ('\u{4EF7}', [0xC9, 0xB2]), ('\u{4EF8}', [0x92, 0x67]), ";
"    ('\u{4EFB}', [0xA5, 0xF4]), ('\u{4EFD}', [0xA5, 0xF7]), ('\u{4EFF}', [0xA5, 0xE9]), ";
"    ('\u{4F00}', [0xC9, 0xB1]), ('\u{4F01}', [0xA5, 0xF8]), ('\u{4F02}', [0xC9, 0xB5]), ";
"    ('\u{4F03}', [0x92, 0xA4]), ('\u{4F04}', [0xC9, 0xB9]), ('\u{4F05}', [0xC9, 0xB6]), ";
"    ('\u{4F08}', [0xC9, 0xB3]), ('\u{4F09}', [0xA5, 0xEA]), ('\u{4F0A}', [0xA5, 0xEC]), ";
"    ('\u{4F0B}', [0xA5, 0xF9]), ('\u{4F0D}', [0xA5, 0xEE]), ('\u{4F0E}', [0xC9, 0xAB]), ";
"    ('\u{4F0F}', [0xA5, 0xF1]), ('\u{4F10}', [0xA5, 0xEF]), ('\u{4F11}', [0xA5, 0xF0]), ";
"    ('\u{4F12}', [0xC9, 0xBB]), ('\u{4F13}', [0xC9, 0xB8]), ('\u{4F14}', [0xC9, 0xAF]), ";
"    ('\u{4F15}', [0xA5, 0xED]), ('\u{4F17}', [0x8C, 0x73]), ('\u{4F18}', [0xC9, 0xAC]), ";
"    ('\u{4F19}', [0xA5, 0xEB]), ('\u{4F1A}', [0x89, 0x4E]), ('\u{4F1D}', [0xC9, 0xB4]), ";
"    ('\u{4F22}', [0xC9, 0xB7]), ('\u{4F28}', [0x89, 0x4F]), ('\u{4F29}', [0x92, 0x78]), ";
"    ('\u{4F2C}', [0xC9, 0xAD]), ('\u{4F2D}', [0xCA, 0x66]), ('\u{4F2F}', [0xA7, 0x42]), ";
"    ('\u{4F30}', [0xA6, 0xF4]), ('\u{4F32}', [0x91, 0xB6]), ('\u{4F33}', [0xCA, 0x67]), ";
"    ('\u{4F34}', [0xA6, 0xF1]), ('\u{4F36}', [0xA7, 0x44]), ('\u{4F37}', [0x89, 0xD4]), ";
"    ('\u{4F38}', [0xA6, 0xF9]), ('\u{4F39}', [0x9F, 0xD2]), ('\u{4F3A}', [0xA6, 0xF8]), ";
"    ('\u{4F3B}', [0xCA, 0x5B]), ('\u{4F3C}', [0xA6, 0xFC]), ('\u{4F3D}', [0xA6, 0xF7]), ";
"    ('\u{4F3E}', [0xCA, 0x60]), ('\u{4F3F}', [0xCA, 0x68]), ('\u{4F41}', [0xCA, 0x64]), ";
"    ('\u{4F42}', [0x92, 0xA7]), ('\u{4F43}', [0xA6, 0xFA]), ('\u{4F45}', [0x95, 0xA2]), ";
"    ('\u{4F46}', [0xA6, 0xFD]), ('\u{4F47}', [0xA6, 0xEE]), ('\u{4F48}', [0xA7, 0x47]), ";
"    ('\u{4F49}', [0xCA, 0x5D]), ('\u{4F4B}', [0x92, 0x6E]), ('\u{4F4C}', [0xCB, 0xBD]), ";
"    ('\u{4F4D}', [0xA6, 0xEC]), ('\u{4F4E}', [0xA7, 0x43]), ('\u{4F4F}', [0xA6, 0xED]), ";
"    ('\u{4F50}', [0xA6, 0xF5]), ('\u{4F51}', [0xA6, 0xF6]), ('\u{4F52}', [0xCA, 0x62]), ";
"    ('\u{4F53}', [0xCA, 0x5E]), ('\u{4F54}', [0xA6, 0xFB]), ('\u{4F55}', [0xA6, 0xF3]), ";
"    ('\u{4F56}', [0xCA, 0x5A]), ('\u{4F57}', [0xA6, 0xEF]), ('\u{4F58}', [0xCA, 0x65]), ";
"    ('\u{4F59}', [0xA7, 0x45]), ('\u{4F5A}', [0xA7, 0x48]), ('\u{4F5B}', [0xA6, 0xF2]), ";
"    ('\u{4F5C}', [0xA7, 0x40]), ('\u{4F5D}', [0xA7, 0x46]), ('\u{4F5E}', [0xA6, 0xF0]), ";
"    ('\u{4F5F}', [0xCA, 0x63]), ('\u{4F60}', [0xA7, 0x41]), ('\u{4F61}', [0xCA, 0x69]), ";
"    ('\u{4F62}', [0xCA, 0x5C]), ('\u{4F63}', [0xA6, 0xFE]), ('\u{4F64}', [0xCA, 0x5F]), ";
"    ('\u{4F67}', [0xCA, 0x61]), ('\u{4F69}', [0xA8, 0xD8]), ('\u{4F6A}', [0xCB, 0xBF]), ";
"    ('\u{4F6B}', [0xCB, 0xCB]), ('\u{4F6C}', [0xA8, 0xD0]), ('\u{4F6E}', [0xCB, 0xCC]), ";
"    ('\u{4F6F}', [0xA8, 0xCB]), ('\u{4F70}', [0xA8, 0xD5]), ('\u{4F72}', [0x96, 0xEA]), ";
"    ('\u{4F73}', [0xA8, 0xCE]), ('\u{4F74}', [0xCB, 0xB9]), ('\u{4F75}', [0xA8, 0xD6]), ";
"    ('\u{4F76}', [0xCB, 0xB8]), ('\u{4F77}', [0xCB, 0xBC]), ('\u{4F78}', [0xCB, 0xC3]), ";
"    ('\u{4F79}', [0xCB, 0xC1]), ('\u{4F7A}', [0xA8, 0xDE]), ('\u{4F7B}', [0xA8, 0xD9]), ";
"    ('\u{4F7C}', [0xCB, 0xB3]), ('\u{4F7D}', [0xCB, 0xB5]), ('\u{4F7E}', [0xA8, 0xDB]), ";
"    ('\u{4F7F}', [0xA8, 0xCF]), ('\u{4F80}', [0xCB, 0xB6]), ('\u{4F81}', [0xCB, 0xC2]), ";
"    ('\u{4F82}', [0xCB, 0xC9]), ('\u{4F83}', [0xA8, 0xD4]), ('\u{4F84}', [0xCB, 0xBB]), ";
"    ('\u{4F85}', [0xCB, 0xB4]), ('\u{4F86}', [0xA8, 0xD3]), ('\u{4F87}', [0xCB, 0xB7]), ";
"    ('\u{4F88}', [0xA8, 0xD7]), ('\u{4F89}', [0xCB, 0xBA]), ('\u{4F8A}', [0x92, 0x6F]), ";
"    ('\u{4F8B}', [0xA8, 0xD2]), ('\u{4F8D}', [0xA8, 0xCD]), ('\u{4F8F}', [0xA8, 0xDC]), ";
"    ('\u{4F90}', [0xCB, 0xC4]), ('\u{4F91}', [0xA8, 0xDD]), ('\u{4F92}', [0xCB, 0xC8]), ";
"    ('\u{4F94}', [0xCB, 0xC6]), ('\u{4F95}', [0xCB, 0xCA]), ('\u{4F96}', [0xA8, 0xDA]), ";
"    ('\u{4F97}', [0xCB, 0xBE]), ('\u{4F98}', [0xCB, 0xB2]), ('\u{4F9A}', [0xCB, 0xC0]), ";
"    ('\u{4F9B}', [0xA8, 0xD1]), ('\u{4F9C}', [0xCB, 0xC5]), ('\u{4F9D}', [0xA8, 0xCC]), ";
"    ('\u{4F9E}', [0xCB, 0xC7]), ('\u{4FA2}', [0x92, 0xA3]), ('\u{4FA8}', [0x89, 0x50]), ";
"    ('\u{4FAB}', [0xFA, 0x57]), ('\u{4FAE}', [0xAB, 0x56]), ('\u{4FAF}', [0xAB, 0x4A]), ";
"    ('\u{4FB0}', [0x98, 0x66]), ('\u{4FB2}', [0xCD, 0xE0]), ('\u{4FB3}', [0xCD, 0xE8]), ";
"    ('\u{4FB4}', [0x8C, 0xF8]), ('\u{4FB5}', [0xAB, 0x49]), ('\u{4FB6}', [0xAB, 0x51]), ";
"    ('\u{4FB7}', [0xAB, 0x5D]), ('\u{4FB9}', [0xCD, 0xEE]), ('\u{4FBA}', [0xCD, 0xEC]), ";
"    ('\u{4FBB}', [0x9C, 0x53]), ('\u{4FBD}', [0x89, 0xD6]), ('\u{4FBF}', [0xAB, 0x4B]), ";
"    ('\u{4FC0}', [0xCD, 0xED]), ('\u{4FC1}', [0xCD, 0xE3]), ('\u{4FC2}', [0xAB, 0x59]), ";
"    ('\u{4FC3}', [0xAB, 0x50]), ('\u{4FC4}', [0xAB, 0x58]), ('\u{4FC5}', [0xCD, 0xDE]), ";
"    ('\u{4FC7}', [0xCD, 0xEA]), ('\u{4FC8}', [0x98, 0xB2]), ('\u{4FC9}', [0xCD, 0xE1]), ";
"    ('\u{4FCA}', [0xAB, 0x54]), ('\u{4FCB}', [0xCD, 0xE2]), ('\u{4FCC}', [0x92, 0xAB]), ";
"    ('\u{4FCD}', [0xCD, 0xDD]), ('\u{4FCE}', [0xAB, 0x5B]), ('\u{4FCF}', [0xAB, 0x4E]), ";
"    ('\u{4FD0}', [0xAB, 0x57]), ('\u{4FD1}', [0xAB, 0x4D]), ('\u{4FD3}', [0xCD, 0xDF]), ";
"    ('\u{4FD4}', [0xCD, 0xE4]), ('\u{4FD6}', [0xCD, 0xEB]), ('\u{4FD7}', [0xAB, 0x55]), ";
"    ('\u{4FD8}', [0xAB, 0x52]), ('\u{4FD9}', [0xCD, 0xE6]), ('\u{4FDA}', [0xAB, 0x5A]), ";
"    ('\u{4FDB}', [0xCD, 0xE9]), ('\u{4FDC}', [0xCD, 0xE5]), ('\u{4FDD}', [0xAB, 0x4F]), ";
"    ('\u{4FDE}', [0xAB, 0x5C]), ('\u{4FDF}', [0xAB, 0x53]), ('\u{4FE0}', [0xAB, 0x4C]), ";
"    ('\u{4FE1}', [0xAB, 0x48]), ('\u{4FE4}', [0x96, 0xDE]), ('\u{4FE5}', [0x92, 0xAC]), ";
"    ('\u{4FEC}', [0xCD, 0xEF]), ('\u{4FEE}', [0xAD, 0xD7]), ('\u{4FEF}', [0xAD, 0xC1]), ";
"    ('\u{4FF0}', [0x8C, 0x70]), ('\u{4FF1}', [0xAD, 0xD1]), ('\u{4FF2}', [0x9F, 0x6E]), ";
"    ('\u{4FF3}', [0xAD, 0xD6]), ('\u{4FF4}', [0xD0, 0xD0]), ('\u{4FF5}', [0xD0, 0xCF]), ";
"    ('\u{4FF6}', [0xD0, 0xD4]), ('\u{4FF7}', [0xD0, 0xD5]), ('\u{4FF8}', [0xAD, 0xC4]), ";
"    ('\u{4FF9}', [0x8E, 0xF2]), ('\u{4FFA}', [0xAD, 0xCD]), ('\u{4FFD}', [0x9F, 0x6C]), ";
"    ('\u{4FFE}', [0xAD, 0xDA]), ('\u{5000}', [0xAD, 0xCE]), ('\u{5003}', [0x89, 0xD8]), ";
"    ('\u{5005}', [0xD0, 0xC9]), ('\u{5006}', [0xAD, 0xC7]), ('\u{5007}', [0xD0, 0xCA]), ";
"    ('\u{5008}', [0xFA, 0x59]), ('\u{5009}', [0xAD, 0xDC]), ('\u{500B}', [0xAD, 0xD3]), ";
"    ('\u{500C}', [0xAD, 0xBE]), ('\u{500D}', [0xAD, 0xBF]), ('\u{500E}', [0xD0, 0xDD]), ";
"    ('\u{500F}', [0xB0, 0xBF]), ('\u{5011}', [0xAD, 0xCC]), ('\u{5012}', [0xAD, 0xCB]), ";
"    ('\u{5013}', [0xD0, 0xCB]), ('\u{5014}', [0xAD, 0xCF]), ('\u{5015}', [0xD4, 0x5B]), ";
"    ('\u{5016}', [0xAD, 0xC6]), ('\u{5017}', [0xD0, 0xD6]), ('\u{5018}', [0xAD, 0xD5]), ";
"    ('\u{5019}', [0xAD, 0xD4]), ('\u{501A}', [0xAD, 0xCA]), ('\u{501B}', [0xD0, 0xCE]), ";
"    ('\u{501C}', [0xD0, 0xD7]), ('\u{501E}', [0xD0, 0xC8]), ('\u{501F}', [0xAD, 0xC9]), ";
"    ('\u{5020}', [0xD0, 0xD8]), ('\u{5021}', [0xAD, 0xD2]), ('\u{5022}', [0xD0, 0xCC]), ";
"    ('\u{5023}', [0xAD, 0xC0]), ('\u{5025}', [0xAD, 0xC3]), ('\u{5026}', [0xAD, 0xC2]), ";
"    ('\u{5027}', [0xD0, 0xD9]), ('\u{5028}', [0xAD, 0xD0]), ('\u{5029}', [0xAD, 0xC5]), ";
"    ('\u{502A}', [0xAD, 0xD9]), ('\u{502B}', [0xAD, 0xDB]), ('\u{502C}', [0xD0, 0xD3]), ";
"    ('\u{502D}', [0xAD, 0xD8]), ('\u{502E}', [0x92, 0xA8]), ('\u{502F}', [0xD0, 0xDB]), ";
"    ('\u{5030}', [0xD0, 0xCD]), ('\u{5031}', [0xD0, 0xDC]), ('\u{5033}', [0xD0, 0xD1]), ";
"    ('\u{5034}', [0x91, 0x63]), ('\u{5035}', [0xD0, 0xDA]), ('\u{5037}', [0xD0, 0xD2]), ";
"    ('\u{503B}', [0x8C, 0x40]), ('\u{503C}', [0xAD, 0xC8]), ('\u{5040}', [0xD4, 0x63]), ";
"    ('\u{5041}', [0xD4, 0x57]), ('\u{5043}', [0xB0, 0xB3]), ('\u{5045}', [0xD4, 0x5C]), ";
"    ('\u{5046}', [0xD4, 0x62]), ('\u{5047}', [0xB0, 0xB2]), ('\u{5048}', [0xD4, 0x55]), ";
"    ('\u{5049}', [0xB0, 0xB6]), ('\u{504A}', [0xD4, 0x59]), ('\u{504B}', [0xD4, 0x52]), ";
"    ('\u{504C}', [0xB0, 0xB4]), ('\u{504D}', [0xD4, 0x56]), ('\u{504E}', [0xB0, 0xB9]), ";
"    ('\u{504F}', [0xB0, 0xBE]), ('\u{5051}', [0xD4, 0x67]), ('\u{5053}', [0xD4, 0x51]), ";
"    ('\u{5055}', [0xB0, 0xBA]), ('\u{5056}', [0x9F, 0x73]), ('\u{5057}', [0xD4, 0x66]), ";
"    ('\u{5058}', [0x92, 0xAD]), ('\u{505A}', [0xB0, 0xB5]), ('\u{505B}', [0xD4, 0x58]), ";
"    ('\u{505C}', [0xB0, 0xB1]), ('\u{505D}', [0xD4, 0x53]), ('\u{505E}', [0xD4, 0x4F]), ";
"    ('\u{505F}', [0xD4, 0x5D]), ('\u{5060}', [0xD4, 0x50]), ('\u{5061}', [0xD4, 0x4E]), ";
"    ('\u{5062}', [0xD4, 0x5A]), ('\u{5063}', [0xD4, 0x60]), ('\u{5064}', [0xD4, 0x61]), ";
"    ('\u{5065}', [0xB0, 0xB7]), ('\u{5066}', [0x9B, 0xE9]), ('\u{5068}', [0xD8, 0x5B]), ";
"    ('\u{5069}', [0xD4, 0x5E]), ('\u{506A}', [0xD4, 0x4D]), ('\u{506B}', [0xD4, 0x5F]), ";
"    ('\u{506C}', [0x92, 0xA9]), ('\u{506D}', [0xB0, 0xC1]), ('\u{506E}', [0xD4, 0x64]), ";
"    ('\u{506F}', [0xB0, 0xC0]), ('\u{5070}', [0xD4, 0x4C]), ('\u{5072}', [0xD4, 0x54]), ";
"    ('\u{5073}', [0xD4, 0x65]), ('\u{5074}', [0xB0, 0xBC]), ('\u{5075}', [0xB0, 0xBB]), ";
"    ('\u{5076}', [0xB0, 0xB8]), ('\u{5077}', [0xB0, 0xBD]), ('\u{507A}', [0xB0, 0xAF]), ";
"    ('\u{507D}', [0xB0, 0xB0]), ('\u{5080}', [0xB3, 0xC8]), ('\u{5081}', [0x92, 0xAA]), ";
"    ('\u{5082}', [0xD8, 0x5E]), ('\u{5083}', [0xD8, 0x57]), ('\u{5085}', [0xB3, 0xC5]), ";
"    ('\u{5087}', [0xD8, 0x5F]), ('\u{5088}', [0x89, 0xD9]), ('\u{508B}', [0xD8, 0x55]), ";
"    ('\u{508C}', [0xD8, 0x58]), ('\u{508D}', [0xB3, 0xC4]), ('\u{508E}', [0xD8, 0x59]), ";
"    ('\u{5090}', [0xFD, 0x56]), ('\u{5091}', [0xB3, 0xC7]), ('\u{5092}', [0xD8, 0x5D]), ";
"    ('\u{5094}', [0xD8, 0x53]), ('\u{5095}', [0xD8, 0x52]), ('\u{5096}', [0xB3, 0xC9]), ";
"    ('\u{5098}', [0xB3, 0xCA]), ('\u{5099}', [0xB3, 0xC6]), ('\u{509A}', [0xB3, 0xCB]), ";
"    ('\u{509B}', [0xD8, 0x51]), ('\u{509C}', [0xD8, 0x5C]), ('\u{509D}', [0xD8, 0x5A]), ";
"    ('\u{509E}', [0xD8, 0x54]), ('\u{50A2}', [0xB3, 0xC3]), ('\u{50A3}', [0xD8, 0x56]), ";
"    ('\u{50A6}', [0x9F, 0xA8]), ('\u{50AC}', [0xB6, 0xCA]), ('\u{50AD}', [0xB6, 0xC4]), ";
"    ('\u{50AE}', [0xDC, 0xB7]), ('\u{50AF}', [0xB6, 0xCD]), ('\u{50B0}', [0xDC, 0xBD]), ";
"    ('\u{50B1}', [0xDC, 0xC0]), ('\u{50B2}', [0xB6, 0xC6]), ('\u{50B3}', [0xB6, 0xC7]), ";
"    ('\u{50B4}', [0xDC, 0xBA]), ('\u{50B5}', [0xB6, 0xC5]), ('\u{50B6}', [0xDC, 0xC3]), ";
"    ('\u{50B7}', [0xB6, 0xCB]), ('\u{50B8}', [0xDC, 0xC4]), ('\u{50BA}', [0xDC, 0xBF]), ";
"    ('\u{50BB}', [0xB6, 0xCC]), ('\u{50BC}', [0x8C, 0x71]), ('\u{50BD}', [0xDC, 0xB4]), ";
"    ('\u{50BE}', [0xB6, 0xC9]), ('\u{50BF}', [0xDC, 0xB5]), ('\u{50C1}', [0xDC, 0xBE]), ";
"    ('\u{50C2}', [0xDC, 0xBC]), ('\u{50C4}', [0xDC, 0xB8]), ('\u{50C5}', [0xB6, 0xC8]), "
].
(* /repo/src/generated/whatwg/big5_whatwg_tables.rs.inc:3073-3328 *)
Definition big5_inc_12 : list line := [
"    ('\u{50C6}', [0xDC, 0xB6]), ('\u{50C7}', [0xB6, 0xCE]), ('\u{50C8}', [0xDC, 0xBB]), ";
"    ('\u{50C9}', [0xDC, 0xC2]), ('\u{50CA}', [0xDC, 0xB9]), ('\u{50CB}', [0xDC, 0xC1]), ";
"    ('\u{50CD}', [0x92, 0xA1]), ('\u{50CE}', [0xB9, 0xB6]), ('\u{50CF}', [0xB9, 0xB3]), ";
"    ('\u{50D0}', [0x90, 0xE3]), ('\u{50D1}', [0xB9, 0xB4]), ('\u{50D3}', [0xE0, 0xF9]), ";
"    ('\u{50D4}', [0xE0, 0xF1]), ('\u{50D5}', [0xB9, 0xB2]), ('\u{50D6}', [0xB9, 0xAF]), ";
"    ('\u{50D7}', [0xE0, 0xF2]), ('\u{50D9}', [0xA0, 0xA6]), ('\u{50DA}', [0xB9, 0xB1]), ";
"    ('\u{50DB}', [0xE0, 0xF5]), ('\u{50DD}', [0xE0, 0xF7]), ('\u{50DF}', [0x94, 0xAB]), ";
"    ('\u{50E0}', [0xE0, 0xFE]), ('\u{50E1}', [0xFC, 0x72]), ('\u{50E3}', [0xE0, 0xFD]), ";
"    ('\u{50E4}', [0xE0, 0xF8]), ('\u{50E5}', [0xB9, 0xAE]), ('\u{50E6}', [0xE0, 0xF0]), ";
"    ('\u{50E7}', [0xB9, 0xAC]), ('\u{50E8}', [0xE0, 0xF3]), ('\u{50E9}', [0xB9, 0xB7]), ";
"    ('\u{50EA}', [0xE0, 0xF6]), ('\u{50EC}', [0xE0, 0xFA]), ('\u{50ED}', [0x9F, 0xCB]), ";
"    ('\u{50EE}', [0xB9, 0xAD]), ('\u{50EF}', [0xE0, 0xFC]), ('\u{50F0}', [0xE0, 0xFB]), ";
"    ('\u{50F1}', [0xB9, 0xB5]), ('\u{50F3}', [0xE0, 0xF4]), ('\u{50F4}', [0x97, 0xC4]), ";
"    ('\u{50F5}', [0xBB, 0xF8]), ('\u{50F6}', [0xE4, 0xEC]), ('\u{50F8}', [0xE4, 0xE9]), ";
"    ('\u{50F9}', [0xBB, 0xF9]), ('\u{50FB}', [0xBB, 0xF7]), ('\u{50FC}', [0x92, 0xAE]), ";
"    ('\u{50FD}', [0xE4, 0xF0]), ('\u{50FE}', [0xE4, 0xED]), ('\u{50FF}', [0xE4, 0xE6]), ";
"    ('\u{5100}', [0xBB, 0xF6]), ('\u{5101}', [0xFA, 0x67]), ('\u{5102}', [0xBB, 0xFA]), ";
"    ('\u{5103}', [0xE4, 0xE7]), ('\u{5104}', [0xBB, 0xF5]), ('\u{5105}', [0xBB, 0xFD]), ";
"    ('\u{5106}', [0xE4, 0xEA]), ('\u{5107}', [0xE4, 0xEB]), ('\u{5108}', [0xBB, 0xFB]), ";
"    ('\u{5109}', [0xBB, 0xFC]), ('\u{510A}', [0xE4, 0xF1]), ('\u{510B}', [0xE4, 0xEE]), ";
"    ('\u{510C}', [0xE4, 0xEF]), ('\u{510D}', [0x92, 0xA2]), ('\u{510E}', [0xFA, 0x69]), ";
"    ('\u{5110}', [0xBE, 0xAA]), ('\u{5111}', [0xE8, 0xF8]), ('\u{5112}', [0xBE, 0xA7]), ";
"    ('\u{5113}', [0xE8, 0xF5]), ('\u{5114}', [0xBE, 0xA9]), ('\u{5115}', [0xBE, 0xAB]), ";
"    ('\u{5117}', [0xE8, 0xF6]), ('\u{5118}', [0xBE, 0xA8]), ('\u{511A}', [0xE8, 0xF7]), ";
"    ('\u{511C}', [0xE8, 0xF4]), ('\u{511F}', [0xC0, 0x76]), ('\u{5120}', [0xEC, 0xBD]), ";
"    ('\u{5121}', [0xC0, 0x77]), ('\u{5122}', [0xEC, 0xBB]), ('\u{5124}', [0xEC, 0xBC]), ";
"    ('\u{5125}', [0xEC, 0xBA]), ('\u{5126}', [0xEC, 0xB9]), ('\u{5129}', [0xEC, 0xBE]), ";
"    ('\u{512A}', [0xC0, 0x75]), ('\u{512B}', [0x92, 0x68]), ('\u{512D}', [0xEF, 0xB8]), ";
"    ('\u{512E}', [0xEF, 0xB9]), ('\u{5130}', [0xE4, 0xE8]), ('\u{5131}', [0xEF, 0xB7]), ";
"    ('\u{5132}', [0xC0, 0x78]), ('\u{5133}', [0xC3, 0x5F]), ('\u{5134}', [0xF1, 0xEB]), ";
"    ('\u{5135}', [0xF1, 0xEC]), ('\u{5137}', [0xC4, 0xD7]), ('\u{5138}', [0xC4, 0xD8]), ";
"    ('\u{5139}', [0xF5, 0xC1]), ('\u{513A}', [0xF5, 0xC0]), ('\u{513B}', [0xC5, 0x6C]), ";
"    ('\u{513C}', [0xC5, 0x6B]), ('\u{513D}', [0xF7, 0xD0]), ('\u{513F}', [0xA4, 0x49]), ";
"    ('\u{5140}', [0xA4, 0x61]), ('\u{5141}', [0xA4, 0xB9]), ('\u{5143}', [0xA4, 0xB8]), ";
"    ('\u{5144}', [0xA5, 0x53]), ('\u{5145}', [0xA5, 0x52]), ('\u{5146}', [0xA5, 0xFC]), ";
"    ('\u{5147}', [0xA5, 0xFB]), ('\u{5148}', [0xA5, 0xFD]), ('\u{5149}', [0xA5, 0xFA]), ";
"    ('\u{514B}', [0xA7, 0x4A]), ('\u{514C}', [0xA7, 0x49]), ('\u{514D}', [0xA7, 0x4B]), ";
"    ('\u{5152}', [0xA8, 0xE0]), ('\u{5154}', [0xA8, 0xDF]), ('\u{5155}', [0xA8, 0xE1]), ";
"    ('\u{5156}', [0x89, 0x51]), ('\u{5157}', [0xAB, 0x5E]), ('\u{5159}', [0x92, 0xAF]), ";
"    ('\u{515A}', [0xD0, 0xDE]), ('\u{515B}', [0x92, 0xB0]), ('\u{515C}', [0xB0, 0xC2]), ";
"    ('\u{515D}', [0x92, 0xB1]), ('\u{515E}', [0x92, 0xB2]), ('\u{515F}', [0xD8, 0x60]), ";
"    ('\u{5160}', [0xFA, 0x6F]), ('\u{5161}', [0xA2, 0x5D]), ('\u{5162}', [0xB9, 0xB8]), ";
"    ('\u{5163}', [0xA2, 0x5E]), ('\u{5165}', [0xA4, 0x4A]), ('\u{5167}', [0xA4, 0xBA]), ";
"    ('\u{5168}', [0xA5, 0xFE]), ('\u{5169}', [0xA8, 0xE2]), ('\u{516A}', [0xFA, 0x71]), ";
"    ('\u{516B}', [0xA4, 0x4B]), ('\u{516C}', [0xA4, 0xBD]), ('\u{516D}', [0xA4, 0xBB]), ";
"    ('\u{516E}', [0xA4, 0xBC]), ('\u{5171}', [0xA6, 0x40]), ('\u{5174}', [0x89, 0x52]), ";
"    ('\u{5175}', [0xA7, 0x4C]), ('\u{5176}', [0xA8, 0xE4]), ('\u{5177}', [0xA8, 0xE3]), ";
"    ('\u{5178}', [0xA8, 0xE5]), ('\u{5179}', [0x94, 0x5A]), ('\u{517C}', [0xAD, 0xDD]), ";
"    ('\u{5180}', [0xBE, 0xAC]), ('\u{5182}', [0xC6, 0xC3]), ('\u{5186}', [0x89, 0xDD]), ";
"    ('\u{5187}', [0xC9, 0x4E]), ('\u{5188}', [0xC8, 0xA2]), ('\u{5189}', [0xA5, 0x54]), ";
"    ('\u{518A}', [0xA5, 0x55]), ('\u{518D}', [0xA6, 0x41]), ('\u{518F}', [0xCA, 0x6A]), ";
"    ('\u{5191}', [0xAB, 0x60]), ('\u{5192}', [0xAB, 0x5F]), ('\u{5193}', [0xD0, 0xE0]), ";
"    ('\u{5194}', [0xD0, 0xDF]), ('\u{5195}', [0xB0, 0xC3]), ('\u{5196}', [0xC6, 0xC4]), ";
"    ('\u{5197}', [0xA4, 0xBE]), ('\u{5198}', [0xC9, 0x55]), ('\u{519A}', [0x9E, 0x52]), ";
"    ('\u{519C}', [0x89, 0x53]), ('\u{519E}', [0xCB, 0xCD]), ('\u{51A0}', [0xAB, 0x61]), ";
"    ('\u{51A2}', [0xAD, 0xE0]), ('\u{51A4}', [0xAD, 0xDE]), ('\u{51A5}', [0xAD, 0xDF]), ";
"    ('\u{51A7}', [0x9E, 0x55]), ('\u{51A8}', [0x92, 0xBA]), ('\u{51AA}', [0xBE, 0xAD]), ";
"    ('\u{51AB}', [0xC6, 0xC5]), ('\u{51AC}', [0xA5, 0x56]), ('\u{51AE}', [0x8C, 0x5B]), ";
"    ('\u{51B0}', [0xA6, 0x42]), ('\u{51B1}', [0xC9, 0xBC]), ('\u{51B2}', [0xFA, 0x7D]), ";
"    ('\u{51B3}', [0xFA, 0xA8]), ('\u{51B4}', [0x9A, 0x68]), ('\u{51B5}', [0xFA, 0x47]), ";
"    ('\u{51B6}', [0xA7, 0x4D]), ('\u{51B7}', [0xA7, 0x4E]), ('\u{51B8}', [0xFA, 0x7E]), ";
"    ('\u{51B9}', [0xCA, 0x6B]), ('\u{51BC}', [0xCB, 0xCE]), ('\u{51BD}', [0xA8, 0xE6]), ";
"    ('\u{51BE}', [0xCB, 0xCF]), ('\u{51C3}', [0x92, 0xBB]), ('\u{51C4}', [0xD0, 0xE2]), ";
"    ('\u{51C5}', [0xD0, 0xE3]), ('\u{51C6}', [0xAD, 0xE3]), ('\u{51C7}', [0xFD, 0xB6]), ";
"    ('\u{51C8}', [0xD0, 0xE4]), ('\u{51C9}', [0xFA, 0xA2]), ('\u{51CA}', [0xD0, 0xE1]), ";
"    ('\u{51CB}', [0xAD, 0xE4]), ('\u{51CC}', [0xAD, 0xE2]), ('\u{51CD}', [0xAD, 0xE1]), ";
"    ('\u{51CE}', [0xD0, 0xE5]), ('\u{51CF}', [0xFA, 0xA3]), ('\u{51D0}', [0xD4, 0x68]), ";
"    ('\u{51D1}', [0xFA, 0xA4]), ('\u{51D2}', [0x9B, 0xB4]), ('\u{51D3}', [0xFA, 0xA6]), ";
"    ('\u{51D4}', [0xD8, 0x61]), ('\u{51D7}', [0xDC, 0xC5]), ('\u{51D8}', [0xE1, 0x40]), ";
"    ('\u{51DB}', [0x89, 0xDF]), ('\u{51DC}', [0xBB, 0xFE]), ('\u{51DD}', [0xBE, 0xAE]), ";
"    ('\u{51DE}', [0xE8, 0xF9]), ('\u{51DF}', [0xFD, 0xDB]), ('\u{51E0}', [0xA4, 0x4C]), ";
"    ('\u{51E1}', [0xA4, 0x5A]), ('\u{51E2}', [0xFA, 0xA9]), ('\u{51E4}', [0x89, 0x54]), ";
"    ('\u{51ED}', [0xFA, 0xAB]), ('\u{51F0}', [0xB0, 0xC4]), ('\u{51F1}', [0xB3, 0xCD]), ";
"    ('\u{51F3}', [0xB9, 0xB9]), ('\u{51F4}', [0xFC, 0x7A]), ('\u{51F5}', [0xC9, 0x42]), ";
"    ('\u{51F6}', [0xA4, 0xBF]), ('\u{51F8}', [0xA5, 0x59]), ('\u{51F9}', [0xA5, 0x57]), ";
"    ('\u{51FA}', [0xA5, 0x58]), ('\u{51FC}', [0x89, 0xE0]), ('\u{51FD}', [0xA8, 0xE7]), ";
"    ('\u{51FE}', [0x9F, 0x4F]), ('\u{5200}', [0xA4, 0x4D]), ('\u{5201}', [0xA4, 0x4E]), ";
"    ('\u{5202}', [0xC8, 0x7D]), ('\u{5203}', [0xA4, 0x62]), ('\u{5205}', [0x89, 0xE1]), ";
"    ('\u{5206}', [0xA4, 0xC0]), ('\u{5207}', [0xA4, 0xC1]), ('\u{5208}', [0xA4, 0xC2]), ";
"    ('\u{5209}', [0xC9, 0xBE]), ('\u{520A}', [0xA5, 0x5A]), ('\u{520B}', [0xFA, 0xB0]), ";
"    ('\u{520C}', [0xC9, 0x6B]), ('\u{520E}', [0xA6, 0x46]), ('\u{5210}', [0xC9, 0xBF]), ";
"    ('\u{5211}', [0xA6, 0x44]), ('\u{5212}', [0xA6, 0x45]), ('\u{5213}', [0xC9, 0xBD]), ";
"    ('\u{5216}', [0xA6, 0x47]), ('\u{5217}', [0xA6, 0x43]), ('\u{521C}', [0xCA, 0x6C]), ";
"    ('\u{521D}', [0xAA, 0xEC]), ('\u{521E}', [0xCA, 0x6D]), ('\u{521F}', [0x9F, 0xCD]), ";
"    ('\u{5220}', [0xA0, 0xE7]), ('\u{5221}', [0xCA, 0x6E]), ('\u{5224}', [0xA7, 0x50]), ";
"    ('\u{5225}', [0xA7, 0x4F]), ('\u{5226}', [0xFA, 0xB1]), ('\u{5227}', [0x89, 0xA6]), ";
"    ('\u{5228}', [0xA7, 0x53]), ('\u{5229}', [0xA7, 0x51]), ('\u{522A}', [0xA7, 0x52]), ";
"    ('\u{522E}', [0xA8, 0xED]), ('\u{5230}', [0xA8, 0xEC]), ('\u{5231}', [0xCB, 0xD4]), ";
"    ('\u{5232}', [0xCB, 0xD1]), ('\u{5233}', [0xCB, 0xD2]), ('\u{5234}', [0x9E, 0xFA]), ";
"    ('\u{5235}', [0xCB, 0xD0]), ('\u{5236}', [0xA8, 0xEE]), ('\u{5237}', [0xA8, 0xEA]), ";
"    ('\u{5238}', [0xA8, 0xE9]), ('\u{523A}', [0xA8, 0xEB]), ('\u{523B}', [0xA8, 0xE8]), ";
"    ('\u{523C}', [0xFA, 0xB2]), ('\u{5241}', [0xA8, 0xEF]), ('\u{5243}', [0xAB, 0x63]), ";
"    ('\u{5244}', [0xCD, 0xF0]), ('\u{5246}', [0xCB, 0xD3]), ('\u{5247}', [0xAB, 0x68]), ";
"    ('\u{5249}', [0xCD, 0xF1]), ('\u{524A}', [0xAB, 0x64]), ('\u{524B}', [0xAB, 0x67]), ";
"    ('\u{524C}', [0xAB, 0x66]), ('\u{524D}', [0xAB, 0x65]), ('\u{524E}', [0xAB, 0x62]), ";
"    ('\u{524F}', [0x87, 0xBC]), ('\u{5252}', [0xD0, 0xE8]), ('\u{5254}', [0xAD, 0xE7]), ";
"    ('\u{5255}', [0xD0, 0xEB]), ('\u{5256}', [0xAD, 0xE5]), ('\u{5257}', [0xFA, 0xB4]), ";
"    ('\u{5259}', [0x92, 0xC4]), ('\u{525A}', [0xD0, 0xE7]), ('\u{525B}', [0xAD, 0xE8]), ";
"    ('\u{525C}', [0xAD, 0xE6]), ('\u{525D}', [0xAD, 0xE9]), ('\u{525E}', [0xD0, 0xE9]), ";
"    ('\u{525F}', [0xD0, 0xEA]), ('\u{5260}', [0x9F, 0x6F]), ('\u{5261}', [0xD0, 0xE6]), ";
"    ('\u{5262}', [0xD0, 0xEC]), ('\u{5268}', [0x8B, 0xB0]), ('\u{5269}', [0xB3, 0xD1]), ";
"    ('\u{526A}', [0xB0, 0xC5]), ('\u{526B}', [0xD4, 0x69]), ('\u{526C}', [0xD4, 0x6B]), ";
"    ('\u{526D}', [0xD4, 0x6A]), ('\u{526E}', [0xD4, 0x6C]), ('\u{526F}', [0xB0, 0xC6]), ";
"    ('\u{5272}', [0xB3, 0xCE]), ('\u{5273}', [0x9F, 0xAC]), ('\u{5274}', [0xB3, 0xCF]), ";
"    ('\u{5275}', [0xB3, 0xD0]), ('\u{5277}', [0xB6, 0xD0]), ('\u{5278}', [0xDC, 0xC7]), ";
"    ('\u{5279}', [0x89, 0xE3]), ('\u{527A}', [0xDC, 0xC6]), ('\u{527B}', [0xDC, 0xC8]), ";
"    ('\u{527C}', [0xDC, 0xC9]), ('\u{527D}', [0xB6, 0xD1]), ('\u{527F}', [0xB6, 0xCF]), ";
"    ('\u{5280}', [0xE1, 0x41]), ('\u{5281}', [0xE1, 0x42]), ('\u{5282}', [0xB9, 0xBB]), ";
"    ('\u{5283}', [0xB9, 0xBA]), ('\u{5284}', [0xE3, 0x5A]), ('\u{5287}', [0xBC, 0x40]), ";
"    ('\u{5288}', [0xBC, 0x41]), ('\u{5289}', [0xBC, 0x42]), ('\u{528A}', [0xBC, 0x44]), ";
"    ('\u{528B}', [0xE4, 0xF2]), ('\u{528C}', [0xE4, 0xF3]), ('\u{528D}', [0xBC, 0x43]), ";
"    ('\u{528F}', [0x9B, 0xD3]), ('\u{5290}', [0x89, 0xE4]), ('\u{5291}', [0xBE, 0xAF]), ";
"    ('\u{5293}', [0xBE, 0xB0]), ('\u{5294}', [0xFA, 0xB5]), ('\u{5296}', [0xF1, 0xED]), ";
"    ('\u{5297}', [0xF5, 0xC3]), ('\u{5298}', [0xF5, 0xC2]), ('\u{5299}', [0xF7, 0xD1]), ";
"    ('\u{529A}', [0x9F, 0xD5]), ('\u{529B}', [0xA4, 0x4F]), ('\u{529F}', [0xA5, 0x5C]), ";
"    ('\u{52A0}', [0xA5, 0x5B]), ('\u{52A1}', [0x89, 0x55]), ('\u{52A3}', [0xA6, 0x48]), ";
"    ('\u{52A4}', [0x92, 0xC5]), ('\u{52A6}', [0xC9, 0xC0]), ('\u{52A8}', [0x89, 0x56]), ";
"    ('\u{52A9}', [0xA7, 0x55]), ('\u{52AA}', [0xA7, 0x56]), ('\u{52AB}', [0xA7, 0x54]), ";
"    ('\u{52AC}', [0xA7, 0x57]), ('\u{52AD}', [0xCA, 0x6F]), ('\u{52AE}', [0xCA, 0x70]), ";
"    ('\u{52B5}', [0xFA, 0xB3]), ('\u{52B9}', [0xFA, 0xB6]), ('\u{52BB}', [0xA8, 0xF1]), ";
"    ('\u{52BC}', [0xCB, 0xD5]), ('\u{52BE}', [0xA8, 0xF0]), ('\u{52C0}', [0xCD, 0xF2]), ";
"    ('\u{52C1}', [0xAB, 0x6C]), ('\u{52C2}', [0xCD, 0xF3]), ('\u{52C3}', [0xAB, 0x6B]), ";
"    ('\u{52C5}', [0xFA, 0xB7]), ('\u{52C7}', [0xAB, 0x69]), ('\u{52C9}', [0xAB, 0x6A]), ";
"    ('\u{52CC}', [0x9E, 0xDC]), ('\u{52CD}', [0xD0, 0xED]), ('\u{52D0}', [0xFB, 0xC4]), ";
"    ('\u{52D1}', [0x9F, 0x71]), ('\u{52D2}', [0xB0, 0xC7]), ('\u{52D3}', [0xD4, 0x6E]), ";
"    ('\u{52D5}', [0xB0, 0xCA]), ('\u{52D6}', [0xD4, 0x6D]), ('\u{52D7}', [0xB1, 0xE5]), ";
"    ('\u{52D8}', [0xB0, 0xC9]), ('\u{52D9}', [0xB0, 0xC8]), ('\u{52DB}', [0xB3, 0xD4]), ";
"    ('\u{52DD}', [0xB3, 0xD3]), ('\u{52DE}', [0xB3, 0xD2]), ('\u{52DF}', [0xB6, 0xD2]), ";
"    ('\u{52E0}', [0xFA, 0xBA]), ('\u{52E1}', [0x92, 0xC7]), ('\u{52E2}', [0xB6, 0xD5]), ";
"    ('\u{52E3}', [0xB6, 0xD6]), ('\u{52E4}', [0xB6, 0xD4]), ('\u{52E6}', [0xB6, 0xD3]), ";
"    ('\u{52E9}', [0xE1, 0x43]), ('\u{52EB}', [0xE1, 0x44]), ('\u{52EF}', [0xE4, 0xF5]), ";
"    ('\u{52F0}', [0xBC, 0x45]), ('\u{52F1}', [0xE4, 0xF4]), ('\u{52F3}', [0xBE, 0xB1]), ";
"    ('\u{52F4}', [0xEC, 0xBF]), ('\u{52F5}', [0xC0, 0x79]), ('\u{52F7}', [0xF1, 0xEE]), ";
"    ('\u{52F8}', [0xC4, 0x55]), ('\u{52F9}', [0xC6, 0xC6]), ('\u{52FA}', [0xA4, 0x63]), ";
"    ('\u{52FB}', [0xA4, 0xC3]), ('\u{52FC}', [0xC9, 0x56]), ('\u{52FE}', [0xA4, 0xC4]), ";
"    ('\u{52FF}', [0xA4, 0xC5]), ('\u{5301}', [0x9A, 0x4C]), ('\u{5305}', [0xA5, 0x5D]), ";
"    ('\u{5306}', [0xA5, 0x5E]), ('\u{5308}', [0xA6, 0x49]), ('\u{5309}', [0xCA, 0x71]), ";
"    ('\u{530A}', [0xCB, 0xD6]), ('\u{530B}', [0xCB, 0xD7]), ('\u{530D}', [0xAB, 0x6D]), ";
"    ('\u{530E}', [0xD0, 0xEE]), ('\u{530F}', [0xB0, 0xCC]), ('\u{5310}', [0xB0, 0xCB]), ";
"    ('\u{5311}', [0xD8, 0x63]), ('\u{5312}', [0xD8, 0x62]), ('\u{5315}', [0xA4, 0x50]), ";
"    ('\u{5316}', [0xA4, 0xC6]), ('\u{5317}', [0xA5, 0x5F]), ('\u{5319}', [0xB0, 0xCD]), ";
"    ('\u{531A}', [0xC9, 0x43]), ('\u{531C}', [0xC9, 0x6C]), ('\u{531D}', [0xA5, 0x60]), ";
"    ('\u{531F}', [0xC9, 0xC2]), ('\u{5320}', [0xA6, 0x4B]), ('\u{5321}', [0xA6, 0x4A]), ";
"    ('\u{5322}', [0xC9, 0xC1]), ('\u{5323}', [0xA7, 0x58]), ('\u{5324}', [0x8C, 0x68]), ";
"    ('\u{5327}', [0x89, 0xE5]), ('\u{532A}', [0xAD, 0xEA]), ('\u{532C}', [0x9F, 0x7D]), ";
"    ('\u{532D}', [0xD4, 0x6F]), ('\u{532F}', [0xB6, 0xD7]), ('\u{5330}', [0xE1, 0x45]), ";
"    ('\u{5331}', [0xB9, 0xBC]), ('\u{5332}', [0xA0, 0xA9]), ('\u{5333}', [0xFA, 0xC4]), ";
"    ('\u{5334}', [0xE8, 0xFA]), ('\u{5337}', [0xF3, 0xFD]), ('\u{5338}', [0xC6, 0xC7]), ";
"    ('\u{5339}', [0xA4, 0xC7]), ('\u{533B}', [0x89, 0x57]), ('\u{533C}', [0xCB, 0xD8]), ";
"    ('\u{533D}', [0xCD, 0xF4]), ('\u{533E}', [0xB0, 0xD0]), ('\u{533F}', [0xB0, 0xCE]), ";
"    ('\u{5340}', [0xB0, 0xCF]), ('\u{5341}', [0xA4, 0x51]), ('\u{5342}', [0xFA, 0xAA]), ";
"    ('\u{5343}', [0xA4, 0x64]), ('\u{5344}', [0xA2, 0xCD]), ('\u{5345}', [0xA4, 0xCA]), ";
"    ('\u{5347}', [0xA4, 0xC9]), ('\u{5348}', [0xA4, 0xC8]), ('\u{5349}', [0xA5, 0x63]), ";
"    ('\u{534A}', [0xA5, 0x62]), ('\u{534C}', [0xC9, 0x6D]), ('\u{534D}', [0xC9, 0xC3]), ";
"    ('\u{534E}', [0x89, 0x58]), ('\u{5351}', [0xA8, 0xF5]), ('\u{5352}', [0xA8, 0xF2]), ";
"    ('\u{5353}', [0xA8, 0xF4]), ('\u{5354}', [0xA8, 0xF3]), ('\u{5357}', [0xAB, 0x6E]), ";
"    ('\u{535A}', [0xB3, 0xD5]), ('\u{535C}', [0xA4, 0x52]), ('\u{535D}', [0x8B, 0xE3]), ";
"    ('\u{535E}', [0xA4, 0xCB]), ('\u{535F}', [0x8B, 0x61]), ('\u{5360}', [0xA5, 0x65]), ";
"    ('\u{5361}', [0xA5, 0x64]), ('\u{5363}', [0xCA, 0x72]), ('\u{5364}', [0x9A, 0xF1]), ";
"    ('\u{5366}', [0xA8, 0xF6]), ('\u{5367}', [0x9E, 0xB7]), ('\u{5369}', [0xC6, 0xC8]), ";
"    ('\u{536C}', [0xC9, 0x57]), ('\u{536D}', [0xFA, 0xD1]), ('\u{536E}', [0xA5, 0x67]), ";
"    ('\u{536F}', [0xA5, 0x66]), ('\u{5370}', [0xA6, 0x4C]), ('\u{5371}', [0xA6, 0x4D]), ";
"    ('\u{5372}', [0xCA, 0x73]), ('\u{5373}', [0xA7, 0x59]), ('\u{5374}', [0xFA, 0xD2]), ";
"    ('\u{5375}', [0xA7, 0x5A]), ('\u{5377}', [0xA8, 0xF7]), ('\u{5378}', [0xA8, 0xF8]), ";
"    ('\u{5379}', [0xA8, 0xF9]), ('\u{537B}', [0xAB, 0x6F]), ('\u{537C}', [0xCD, 0xF5]), ";
"    ('\u{537D}', [0x9E, 0xBA]), ('\u{537E}', [0xFA, 0xD4]), ('\u{537F}', [0xAD, 0xEB]), ";
"    ('\u{5382}', [0xC9, 0x44]), ('\u{5384}', [0xA4, 0xCC]), ('\u{538A}', [0xC9, 0xC4]), ";
"    ('\u{538E}', [0xCA, 0x74]), ('\u{538F}', [0xCA, 0x75]), ('\u{5392}', [0xCB, 0xD9]), ";
"    ('\u{5393}', [0xFA, 0xD9]), ('\u{5394}', [0xCB, 0xDA]), ('\u{5396}', [0xCD, 0xF7]), ";
"    ('\u{5397}', [0xCD, 0xF6]), ('\u{5398}', [0xCD, 0xF9]), ('\u{5399}', [0xCD, 0xF8]), ";
"    ('\u{539A}', [0xAB, 0x70]), ('\u{539C}', [0xD4, 0x70]), ('\u{539D}', [0xAD, 0xED]), ";
"    ('\u{539E}', [0xD0, 0xEF]), ('\u{539F}', [0xAD, 0xEC]), ('\u{53A0}', [0xFA, 0xDB]), ";
"    ('\u{53A2}', [0x9C, 0xE0]), ('\u{53A4}', [0xD8, 0x64]), ('\u{53A5}', [0xB3, 0xD6]), ";
"    ('\u{53A6}', [0xFB, 0xF7]), ('\u{53A7}', [0xD8, 0x65]), ('\u{53A8}', [0xFB, 0xFA]), ";
"    ('\u{53A9}', [0x89, 0xE7]), ('\u{53AA}', [0xA0, 0x7A]), ('\u{53AB}', [0xFA, 0xDC]), ";
"    ('\u{53AC}', [0xE1, 0x46]), ('\u{53AD}', [0xB9, 0xBD]), ('\u{53AE}', [0xFA, 0xDD]), ";
"    ('\u{53B0}', [0x89, 0xE9]), ('\u{53B2}', [0xBC, 0x46]), ('\u{53B4}', [0xF1, 0xEF]), ";
"    ('\u{53B6}', [0xC6, 0xC9]), ('\u{53B9}', [0xC9, 0x58]), ('\u{53BB}', [0xA5, 0x68]), ";
"    ('\u{53C1}', [0xFA, 0xE2]), ('\u{53C2}', [0x89, 0xEB]), ('\u{53C3}', [0xB0, 0xD1]), ";
"    ('\u{53C5}', [0xFA, 0xE3]), ('\u{53C8}', [0xA4, 0x53]), ('\u{53C9}', [0xA4, 0x65]), ";
"    ('\u{53CA}', [0xA4, 0xCE]), ('\u{53CB}', [0xA4, 0xCD]), ('\u{53CC}', [0x90, 0xC8]), ";
"    ('\u{53CD}', [0xA4, 0xCF]), ('\u{53D0}', [0x92, 0xDA]), ('\u{53D1}', [0x89, 0x59]), ";
"    ('\u{53D2}', [0x9C, 0xF5]), ('\u{53D4}', [0xA8, 0xFB]), ('\u{53D6}', [0xA8, 0xFA]), ";
"    ('\u{53D7}', [0xA8, 0xFC]), ('\u{53D8}', [0x89, 0x5A]), ('\u{53D9}', [0xFA, 0xE7]), ";
"    ('\u{53DA}', [0x9F, 0xA2]), ('\u{53DB}', [0xAB, 0x71]), ('\u{53DF}', [0xAD, 0xEE]), ";
"    ('\u{53E0}', [0xFA, 0xEA]), ('\u{53E1}', [0xE8, 0xFB]), ('\u{53E2}', [0xC2, 0x4F]), ";
"    ('\u{53E3}', [0xA4, 0x66]), ('\u{53E4}', [0xA5, 0x6A]), ('\u{53E5}', [0xA5, 0x79]), ";
"    ('\u{53E6}', [0xA5, 0x74]), ('\u{53E8}', [0xA5, 0x6F]), ('\u{53E9}', [0xA5, 0x6E]), ";
"    ('\u{53EA}', [0xA5, 0x75]), ('\u{53EB}', [0xA5, 0x73]), ('\u{53EC}', [0xA5, 0x6C]), ";
"    ('\u{53ED}', [0xA5, 0x7A]), ('\u{53EE}', [0xA5, 0x6D]), ('\u{53EF}', [0xA5, 0x69]), ";
"    ('\u{53F0}', [0xA5, 0x78]), ('\u{53F1}', [0xA5, 0x77]), ('\u{53F2}', [0xA5, 0x76]), ";
"    ('\u{53F3}', [0xA5, 0x6B]), ('\u{53F5}', [0xA5, 0x72]), ('\u{53F6}', [0xFA, 0xED]), ";
"    ('\u{53F7}', [0x8F, 0xAD]), ('\u{53F8}', [0xA5, 0x71]), ('\u{53FB}', [0xA5, 0x7B]), ";
"    ('\u{53FC}', [0xA5, 0x70]), ('\u{53FE}', [0xFB, 0x59]), ('\u{5401}', [0xA6, 0x53]), ";
"    ('\u{5403}', [0xA6, 0x59]), ('\u{5404}', [0xA6, 0x55]), ('\u{5406}', [0xA6, 0x5B]), ";
"    ('\u{5407}', [0xC9, 0xC5]), ('\u{5408}', [0xA6, 0x58]), ('\u{5409}', [0xA6, 0x4E]), ";
"    ('\u{540A}', [0xA6, 0x51]), ('\u{540B}', [0xA6, 0x54]), ('\u{540C}', [0xA6, 0x50]), ";
"    ('\u{540D}', [0xA6, 0x57]), ('\u{540E}', [0xA6, 0x5A]), ('\u{540F}', [0xA6, 0x4F]), ";
"    ('\u{5410}', [0xA6, 0x52]), ('\u{5411}', [0xA6, 0x56]), ('\u{5412}', [0xA6, 0x5C]), ";
"    ('\u{5413}', [0xFA, 0xEF]), ('\u{5414}', [0x96, 0xEF]), ('\u{5416}', [0x9D, 0xEC]), ";
"    ('\u{5418}', [0xCA, 0x7E]), ('\u{5419}', [0xCA, 0x7B]), ('\u{541A}', [0x9D, 0xCA]), ";
"    ('\u{541B}', [0xA7, 0x67]), ('\u{541C}', [0xCA, 0x7C]), ('\u{541D}', [0xA7, 0x5B]), ";
"    ('\u{541E}', [0xA7, 0x5D]), ('\u{541F}', [0xA7, 0x75]), ('\u{5420}', [0xA7, 0x70]), ";
"    ('\u{5421}', [0xFD, 0x6D]), ('\u{5423}', [0x89, 0xEC]), ('\u{5424}', [0xCA, 0xA5]), ";
"    ('\u{5425}', [0xCA, 0x7D]), ('\u{5426}', [0xA7, 0x5F]), ('\u{5427}', [0xA7, 0x61]), ";
"    ('\u{5428}', [0xCA, 0xA4]), ('\u{5429}', [0xA7, 0x68]), ('\u{542A}', [0xCA, 0x78]), ";
"    ('\u{542B}', [0xA7, 0x74]), ('\u{542C}', [0xA7, 0x76]), ('\u{542D}', [0xA7, 0x5C]), ";
"    ('\u{542E}', [0xA7, 0x6D]), ('\u{542F}', [0xFB, 0x44]), ('\u{5430}', [0xCA, 0x76]), ";
"    ('\u{5431}', [0xA7, 0x73]), ('\u{5432}', [0x9D, 0xE2]), ('\u{5433}', [0xA7, 0x64]), ";
"    ('\u{5434}', [0x8C, 0x75]), ('\u{5435}', [0xA7, 0x6E]), ('\u{5436}', [0xA7, 0x6F]), ";
"    ('\u{5437}', [0xCA, 0x77]), ('\u{5438}', [0xA7, 0x6C]), ('\u{5439}', [0xA7, 0x6A]), ";
"    ('\u{543B}', [0xA7, 0x6B]), ('\u{543C}', [0xA7, 0x71]), ('\u{543D}', [0xCA, 0xA1]), ";
"    ('\u{543E}', [0xA7, 0x5E]), ('\u{5440}', [0xA7, 0x72]), ('\u{5441}', [0xCA, 0xA3]), ";
"    ('\u{5442}', [0xA7, 0x66]), ('\u{5443}', [0xA7, 0x63]), ('\u{5445}', [0xCA, 0x7A]), ";
"    ('\u{5446}', [0xA7, 0x62]), ('\u{5447}', [0xCA, 0xA6]), ('\u{5448}', [0xA7, 0x65]), ";
"    ('\u{544A}', [0xA7, 0x69]), ('\u{544B}', [0x9E, 0xC0]), ('\u{544C}', [0x87, 0xC5]), ";
"    ('\u{544D}', [0x9E, 0x56]), ('\u{544E}', [0xA7, 0x60]), ('\u{544F}', [0xCA, 0xA2]), ";
"    ('\u{5454}', [0xCA, 0x79]), ('\u{5460}', [0xCB, 0xEB]), ('\u{5461}', [0xCB, 0xEA]), ";
"    ('\u{5462}', [0xA9, 0x4F]), ('\u{5463}', [0xCB, 0xED]), ('\u{5464}', [0xCB, 0xEF]), ";
"    ('\u{5465}', [0xCB, 0xE4]), ('\u{5466}', [0xCB, 0xE7]), ('\u{5467}', [0xCB, 0xEE]), ";
"    ('\u{5468}', [0xA9, 0x50]), ('\u{5469}', [0x9F, 0x79]), ('\u{546A}', [0x9A, 0xC7]), ";
"    ('\u{546B}', [0xCB, 0xE1]), ('\u{546C}', [0xCB, 0xE5]), ('\u{546D}', [0xFA, 0xF4]), ";
"    ('\u{546F}', [0xCB, 0xE9]), ('\u{5470}', [0xCE, 0x49]), ('\u{5471}', [0xA9, 0x4B]), ";
"    ('\u{5472}', [0xCE, 0x4D]), ('\u{5473}', [0xA8, 0xFD]), ('\u{5474}', [0xCB, 0xE6]), ";
"    ('\u{5475}', [0xA8, 0xFE]), ('\u{5476}', [0xA9, 0x4C]), ('\u{5477}', [0xA9, 0x45]), ";
"    ('\u{5478}', [0xA9, 0x41]), ('\u{547A}', [0xCB, 0xE2]), ('\u{547B}', [0xA9, 0x44]), ";
"    ('\u{547C}', [0xA9, 0x49]), ('\u{547D}', [0xA9, 0x52]), ('\u{547E}', [0xCB, 0xE3]), ";
"    ('\u{547F}', [0xCB, 0xDC]), ('\u{5480}', [0xA9, 0x43]), ('\u{5481}', [0xCB, 0xDD]), ";
"    ('\u{5482}', [0xCB, 0xDF]), ('\u{5484}', [0xA9, 0x46]), ('\u{5485}', [0x98, 0xA1]), ";
"    ('\u{5486}', [0xA9, 0x48]), ('\u{5487}', [0xCB, 0xDB]), ('\u{5488}', [0xCB, 0xE0]), ";
"    ('\u{548B}', [0xA9, 0x51]), ('\u{548C}', [0xA9, 0x4D]), ('\u{548D}', [0xCB, 0xE8]), ";
"    ('\u{548E}', [0xA9, 0x53]), ('\u{548F}', [0xFA, 0xF8]), ('\u{5490}', [0xA9, 0x4A]), ";
"    ('\u{5491}', [0xCB, 0xDE]), ('\u{5492}', [0xA9, 0x47]), ('\u{5493}', [0x89, 0xF0]), ";
"    ('\u{5494}', [0x9E, 0x47]), ('\u{5495}', [0xA9, 0x42]), ('\u{5496}', [0xA9, 0x40]), ";
"    ('\u{5497}', [0x9D, 0xF7]), ('\u{5498}', [0xCB, 0xEC]), ('\u{549A}', [0xA9, 0x4E]), ";
"    ('\u{549C}', [0x9F, 0xD3]), ('\u{549E}', [0x9A, 0xCA]), ('\u{54A0}', [0xCE, 0x48]), ";
"    ('\u{54A1}', [0xCD, 0xFB]), ('\u{54A2}', [0xCE, 0x4B]), ('\u{54A3}', [0x89, 0xF1]), ";
"    ('\u{54A4}', [0xFA, 0xF9]), ('\u{54A5}', [0xCD, 0xFD]), ('\u{54A6}', [0xAB, 0x78]), ";
"    ('\u{54A7}', [0xAB, 0xA8]), ('\u{54A8}', [0xAB, 0x74]), ('\u{54A9}', [0xAB, 0xA7]), ";
"    ('\u{54AA}', [0xAB, 0x7D]), ('\u{54AB}', [0xAB, 0xA4]), ('\u{54AC}', [0xAB, 0x72]), ";
"    ('\u{54AD}', [0xCD, 0xFC]), ('\u{54AE}', [0xCE, 0x43]), ('\u{54AF}', [0xAB, 0xA3]), ";
"    ('\u{54B0}', [0xCE, 0x4F]), ('\u{54B1}', [0xAB, 0xA5]), ('\u{54B2}', [0x8E, 0x5A]), ";
"    ('\u{54B3}', [0xAB, 0x79]), ('\u{54B4}', [0x89, 0xF2]), ('\u{54B6}', [0xCE, 0x45]), ";
"    ('\u{54B7}', [0xCE, 0x42]), ('\u{54B8}', [0xAB, 0x77]), ('\u{54B9}', [0x89, 0xF3]), ";
"    ('\u{54BA}', [0xCD, 0xFA]), ('\u{54BB}', [0xAB, 0xA6]), ('\u{54BC}', [0xCE, 0x4A]), ";
"    ('\u{54BD}', [0xAB, 0x7C]), ('\u{54BE}', [0xCE, 0x4C]), ('\u{54BF}', [0xAB, 0xA9]), ";
"    ('\u{54C0}', [0xAB, 0x73]), ('\u{54C1}', [0xAB, 0x7E]), ('\u{54C2}', [0xAB, 0x7B]), ";
"    ('\u{54C3}', [0xCE, 0x40]), ('\u{54C4}', [0xAB, 0xA1]), ('\u{54C5}', [0xCE, 0x46]), ";
"    ('\u{54C6}', [0xCE, 0x47]), ('\u{54C7}', [0xAB, 0x7A]), ('\u{54C8}', [0xAB, 0xA2]), ";
"    ('\u{54C9}', [0xAB, 0x76]), ('\u{54CB}', [0x92, 0x5D]), ('\u{54CC}', [0x8B, 0x51]), ";
"    ('\u{54CD}', [0x92, 0xE0]), ('\u{54CE}', [0xAB, 0x75]), ('\u{54CF}', [0xCD, 0xFE]), ";
"    ('\u{54D0}', [0x89, 0xF4]), ('\u{54D6}', [0xCE, 0x44]), ('\u{54DA}', [0x9F, 0xD4]), ";
"    ('\u{54DE}', [0xCE, 0x4E]), ('\u{54E0}', [0xD1, 0x44]), ('\u{54E1}', [0xAD, 0xFB]), ";
"    ('\u{54E2}', [0xD0, 0xF1]), ('\u{54E3}', [0x8A, 0x79]), ('\u{54E4}', [0xD0, 0xF6]), ";
"    ('\u{54E5}', [0xAD, 0xF4]), ('\u{54E6}', [0xAE, 0x40]), ('\u{54E7}', [0xD0, 0xF4]), ";
"    ('\u{54E8}', [0xAD, 0xEF]), ('\u{54E9}', [0xAD, 0xF9]), ('\u{54EA}', [0xAD, 0xFE]), "
].
(* /repo/src/generated/whatwg/big5_whatwg_tables.rs.inc:3329-3584 *)
Definition big5_inc_13 : list line := [
"    ('\u{54EB}', [0xD0, 0xFB]), ('\u{54ED}', [0xAD, 0xFA]), ('\u{54EE}', [0xAD, 0xFD]), ";
"    ('\u{54EF}', [0x89, 0xF5]), ('\u{54F1}', [0xD0, 0xFE]), ('\u{54F2}', [0xAD, 0xF5]), ";
"    ('\u{54F3}', [0xD0, 0xF5]), ('\u{54F7}', [0xD1, 0x42]), ('\u{54F8}', [0xD1, 0x43]), ";
"    ('\u{54FA}', [0xAD, 0xF7]), ('\u{54FB}', [0xD1, 0x41]), ('\u{54FC}', [0xAD, 0xF3]), ";
"    ('\u{54FD}', [0xAE, 0x43]), ('\u{54FF}', [0xD0, 0xF8]), ('\u{5501}', [0xAD, 0xF1]), ";
"    ('\u{5502}', [0x97, 0xA7]), ('\u{5503}', [0xD1, 0x46]), ('\u{5504}', [0xD0, 0xF9]), ";
"    ('\u{5505}', [0xD0, 0xFD]), ('\u{5506}', [0xAD, 0xF6]), ('\u{5507}', [0xAE, 0x42]), ";
"    ('\u{5508}', [0xD0, 0xFA]), ('\u{5509}', [0xAD, 0xFC]), ('\u{550A}', [0xD1, 0x40]), ";
"    ('\u{550B}', [0xD1, 0x47]), ('\u{550C}', [0xD4, 0xA1]), ('\u{550D}', [0x93, 0xBA]), ";
"    ('\u{550E}', [0xD1, 0x45]), ('\u{550F}', [0xAE, 0x44]), ('\u{5510}', [0xAD, 0xF0]), ";
"    ('\u{5511}', [0xD0, 0xFC]), ('\u{5512}', [0xD0, 0xF3]), ('\u{5513}', [0x9E, 0x58]), ";
"    ('\u{5514}', [0xAD, 0xF8]), ('\u{5517}', [0xD0, 0xF2]), ('\u{5518}', [0x89, 0xF6]), ";
"    ('\u{551A}', [0xD0, 0xF7]), ('\u{551E}', [0x9E, 0x57]), ('\u{5523}', [0x89, 0xF7]), ";
"    ('\u{5525}', [0x8A, 0x41]), ('\u{5526}', [0xD0, 0xF0]), ('\u{5527}', [0xAE, 0x41]), ";
"    ('\u{5528}', [0x89, 0xF8]), ('\u{552A}', [0xD4, 0x77]), ('\u{552B}', [0xFA, 0xF1]), ";
"    ('\u{552C}', [0xB0, 0xE4]), ('\u{552D}', [0xD4, 0xA7]), ('\u{552E}', [0xB0, 0xE2]), ";
"    ('\u{552F}', [0xB0, 0xDF]), ('\u{5530}', [0xD4, 0x7C]), ('\u{5531}', [0xB0, 0xDB]), ";
"    ('\u{5532}', [0xD4, 0xA2]), ('\u{5533}', [0xB0, 0xE6]), ('\u{5534}', [0xD4, 0x76]), ";
"    ('\u{5535}', [0xD4, 0x7B]), ('\u{5536}', [0xD4, 0x7A]), ('\u{5537}', [0xAD, 0xF2]), ";
"    ('\u{5538}', [0xB0, 0xE1]), ('\u{5539}', [0xD4, 0xA5]), ('\u{553B}', [0xD4, 0xA8]), ";
"    ('\u{553C}', [0xD4, 0x73]), ('\u{553E}', [0xB3, 0xE8]), ('\u{553F}', [0x89, 0xFA]), ";
"    ('\u{5540}', [0xD4, 0xA9]), ('\u{5541}', [0xB0, 0xE7]), ('\u{5543}', [0xB0, 0xD9]), ";
"    ('\u{5544}', [0xB0, 0xD6]), ('\u{5545}', [0xD4, 0x7E]), ('\u{5546}', [0xB0, 0xD3]), ";
"    ('\u{5547}', [0xFB, 0x42]), ('\u{5548}', [0xD4, 0xA6]), ('\u{5549}', [0xFA, 0xBF]), ";
"    ('\u{554A}', [0xB0, 0xDA]), ('\u{554B}', [0xD4, 0xAA]), ('\u{554D}', [0xD4, 0x74]), ";
"    ('\u{554E}', [0xD4, 0xA4]), ('\u{554F}', [0xB0, 0xDD]), ('\u{5550}', [0xD4, 0x75]), ";
"    ('\u{5551}', [0xD4, 0x78]), ('\u{5552}', [0xD4, 0x7D]), ('\u{5553}', [0xFB, 0xA3]), ";
"    ('\u{5555}', [0xB0, 0xDE]), ('\u{5556}', [0xB0, 0xDC]), ('\u{5557}', [0xB0, 0xE8]), ";
"    ('\u{555C}', [0xB0, 0xE3]), ('\u{555D}', [0xFA, 0xF7]), ('\u{555E}', [0xB0, 0xD7]), ";
"    ('\u{555F}', [0xB1, 0xD2]), ('\u{5561}', [0xB0, 0xD8]), ('\u{5562}', [0xD4, 0x79]), ";
"    ('\u{5563}', [0xB0, 0xE5]), ('\u{5564}', [0xB0, 0xE0]), ('\u{5565}', [0xD4, 0xA3]), ";
"    ('\u{5566}', [0xB0, 0xD5]), ('\u{5569}', [0x9E, 0x4E]), ('\u{556A}', [0xB0, 0xD4]), ";
"    ('\u{556B}', [0x94, 0xDC]), ('\u{5571}', [0x95, 0xDA]), ('\u{5572}', [0x9D, 0xF8]), ";
"    ('\u{5573}', [0x9F, 0x6A]), ('\u{5575}', [0xD4, 0x71]), ('\u{5576}', [0xD4, 0x72]), ";
"    ('\u{5577}', [0xD8, 0x6A]), ('\u{5579}', [0x8A, 0xB7]), ('\u{557B}', [0xB3, 0xD7]), ";
"    ('\u{557C}', [0xB3, 0xDA]), ('\u{557D}', [0xD8, 0x75]), ('\u{557E}', [0xB3, 0xEE]), ";
"    ('\u{557F}', [0xD8, 0x78]), ('\u{5580}', [0xB3, 0xD8]), ('\u{5581}', [0xD8, 0x71]), ";
"    ('\u{5582}', [0xB3, 0xDE]), ('\u{5583}', [0xB3, 0xE4]), ('\u{5584}', [0xB5, 0xBD]), ";
"    ('\u{5586}', [0xFB, 0x46]), ('\u{5587}', [0xB3, 0xE2]), ('\u{5588}', [0xD8, 0x6E]), ";
"    ('\u{5589}', [0xB3, 0xEF]), ('\u{558A}', [0xB3, 0xDB]), ('\u{558B}', [0xB3, 0xE3]), ";
"    ('\u{558C}', [0xD8, 0x76]), ('\u{558D}', [0xDC, 0xD7]), ('\u{558E}', [0xD8, 0x7B]), ";
"    ('\u{558F}', [0xD8, 0x6F]), ('\u{5590}', [0x8A, 0x46]), ('\u{5591}', [0xD8, 0x66]), ";
"    ('\u{5592}', [0xD8, 0x73]), ('\u{5593}', [0xD8, 0x6D]), ('\u{5594}', [0xB3, 0xE1]), ";
"    ('\u{5595}', [0xD8, 0x79]), ('\u{5598}', [0xB3, 0xDD]), ('\u{5599}', [0xB3, 0xF1]), ";
"    ('\u{559A}', [0xB3, 0xEA]), ('\u{559C}', [0xB3, 0xDF]), ('\u{559D}', [0xB3, 0xDC]), ";
"    ('\u{559F}', [0xB3, 0xE7]), ('\u{55A1}', [0xD8, 0x7A]), ('\u{55A2}', [0xD8, 0x6C]), ";
"    ('\u{55A3}', [0xD8, 0x72]), ('\u{55A4}', [0xD8, 0x74]), ('\u{55A5}', [0xD8, 0x68]), ";
"    ('\u{55A6}', [0xD8, 0x77]), ('\u{55A7}', [0xB3, 0xD9]), ('\u{55A8}', [0xD8, 0x67]), ";
"    ('\u{55A9}', [0xFB, 0x47]), ('\u{55AA}', [0xB3, 0xE0]), ('\u{55AB}', [0xB3, 0xF0]), ";
"    ('\u{55AC}', [0xB3, 0xEC]), ('\u{55AD}', [0xD8, 0x69]), ('\u{55AE}', [0xB3, 0xE6]), ";
"    ('\u{55B0}', [0x91, 0x48]), ('\u{55B1}', [0xB3, 0xED]), ('\u{55B2}', [0xB3, 0xE9]), ";
"    ('\u{55B3}', [0xB3, 0xE5]), ('\u{55B4}', [0x92, 0xDE]), ('\u{55B5}', [0xD8, 0x70]), ";
"    ('\u{55B9}', [0x8B, 0x53]), ('\u{55BA}', [0x9D, 0xF6]), ('\u{55BB}', [0xB3, 0xEB]), ";
"    ('\u{55BC}', [0x9B, 0xDA]), ('\u{55BF}', [0xDC, 0xD5]), ('\u{55C0}', [0xDC, 0xD1]), ";
"    ('\u{55C1}', [0x9D, 0x7E]), ('\u{55C2}', [0xDC, 0xE0]), ('\u{55C3}', [0xDC, 0xCA]), ";
"    ('\u{55C4}', [0xDC, 0xD3]), ('\u{55C5}', [0xB6, 0xE5]), ('\u{55C6}', [0xB6, 0xE6]), ";
"    ('\u{55C7}', [0xB6, 0xDE]), ('\u{55C8}', [0xDC, 0xDC]), ('\u{55C9}', [0xB6, 0xE8]), ";
"    ('\u{55CA}', [0xDC, 0xCF]), ('\u{55CB}', [0xDC, 0xCE]), ('\u{55CC}', [0xDC, 0xCC]), ";
"    ('\u{55CD}', [0xDC, 0xDE]), ('\u{55CE}', [0xB6, 0xDC]), ('\u{55CF}', [0xDC, 0xD8]), ";
"    ('\u{55D0}', [0xDC, 0xCD]), ('\u{55D1}', [0xB6, 0xDF]), ('\u{55D2}', [0xDC, 0xD6]), ";
"    ('\u{55D3}', [0xB6, 0xDA]), ('\u{55D4}', [0xDC, 0xD2]), ('\u{55D5}', [0xDC, 0xD9]), ";
"    ('\u{55D6}', [0xDC, 0xDB]), ('\u{55D7}', [0x89, 0xFD]), ('\u{55D8}', [0x99, 0xE4]), ";
"    ('\u{55D9}', [0xDC, 0xDF]), ('\u{55DA}', [0xB6, 0xE3]), ('\u{55DB}', [0xDC, 0xCB]), ";
"    ('\u{55DC}', [0xB6, 0xDD]), ('\u{55DD}', [0xDC, 0xD0]), ('\u{55DE}', [0x9E, 0x43]), ";
"    ('\u{55DF}', [0xB6, 0xD8]), ('\u{55E1}', [0xB6, 0xE4]), ('\u{55E2}', [0xDC, 0xDA]), ";
"    ('\u{55E3}', [0xB6, 0xE0]), ('\u{55E4}', [0xB6, 0xE1]), ('\u{55E5}', [0xB6, 0xE7]), ";
"    ('\u{55E6}', [0xB6, 0xDB]), ('\u{55E7}', [0xA2, 0x5F]), ('\u{55E8}', [0xB6, 0xD9]), ";
"    ('\u{55E9}', [0xDC, 0xD4]), ('\u{55EA}', [0x9D, 0xE9]), ('\u{55EC}', [0x8F, 0x52]), ";
"    ('\u{55EF}', [0xB6, 0xE2]), ('\u{55F0}', [0x9D, 0xF5]), ('\u{55F1}', [0x9D, 0xF0]), ";
"    ('\u{55F2}', [0xDC, 0xDD]), ('\u{55F5}', [0x99, 0xE7]), ('\u{55F6}', [0xB9, 0xCD]), ";
"    ('\u{55F7}', [0xB9, 0xC8]), ('\u{55F9}', [0xE1, 0x55]), ('\u{55FA}', [0xE1, 0x51]), ";
"    ('\u{55FB}', [0x8B, 0xBD]), ('\u{55FC}', [0xE1, 0x4B]), ('\u{55FD}', [0xB9, 0xC2]), ";
"    ('\u{55FE}', [0xB9, 0xBE]), ('\u{55FF}', [0xE1, 0x54]), ('\u{5600}', [0xB9, 0xBF]), ";
"    ('\u{5601}', [0xE1, 0x4E]), ('\u{5602}', [0xE1, 0x50]), ('\u{5604}', [0xE1, 0x53]), ";
"    ('\u{5605}', [0x9D, 0xEF]), ('\u{5606}', [0xB9, 0xC4]), ('\u{5608}', [0xB9, 0xCB]), ";
"    ('\u{5609}', [0xB9, 0xC5]), ('\u{560C}', [0xE1, 0x49]), ('\u{560D}', [0xB9, 0xC6]), ";
"    ('\u{560E}', [0xB9, 0xC7]), ('\u{560F}', [0xE1, 0x4C]), ('\u{5610}', [0xB9, 0xCC]), ";
"    ('\u{5611}', [0x9F, 0xB7]), ('\u{5612}', [0xE1, 0x4A]), ('\u{5613}', [0xE1, 0x4F]), ";
"    ('\u{5614}', [0xB9, 0xC3]), ('\u{5615}', [0xE1, 0x48]), ('\u{5616}', [0xB9, 0xC9]), ";
"    ('\u{5617}', [0xB9, 0xC1]), ('\u{561B}', [0xB9, 0xC0]), ('\u{561C}', [0xE1, 0x4D]), ";
"    ('\u{561D}', [0xE1, 0x52]), ('\u{561E}', [0x9D, 0xD0]), ('\u{561F}', [0xB9, 0xCA]), ";
"    ('\u{5620}', [0x9F, 0xEB]), ('\u{5621}', [0x8D, 0xA9]), ('\u{5622}', [0x9D, 0xCF]), ";
"    ('\u{5623}', [0x98, 0xE1]), ('\u{5625}', [0x9D, 0xE5]), ('\u{5627}', [0xE1, 0x47]), ";
"    ('\u{5629}', [0xBC, 0x4D]), ('\u{562A}', [0xE5, 0x47]), ('\u{562C}', [0xE5, 0x44]), ";
"    ('\u{562D}', [0x9D, 0xC8]), ('\u{562E}', [0xBC, 0x47]), ('\u{562F}', [0xBC, 0x53]), ";
"    ('\u{5630}', [0xBC, 0x54]), ('\u{5632}', [0xBC, 0x4A]), ('\u{5633}', [0xE5, 0x42]), ";
"    ('\u{5634}', [0xBC, 0x4C]), ('\u{5635}', [0xE4, 0xF9]), ('\u{5636}', [0xBC, 0x52]), ";
"    ('\u{5637}', [0xFB, 0x4F]), ('\u{5638}', [0xE5, 0x46]), ('\u{5639}', [0xBC, 0x49]), ";
"    ('\u{563A}', [0xE5, 0x48]), ('\u{563B}', [0xBC, 0x48]), ('\u{563D}', [0xE5, 0x43]), ";
"    ('\u{563E}', [0xE5, 0x45]), ('\u{563F}', [0xBC, 0x4B]), ('\u{5640}', [0xE5, 0x41]), ";
"    ('\u{5641}', [0xE4, 0xFA]), ('\u{5642}', [0xE4, 0xF7]), ('\u{5643}', [0x9D, 0xEB]), ";
"    ('\u{5645}', [0xD8, 0x6B]), ('\u{5646}', [0xE4, 0xFD]), ('\u{5648}', [0xE4, 0xF6]), ";
"    ('\u{5649}', [0xE4, 0xFC]), ('\u{564A}', [0xE4, 0xFB]), ('\u{564C}', [0xE4, 0xF8]), ";
"    ('\u{564D}', [0xFB, 0x54]), ('\u{564E}', [0xBC, 0x4F]), ('\u{564F}', [0xFB, 0x55]), ";
"    ('\u{5650}', [0x9A, 0xA2]), ('\u{5652}', [0x8A, 0xD6]), ('\u{5653}', [0xBC, 0x4E]), ";
"    ('\u{5654}', [0x9A, 0x5F]), ('\u{5657}', [0xBC, 0x50]), ('\u{5658}', [0xE4, 0xFE]), ";
"    ('\u{5659}', [0xBE, 0xB2]), ('\u{565A}', [0xE5, 0x40]), ('\u{565D}', [0x9E, 0xF5]), ";
"    ('\u{565E}', [0xE9, 0x45]), ('\u{5660}', [0xE8, 0xFD]), ('\u{5661}', [0x8F, 0xB7]), ";
"    ('\u{5662}', [0xBE, 0xBE]), ('\u{5663}', [0xE9, 0x42]), ('\u{5664}', [0xBE, 0xB6]), ";
"    ('\u{5665}', [0xBE, 0xBA]), ('\u{5666}', [0xE9, 0x41]), ('\u{5668}', [0xBE, 0xB9]), ";
"    ('\u{5669}', [0xBE, 0xB5]), ('\u{566A}', [0xBE, 0xB8]), ('\u{566B}', [0xBE, 0xB3]), ";
"    ('\u{566C}', [0xBE, 0xBD]), ('\u{566D}', [0xE9, 0x43]), ('\u{566E}', [0xE8, 0xFE]), ";
"    ('\u{566F}', [0xBE, 0xBC]), ('\u{5670}', [0xE8, 0xFC]), ('\u{5671}', [0xBE, 0xBB]), ";
"    ('\u{5672}', [0xE9, 0x44]), ('\u{5673}', [0xE9, 0x40]), ('\u{5674}', [0xBC, 0x51]), ";
"    ('\u{5676}', [0xBE, 0xBF]), ('\u{5677}', [0xE9, 0x46]), ('\u{5678}', [0xBE, 0xB7]), ";
"    ('\u{5679}', [0xBE, 0xB4]), ('\u{567A}', [0x9A, 0xD2]), ('\u{567B}', [0x9E, 0x6A]), ";
"    ('\u{567C}', [0x9E, 0xE8]), ('\u{567E}', [0xEC, 0xC6]), ('\u{567F}', [0xEC, 0xC8]), ";
"    ('\u{5680}', [0xC0, 0x7B]), ('\u{5681}', [0xEC, 0xC9]), ('\u{5682}', [0xEC, 0xC7]), ";
"    ('\u{5683}', [0xEC, 0xC5]), ('\u{5684}', [0xEC, 0xC4]), ('\u{5685}', [0xC0, 0x7D]), ";
"    ('\u{5686}', [0xEC, 0xC3]), ('\u{5687}', [0xC0, 0x7E]), ('\u{5689}', [0x8B, 0xBF]), ";
"    ('\u{568A}', [0x91, 0xC2]), ('\u{568B}', [0x9D, 0x62]), ('\u{568C}', [0xEC, 0xC1]), ";
"    ('\u{568D}', [0xEC, 0xC2]), ('\u{568E}', [0xC0, 0x7A]), ('\u{568F}', [0xC0, 0xA1]), ";
"    ('\u{5690}', [0xC0, 0x7C]), ('\u{5692}', [0x92, 0x60]), ('\u{5693}', [0xEC, 0xC0]), ";
"    ('\u{5695}', [0xC2, 0x50]), ('\u{5697}', [0xEF, 0xBC]), ('\u{5698}', [0xEF, 0xBA]), ";
"    ('\u{5699}', [0xEF, 0xBF]), ('\u{569A}', [0xEF, 0xBD]), ('\u{569C}', [0xEF, 0xBB]), ";
"    ('\u{569D}', [0xEF, 0xBE]), ('\u{569E}', [0x92, 0x5E]), ('\u{569F}', [0x91, 0xC1]), ";
"    ('\u{56A1}', [0x8A, 0xC5]), ('\u{56A4}', [0x97, 0xA3]), ('\u{56A5}', [0xC3, 0x60]), ";
"    ('\u{56A6}', [0xF1, 0xF2]), ('\u{56A7}', [0xF1, 0xF3]), ('\u{56A8}', [0xC4, 0x56]), ";
"    ('\u{56AA}', [0xF1, 0xF4]), ('\u{56AB}', [0xF1, 0xF0]), ('\u{56AC}', [0xF1, 0xF5]), ";
"    ('\u{56AD}', [0xF1, 0xF1]), ('\u{56AE}', [0xC2, 0x51]), ('\u{56AF}', [0x8B, 0x6C]), ";
"    ('\u{56B1}', [0x8D, 0x7E]), ('\u{56B2}', [0xF3, 0xFE]), ('\u{56B3}', [0xF4, 0x41]), ";
"    ('\u{56B4}', [0xC4, 0x59]), ('\u{56B5}', [0xF4, 0x40]), ('\u{56B6}', [0xC4, 0x58]), ";
"    ('\u{56B7}', [0xC4, 0x57]), ('\u{56B9}', [0x9C, 0x54]), ('\u{56BC}', [0xC4, 0x5A]), ";
"    ('\u{56BD}', [0xF5, 0xC5]), ('\u{56BE}', [0xF5, 0xC6]), ('\u{56BF}', [0x9D, 0xBD]), ";
"    ('\u{56C0}', [0xC4, 0xDA]), ('\u{56C1}', [0xC4, 0xD9]), ('\u{56C2}', [0xC4, 0xDB]), ";
"    ('\u{56C3}', [0xF5, 0xC4]), ('\u{56C5}', [0xF6, 0xD8]), ('\u{56C6}', [0xF6, 0xD7]), ";
"    ('\u{56C8}', [0xC5, 0x6D]), ('\u{56C9}', [0xC5, 0x6F]), ('\u{56CA}', [0xC5, 0x6E]), ";
"    ('\u{56CB}', [0xF6, 0xD9]), ('\u{56CC}', [0xC5, 0xC8]), ('\u{56CD}', [0xF8, 0xA6]), ";
"    ('\u{56D1}', [0xC5, 0xF1]), ('\u{56D3}', [0xF8, 0xA5]), ('\u{56D4}', [0xF8, 0xEE]), ";
"    ('\u{56D6}', [0x9C, 0xC5]), ('\u{56D7}', [0xC9, 0x49]), ('\u{56DA}', [0xA5, 0x7D]), ";
"    ('\u{56DB}', [0xA5, 0x7C]), ('\u{56DD}', [0xA6, 0x5F]), ('\u{56DE}', [0xA6, 0x5E]), ";
"    ('\u{56DF}', [0xC9, 0xC7]), ('\u{56E0}', [0xA6, 0x5D]), ('\u{56E1}', [0xC9, 0xC6]), ";
"    ('\u{56E2}', [0x89, 0x5B]), ('\u{56E4}', [0xA7, 0x79]), ('\u{56E5}', [0xCA, 0xA9]), ";
"    ('\u{56E7}', [0xCA, 0xA8]), ('\u{56EA}', [0xA7, 0x77]), ('\u{56EB}', [0xA7, 0x7A]), ";
"    ('\u{56ED}', [0xFB, 0x5C]), ('\u{56EE}', [0xCA, 0xA7]), ('\u{56EF}', [0xFB, 0x5B]), ";
"    ('\u{56F0}', [0xA7, 0x78]), ('\u{56F1}', [0xFB, 0x57]), ('\u{56F7}', [0xCB, 0xF0]), ";
"    ('\u{56F9}', [0xCB, 0xF1]), ('\u{56FA}', [0xA9, 0x54]), ('\u{56FB}', [0x87, 0x65]), ";
"    ('\u{56FD}', [0x98, 0xC7]), ('\u{56FF}', [0xAB, 0xAA]), ('\u{5700}', [0xFB, 0x5A]), ";
"    ('\u{5701}', [0xD1, 0x48]), ('\u{5702}', [0xD1, 0x49]), ('\u{5703}', [0xAE, 0x45]), ";
"    ('\u{5704}', [0xAE, 0x46]), ('\u{5707}', [0xD4, 0xAC]), ('\u{5708}', [0xB0, 0xE9]), ";
"    ('\u{5709}', [0xB0, 0xEB]), ('\u{570A}', [0xD4, 0xAB]), ('\u{570B}', [0xB0, 0xEA]), ";
"    ('\u{570C}', [0xD8, 0x7C]), ('\u{570D}', [0xB3, 0xF2]), ('\u{5712}', [0xB6, 0xE9]), ";
"    ('\u{5713}', [0xB6, 0xEA]), ('\u{5714}', [0xDC, 0xE1]), ('\u{5715}', [0x9C, 0xEE]), ";
"    ('\u{5716}', [0xB9, 0xCF]), ('\u{5718}', [0xB9, 0xCE]), ('\u{571A}', [0xE5, 0x49]), ";
"    ('\u{571B}', [0xE9, 0x48]), ('\u{571C}', [0xE9, 0x47]), ('\u{571D}', [0x92, 0xE2]), ";
"    ('\u{571E}', [0xF9, 0x6B]), ('\u{571F}', [0xA4, 0x67]), ('\u{5720}', [0xC9, 0x59]), ";
"    ('\u{5722}', [0xC9, 0x6E]), ('\u{5723}', [0xC9, 0x6F]), ('\u{5728}', [0xA6, 0x62]), ";
"    ('\u{5729}', [0xA6, 0x66]), ('\u{572A}', [0xC9, 0xC9]), ('\u{572C}', [0xA6, 0x64]), ";
"    ('\u{572D}', [0xA6, 0x63]), ('\u{572E}', [0xC9, 0xC8]), ('\u{572F}', [0xA6, 0x65]), ";
"    ('\u{5730}', [0xA6, 0x61]), ('\u{5732}', [0x94, 0xA7]), ('\u{5733}', [0xA6, 0x60]), ";
"    ('\u{5734}', [0xC9, 0xCA]), ('\u{573B}', [0xA7, 0xA6]), ('\u{573D}', [0x8C, 0xCC]), ";
"    ('\u{573E}', [0xA7, 0xA3]), ('\u{573F}', [0x9B, 0xD4]), ('\u{5740}', [0xA7, 0x7D]), ";
"    ('\u{5741}', [0xCA, 0xAA]), ('\u{5742}', [0xFB, 0x64]), ('\u{5743}', [0xFB, 0x76]), ";
"    ('\u{5745}', [0xCA, 0xAB]), ('\u{5746}', [0xFB, 0x60]), ('\u{5747}', [0xA7, 0xA1]), ";
"    ('\u{5749}', [0xCA, 0xAD]), ('\u{574A}', [0xA7, 0x7B]), ('\u{574B}', [0xCA, 0xAE]), ";
"    ('\u{574C}', [0xCA, 0xAC]), ('\u{574D}', [0xA7, 0x7E]), ('\u{574E}', [0xA7, 0xA2]), ";
"    ('\u{574F}', [0xA7, 0xA5]), ('\u{5750}', [0xA7, 0xA4]), ('\u{5751}', [0xA7, 0x7C]), ";
"    ('\u{5752}', [0xCA, 0xAF]), ('\u{5754}', [0x99, 0xE5]), ('\u{5757}', [0x9A, 0xC2]), ";
"    ('\u{575B}', [0x91, 0xFB]), ('\u{575F}', [0xA0, 0x73]), ('\u{5761}', [0xA9, 0x59]), ";
"    ('\u{5762}', [0xCB, 0xFE]), ('\u{5764}', [0xA9, 0x5B]), ('\u{5766}', [0xA9, 0x5A]), ";
"    ('\u{5767}', [0x9F, 0x72]), ('\u{5768}', [0xCC, 0x40]), ('\u{5769}', [0xA9, 0x58]), ";
"    ('\u{576A}', [0xA9, 0x57]), ('\u{576B}', [0xCB, 0xF5]), ('\u{576D}', [0xCB, 0xF4]), ";
"    ('\u{576F}', [0xCB, 0xF2]), ('\u{5770}', [0xCB, 0xF7]), ('\u{5771}', [0xCB, 0xF6]), ";
"    ('\u{5772}', [0xCB, 0xF3]), ('\u{5773}', [0xCB, 0xFC]), ('\u{5774}', [0xCB, 0xFD]), ";
"    ('\u{5775}', [0xCB, 0xFA]), ('\u{5776}', [0xCB, 0xF8]), ('\u{5777}', [0xA9, 0x56]), ";
"    ('\u{577A}', [0x9F, 0xCC]), ('\u{577B}', [0xCB, 0xFB]), ('\u{577C}', [0xA9, 0x5C]), ";
"    ('\u{577D}', [0xCC, 0x41]), ('\u{577E}', [0x98, 0xA5]), ('\u{577F}', [0x92, 0xE8]), ";
"    ('\u{5780}', [0xCB, 0xF9]), ('\u{5782}', [0xAB, 0xAB]), ('\u{5783}', [0xA9, 0x55]), ";
"    ('\u{5788}', [0x9B, 0xBC]), ('\u{578A}', [0x96, 0xF3]), ('\u{578B}', [0xAB, 0xAC]), ";
"    ('\u{578C}', [0xCE, 0x54]), ('\u{578D}', [0x92, 0xE7]), ('\u{578F}', [0xCE, 0x5A]), ";
"    ('\u{5790}', [0xFC, 0x67]), ('\u{5793}', [0xAB, 0xB2]), ('\u{5794}', [0xCE, 0x58]), ";
"    ('\u{5795}', [0xCE, 0x5E]), ('\u{5797}', [0xCE, 0x55]), ('\u{5798}', [0xCE, 0x59]), ";
"    ('\u{5799}', [0xCE, 0x5B]), ('\u{579A}', [0xCE, 0x5D]), ('\u{579B}', [0xCE, 0x57]), ";
"    ('\u{579C}', [0x8B, 0x7D]), ('\u{579D}', [0xCE, 0x56]), ('\u{579E}', [0xCE, 0x51]), ";
"    ('\u{579F}', [0xCE, 0x52]), ('\u{57A0}', [0xAB, 0xAD]), ('\u{57A1}', [0x9B, 0xF4]), ";
"    ('\u{57A2}', [0xAB, 0xAF]), ('\u{57A3}', [0xAB, 0xAE]), ('\u{57A4}', [0xCE, 0x53]), ";
"    ('\u{57A5}', [0xCE, 0x5C]), ('\u{57A7}', [0x9E, 0xF7]), ('\u{57AA}', [0x9E, 0xC1]), ";
"    ('\u{57AE}', [0xAB, 0xB1]), ('\u{57B3}', [0x87, 0xC3]), ('\u{57B4}', [0x99, 0x6F]), ";
"    ('\u{57B5}', [0xCE, 0x50]), ('\u{57B6}', [0xD1, 0x53]), ('\u{57B8}', [0xD1, 0x52]), ";
"    ('\u{57B9}', [0xD1, 0x57]), ('\u{57BA}', [0xD1, 0x4E]), ('\u{57BB}', [0x96, 0xF1]), ";
"    ('\u{57BC}', [0xD1, 0x51]), ('\u{57BD}', [0xD1, 0x50]), ('\u{57BE}', [0x8E, 0x41]), ";
"    ('\u{57BF}', [0xD1, 0x54]), ('\u{57C1}', [0xD1, 0x58]), ('\u{57C2}', [0xAE, 0x47]), ";
"    ('\u{57C3}', [0xAE, 0x4A]), ('\u{57C4}', [0x95, 0x4A]), ('\u{57C6}', [0xD1, 0x4F]), ";
"    ('\u{57C7}', [0xD1, 0x55]), ('\u{57C8}', [0x97, 0xE6]), ('\u{57CB}', [0xAE, 0x49]), ";
"    ('\u{57CC}', [0xD1, 0x4A]), ('\u{57CE}', [0xAB, 0xB0]), ('\u{57CF}', [0xD4, 0xBA]), ";
"    ('\u{57D0}', [0xD1, 0x56]), ('\u{57D2}', [0xD1, 0x4D]), ('\u{57D4}', [0xAE, 0x48]), ";
"    ('\u{57D5}', [0xD1, 0x4C]), ('\u{57D7}', [0x96, 0xF5]), ('\u{57DC}', [0xD4, 0xB1]), ";
"    ('\u{57DD}', [0x92, 0xE6]), ('\u{57DE}', [0x9F, 0x42]), ('\u{57DF}', [0xB0, 0xEC]), ";
"    ('\u{57E0}', [0xB0, 0xF0]), ('\u{57E1}', [0xD4, 0xC1]), ('\u{57E2}', [0xD4, 0xAF]), ";
"    ('\u{57E3}', [0xD4, 0xBD]), ('\u{57E4}', [0xB0, 0xF1]), ('\u{57E5}', [0xD4, 0xBF]), ";
"    ('\u{57E6}', [0xFB, 0x67]), ('\u{57E7}', [0xD4, 0xC5]), ('\u{57E9}', [0xD4, 0xC9]), ";
"    ('\u{57EC}', [0xD4, 0xC0]), ('\u{57ED}', [0xD4, 0xB4]), ('\u{57EE}', [0xD4, 0xBC]), ";
"    ('\u{57EF}', [0x99, 0xA9]), ('\u{57F0}', [0xD4, 0xCA]), ('\u{57F1}', [0xD4, 0xC8]), ";
"    ('\u{57F2}', [0xD4, 0xBE]), ('\u{57F3}', [0xD4, 0xB9]), ('\u{57F4}', [0xD4, 0xB2]), ";
"    ('\u{57F5}', [0xD8, 0xA6]), ('\u{57F6}', [0xD4, 0xB0]), ('\u{57F7}', [0xB0, 0xF5]), ";
"    ('\u{57F8}', [0xD4, 0xB7]), ('\u{57F9}', [0xB0, 0xF6]), ('\u{57FA}', [0xB0, 0xF2]), ";
"    ('\u{57FB}', [0xD4, 0xAD]), ('\u{57FC}', [0xD4, 0xC3]), ('\u{57FD}', [0xD4, 0xB5]), ";
"    ('\u{57FE}', [0xFA, 0xE6]), ('\u{5800}', [0xD4, 0xB3]), ('\u{5801}', [0xD4, 0xC6]), ";
"    ('\u{5802}', [0xB0, 0xF3]), ('\u{5803}', [0xFB, 0x69]), ('\u{5804}', [0xD4, 0xCC]), ";
"    ('\u{5805}', [0xB0, 0xED]), ('\u{5806}', [0xB0, 0xEF]), ('\u{5807}', [0xD4, 0xBB]), ";
"    ('\u{5808}', [0xD4, 0xB6]), ('\u{5809}', [0xAE, 0x4B]), ('\u{580A}', [0xB0, 0xEE]), ";
"    ('\u{580B}', [0xD4, 0xB8]), ('\u{580C}', [0xD4, 0xC7]), ('\u{580D}', [0xD4, 0xCB]), ";
"    ('\u{580E}', [0xD4, 0xC2]), ('\u{5810}', [0xD4, 0xC4]), ('\u{5812}', [0x97, 0xE5]), ";
"    ('\u{5814}', [0xD4, 0xAE]), ('\u{5818}', [0x87, 0xC8]), ('\u{5819}', [0xD8, 0xA1]), ";
"    ('\u{581B}', [0xD8, 0xAA]), ('\u{581C}', [0xD8, 0xA9]), ('\u{581D}', [0xB3, 0xFA]), ";
"    ('\u{581E}', [0xD8, 0xA2]), ('\u{5820}', [0xB3, 0xFB]), ('\u{5821}', [0xB3, 0xF9]), ";
"    ('\u{5822}', [0x96, 0x7D]), ('\u{5823}', [0xD8, 0xA4]), ('\u{5824}', [0xB3, 0xF6]), ";
"    ('\u{5825}', [0xD8, 0xA8]), ('\u{5826}', [0xFB, 0x6C]), ('\u{5827}', [0xD8, 0xA3]), ";
"    ('\u{5828}', [0xD8, 0xA5]), ('\u{5829}', [0xD8, 0x7D]), ('\u{582A}', [0xB3, 0xF4]), ";
"    ('\u{582C}', [0xD8, 0xB2]), ('\u{582D}', [0xD8, 0xB1]), ('\u{582E}', [0xD8, 0xAE]), ";
"    ('\u{582F}', [0xB3, 0xF3]), ('\u{5830}', [0xB3, 0xF7]), ('\u{5831}', [0xB3, 0xF8]), ";
"    ('\u{5832}', [0xD1, 0x4B]), ('\u{5833}', [0xD8, 0xAB]), ('\u{5834}', [0xB3, 0xF5]), ";
"    ('\u{5835}', [0xB0, 0xF4]), ('\u{5836}', [0xD8, 0xAD]), ('\u{5837}', [0xD8, 0x7E]), ";
"    ('\u{5838}', [0xD8, 0xB0]), ('\u{5839}', [0xD8, 0xAF]), ('\u{583A}', [0x99, 0xA2]), ";
"    ('\u{583B}', [0xD8, 0xB3]), ('\u{583D}', [0xDC, 0xEF]), ('\u{583F}', [0xD8, 0xAC]), ";
"    ('\u{5840}', [0x9A, 0xBB]), ('\u{5844}', [0x9A, 0x65]), ('\u{5847}', [0x94, 0x4E]), ";
"    ('\u{5848}', [0xD8, 0xA7]), ('\u{5849}', [0xDC, 0xE7]), ('\u{584A}', [0xB6, 0xF4]), ";
"    ('\u{584B}', [0xB6, 0xF7]), ('\u{584C}', [0xB6, 0xF2]), ('\u{584D}', [0xDC, 0xE6]), ";
"    ('\u{584E}', [0xDC, 0xEA]), ('\u{584F}', [0xDC, 0xE5]), ('\u{5851}', [0xB6, 0xEC]), ";
"    ('\u{5852}', [0xB6, 0xF6]), ('\u{5853}', [0xDC, 0xE2]), ('\u{5854}', [0xB6, 0xF0]), ";
"    ('\u{5855}', [0xDC, 0xE9]), ('\u{5857}', [0xB6, 0xEE]), ('\u{5858}', [0xB6, 0xED]), ";
"    ('\u{5859}', [0xDC, 0xEC]), ('\u{585A}', [0xB6, 0xEF]), ('\u{585B}', [0xDC, 0xEE]), ";
"    ('\u{585C}', [0xFB, 0x6E]), ('\u{585D}', [0xDC, 0xEB]), ('\u{585E}', [0xB6, 0xEB]), ";
"    ('\u{585F}', [0x99, 0xDF]), ('\u{5862}', [0xB6, 0xF5]), ('\u{5863}', [0xDC, 0xF0]), ";
"    ('\u{5864}', [0xDC, 0xE4]), ('\u{5865}', [0xDC, 0xED]), ('\u{5868}', [0xDC, 0xE3]), ";
"    ('\u{5869}', [0x98, 0xE3]), ('\u{586B}', [0xB6, 0xF1]), ('\u{586C}', [0x92, 0x54]), ";
"    ('\u{586D}', [0xB6, 0xF3]), ('\u{586F}', [0xDC, 0xE8]), ('\u{5871}', [0xDC, 0xF1]), ";
"    ('\u{5872}', [0x96, 0x7B]), ('\u{5873}', [0x8A, 0xAF]), ('\u{5874}', [0xE1, 0x5D]), ";
"    ('\u{5875}', [0xB9, 0xD0]), ('\u{5876}', [0xE1, 0x63]), ('\u{5879}', [0xB9, 0xD5]), ";
"    ('\u{587A}', [0xE1, 0x5F]), ('\u{587B}', [0xE1, 0x66]), ('\u{587C}', [0xE1, 0x57]), ";
"    ('\u{587D}', [0xB9, 0xD7]), ('\u{587E}', [0xB9, 0xD1]), ('\u{587F}', [0xE1, 0x5C]), ";
"    ('\u{5880}', [0xBC, 0x55]), ('\u{5881}', [0xE1, 0x5B]), ('\u{5882}', [0xE1, 0x64]), ";
"    ('\u{5883}', [0xB9, 0xD2]), ('\u{5885}', [0xB9, 0xD6]), ('\u{5886}', [0xE1, 0x5A]), ";
"    ('\u{5887}', [0xE1, 0x60]), ('\u{5888}', [0xE1, 0x65]), ('\u{5889}', [0xE1, 0x56]), ";
"    ('\u{588A}', [0xB9, 0xD4]), ('\u{588B}', [0xE1, 0x5E]), ('\u{588E}', [0xE1, 0x62]), ";
"    ('\u{588F}', [0xE1, 0x68]), ('\u{5890}', [0xE1, 0x58]), ('\u{5891}', [0xE1, 0x61]), ";
"    ('\u{5892}', [0x8C, 0x77]), ('\u{5893}', [0xB9, 0xD3]), ('\u{5894}', [0xE1, 0x67]), ";
"    ('\u{5896}', [0x87, 0xB0]), ('\u{5898}', [0xE1, 0x59]), ('\u{5899}', [0x8B, 0xAF]), ";
"    ('\u{589A}', [0x9E, 0xBD]), ('\u{589C}', [0xBC, 0x59]), ('\u{589D}', [0xE5, 0x4B]), ";
"    ('\u{589E}', [0xBC, 0x57]), ('\u{589F}', [0xBC, 0x56]), ('\u{58A0}', [0xE5, 0x4D]), ";
"    ('\u{58A1}', [0xE5, 0x52]), ('\u{58A3}', [0xE5, 0x4E]), ('\u{58A5}', [0xE5, 0x51]), ";
"    ('\u{58A6}', [0xBC, 0x5C]), ('\u{58A7}', [0x9E, 0xE6]), ('\u{58A8}', [0xBE, 0xA5]), ";
"    ('\u{58A9}', [0xBC, 0x5B]), ('\u{58AA}', [0xFB, 0x6F]), ('\u{58AB}', [0xE5, 0x4A]), ";
"    ('\u{58AC}', [0xE5, 0x50]), ('\u{58AE}', [0xBC, 0x5A]), ('\u{58AF}', [0xE5, 0x4F]), ";
"    ('\u{58B0}', [0x8E, 0xE1]), ('\u{58B1}', [0xE5, 0x4C]), ('\u{58B3}', [0xBC, 0x58]), ";
"    ('\u{58B5}', [0x9B, 0x7D]), ('\u{58B6}', [0x9C, 0x7E]), ('\u{58BA}', [0xE9, 0x4D]), ";
"    ('\u{58BB}', [0xF9, 0xD9]), ('\u{58BC}', [0xE9, 0x4F]), ('\u{58BD}', [0xE9, 0x4A]), ";
"    ('\u{58BE}', [0xBE, 0xC1]), ('\u{58BF}', [0xE9, 0x4C]), ('\u{58C1}', [0xBE, 0xC0]), ";
"    ('\u{58C2}', [0xE9, 0x4E]), ('\u{58C5}', [0xBE, 0xC3]), ('\u{58C6}', [0xE9, 0x50]), ";
"    ('\u{58C7}', [0xBE, 0xC2]), ('\u{58C8}', [0xE9, 0x49]), ('\u{58C9}', [0xE9, 0x4B]), ";
"    ('\u{58CB}', [0x92, 0xEA]), ('\u{58CE}', [0xC0, 0xA5]), ('\u{58CF}', [0xEC, 0xCC]), ";
"    ('\u{58D0}', [0x8C, 0x78]), ('\u{58D1}', [0xC0, 0xA4]), ('\u{58D2}', [0xEC, 0xCD]), ";
"    ('\u{58D3}', [0xC0, 0xA3]), ('\u{58D4}', [0xEC, 0xCB]), ('\u{58D5}', [0xC0, 0xA2]), ";
"    ('\u{58D6}', [0xEC, 0xCA]), ('\u{58D8}', [0xC2, 0x53]), ('\u{58D9}', [0xC2, 0x52]), ";
"    ('\u{58DA}', [0xF1, 0xF6]), ('\u{58DB}', [0xF1, 0xF8]), ('\u{58DC}', [0xFB, 0x72]), ";
"    ('\u{58DD}', [0xF1, 0xF7]), ('\u{58DE}', [0xC3, 0x61]), ('\u{58DF}', [0xC3, 0x62]), "
].
(* /repo/src/generated/whatwg/big5_whatwg_tables.rs.inc:3585-3840 *)
Definition big5_inc_14 : list line := [
"    ('\u{58E0}', [0xFB, 0x71]), ('\u{58E2}', [0xC3, 0x63]), ('\u{58E3}', [0xF4, 0x42]), ";
"    ('\u{58E4}', [0xC4, 0x5B]), ('\u{58E7}', [0xF7, 0xD3]), ('\u{58E8}', [0xF7, 0xD2]), ";
"    ('\u{58E9}', [0xC5, 0xF2]), ('\u{58EB}', [0xA4, 0x68]), ('\u{58EC}', [0xA4, 0xD0]), ";
"    ('\u{58EF}', [0xA7, 0xA7]), ('\u{58F0}', [0x89, 0x5C]), ('\u{58F2}', [0x98, 0xF0]), ";
"    ('\u{58F3}', [0x96, 0xF2]), ('\u{58F4}', [0xCE, 0x5F]), ('\u{58F9}', [0xB3, 0xFC]), ";
"    ('\u{58FA}', [0xB3, 0xFD]), ('\u{58FB}', [0xFB, 0x74]), ('\u{58FC}', [0xDC, 0xF2]), ";
"    ('\u{58FD}', [0xB9, 0xD8]), ('\u{58FE}', [0xE1, 0x69]), ('\u{58FF}', [0xE5, 0x53]), ";
"    ('\u{5902}', [0x8B, 0xC1]), ('\u{5903}', [0xC9, 0x5A]), ('\u{5904}', [0x89, 0x5D]), ";
"    ('\u{5905}', [0x89, 0xDE]), ('\u{5906}', [0xCA, 0xB0]), ('\u{5907}', [0x89, 0x5E]), ";
"    ('\u{590A}', [0xC6, 0xCA]), ('\u{590C}', [0xCC, 0x42]), ('\u{590D}', [0xCE, 0x60]), ";
"    ('\u{590E}', [0xD1, 0x59]), ('\u{590F}', [0xAE, 0x4C]), ('\u{5911}', [0xFE, 0x42]), ";
"    ('\u{5912}', [0xF1, 0xF9]), ('\u{5914}', [0xC4, 0xDC]), ('\u{5915}', [0xA4, 0x69]), ";
"    ('\u{5916}', [0xA5, 0x7E]), ('\u{5917}', [0xC9, 0x70]), ('\u{5919}', [0xA6, 0x67]), ";
"    ('\u{591A}', [0xA6, 0x68]), ('\u{591C}', [0xA9, 0x5D]), ('\u{591D}', [0x87, 0x68]), ";
"    ('\u{591F}', [0xFB, 0x7B]), ('\u{5920}', [0xB0, 0xF7]), ('\u{5922}', [0xB9, 0xDA]), ";
"    ('\u{5924}', [0xB9, 0xDB]), ('\u{5925}', [0xB9, 0xD9]), ('\u{5927}', [0xA4, 0x6A]), ";
"    ('\u{5929}', [0xA4, 0xD1]), ('\u{592A}', [0xA4, 0xD3]), ('\u{592B}', [0xA4, 0xD2]), ";
"    ('\u{592C}', [0xC9, 0x5B]), ('\u{592D}', [0xA4, 0xD4]), ('\u{592E}', [0xA5, 0xA1]), ";
"    ('\u{592F}', [0xC9, 0x71]), ('\u{5931}', [0xA5, 0xA2]), ('\u{5932}', [0x89, 0x5F]), ";
"    ('\u{5934}', [0x89, 0x60]), ('\u{5937}', [0xA6, 0x69]), ('\u{5938}', [0xA6, 0x6A]), ";
"    ('\u{593C}', [0xC9, 0xCB]), ('\u{593E}', [0xA7, 0xA8]), ('\u{5940}', [0xCA, 0xB1]), ";
"    ('\u{5944}', [0xA9, 0x61]), ('\u{5945}', [0xCC, 0x43]), ('\u{5947}', [0xA9, 0x5F]), ";
"    ('\u{5948}', [0xA9, 0x60]), ('\u{5949}', [0xA9, 0x5E]), ('\u{594A}', [0xD1, 0x5A]), ";
"    ('\u{594E}', [0xAB, 0xB6]), ('\u{594F}', [0xAB, 0xB5]), ('\u{5950}', [0xAB, 0xB7]), ";
"    ('\u{5951}', [0xAB, 0xB4]), ('\u{5953}', [0xCE, 0x61]), ('\u{5954}', [0xA9, 0x62]), ";
"    ('\u{5955}', [0xAB, 0xB3]), ('\u{5957}', [0xAE, 0x4D]), ('\u{5958}', [0xAE, 0x4E]), ";
"    ('\u{595A}', [0xAE, 0x4F]), ('\u{595C}', [0xD4, 0xCD]), ('\u{5960}', [0xB3, 0xFE]), ";
"    ('\u{5961}', [0xD8, 0xB4]), ('\u{5962}', [0xB0, 0xF8]), ('\u{5965}', [0x9B, 0xCD]), ";
"    ('\u{5967}', [0xB6, 0xF8]), ('\u{5969}', [0xB9, 0xDD]), ('\u{596A}', [0xB9, 0xDC]), ";
"    ('\u{596B}', [0xE1, 0x6A]), ('\u{596D}', [0xBC, 0x5D]), ('\u{596E}', [0xBE, 0xC4]), ";
"    ('\u{5970}', [0xEF, 0xC0]), ('\u{5971}', [0xF6, 0xDA]), ('\u{5972}', [0xF7, 0xD4]), ";
"    ('\u{5973}', [0xA4, 0x6B]), ('\u{5974}', [0xA5, 0xA3]), ('\u{5975}', [0x9D, 0xD3]), ";
"    ('\u{5976}', [0xA5, 0xA4]), ('\u{5977}', [0xC9, 0xD1]), ('\u{5978}', [0xA6, 0x6C]), ";
"    ('\u{5979}', [0xA6, 0x6F]), ('\u{597B}', [0xC9, 0xCF]), ('\u{597C}', [0xC9, 0xCD]), ";
"    ('\u{597D}', [0xA6, 0x6E]), ('\u{597E}', [0xC9, 0xD0]), ('\u{597F}', [0xC9, 0xD2]), ";
"    ('\u{5980}', [0xC9, 0xCC]), ('\u{5981}', [0xA6, 0x71]), ('\u{5982}', [0xA6, 0x70]), ";
"    ('\u{5983}', [0xA6, 0x6D]), ('\u{5984}', [0xA6, 0x6B]), ('\u{5985}', [0xC9, 0xCE]), ";
"    ('\u{5989}', [0x98, 0x4C]), ('\u{598A}', [0xA7, 0xB3]), ('\u{598D}', [0xA7, 0xB0]), ";
"    ('\u{598E}', [0xCA, 0xB6]), ('\u{598F}', [0xCA, 0xB9]), ('\u{5990}', [0xCA, 0xB8]), ";
"    ('\u{5992}', [0xA7, 0xAA]), ('\u{5993}', [0xA7, 0xB2]), ('\u{5994}', [0x97, 0x52]), ";
"    ('\u{5996}', [0xA7, 0xAF]), ('\u{5997}', [0xCA, 0xB5]), ('\u{5998}', [0xCA, 0xB3]), ";
"    ('\u{5999}', [0xA7, 0xAE]), ('\u{599A}', [0x95, 0xC3]), ('\u{599D}', [0xA7, 0xA9]), ";
"    ('\u{599E}', [0xA7, 0xAC]), ('\u{599F}', [0x9B, 0xB6]), ('\u{59A0}', [0xCA, 0xB4]), ";
"    ('\u{59A1}', [0xCA, 0xBB]), ('\u{59A2}', [0xCA, 0xB7]), ('\u{59A3}', [0xA7, 0xAD]), ";
"    ('\u{59A4}', [0xA7, 0xB1]), ('\u{59A5}', [0xA7, 0xB4]), ('\u{59A6}', [0xCA, 0xB2]), ";
"    ('\u{59A7}', [0xCA, 0xBA]), ('\u{59A8}', [0xA7, 0xAB]), ('\u{59AC}', [0x9A, 0xB9]), ";
"    ('\u{59AE}', [0xA9, 0x67]), ('\u{59AF}', [0xA9, 0x6F]), ('\u{59B0}', [0x97, 0xB3]), ";
"    ('\u{59B1}', [0xCC, 0x4F]), ('\u{59B2}', [0xCC, 0x48]), ('\u{59B3}', [0xA9, 0x70]), ";
"    ('\u{59B4}', [0xCC, 0x53]), ('\u{59B5}', [0xCC, 0x44]), ('\u{59B6}', [0xCC, 0x4B]), ";
"    ('\u{59B7}', [0x9F, 0x74]), ('\u{59B8}', [0x92, 0xF1]), ('\u{59B9}', [0xA9, 0x66]), ";
"    ('\u{59BA}', [0xCC, 0x45]), ('\u{59BB}', [0xA9, 0x64]), ('\u{59BC}', [0xCC, 0x4C]), ";
"    ('\u{59BD}', [0xCC, 0x50]), ('\u{59BE}', [0xA9, 0x63]), ('\u{59BF}', [0x8C, 0xFA]), ";
"    ('\u{59C0}', [0xCC, 0x51]), ('\u{59C1}', [0xCC, 0x4A]), ('\u{59C3}', [0xCC, 0x4D]), ";
"    ('\u{59C4}', [0x97, 0xDF]), ('\u{59C5}', [0xA9, 0x72]), ('\u{59C6}', [0xA9, 0x69]), ";
"    ('\u{59C7}', [0xCC, 0x54]), ('\u{59C8}', [0xCC, 0x52]), ('\u{59C9}', [0xFB, 0xA6]), ";
"    ('\u{59CA}', [0xA9, 0x6E]), ('\u{59CB}', [0xA9, 0x6C]), ('\u{59CC}', [0xCC, 0x49]), ";
"    ('\u{59CD}', [0xA9, 0x6B]), ('\u{59CE}', [0xCC, 0x47]), ('\u{59CF}', [0xCC, 0x46]), ";
"    ('\u{59D0}', [0xA9, 0x6A]), ('\u{59D1}', [0xA9, 0x68]), ('\u{59D2}', [0xA9, 0x71]), ";
"    ('\u{59D3}', [0xA9, 0x6D]), ('\u{59D4}', [0xA9, 0x65]), ('\u{59D6}', [0xCC, 0x4E]), ";
"    ('\u{59D8}', [0xAB, 0xB9]), ('\u{59D9}', [0xFB, 0xAB]), ('\u{59DA}', [0xAB, 0xC0]), ";
"    ('\u{59DB}', [0xCE, 0x6F]), ('\u{59DC}', [0xAB, 0xB8]), ('\u{59DD}', [0xCE, 0x67]), ";
"    ('\u{59DE}', [0xCE, 0x63]), ('\u{59E0}', [0xCE, 0x73]), ('\u{59E1}', [0xCE, 0x62]), ";
"    ('\u{59E3}', [0xAB, 0xBB]), ('\u{59E4}', [0xCE, 0x6C]), ('\u{59E5}', [0xAB, 0xBE]), ";
"    ('\u{59E6}', [0xAB, 0xC1]), ('\u{59E8}', [0xAB, 0xBC]), ('\u{59E9}', [0xCE, 0x70]), ";
"    ('\u{59EA}', [0xAB, 0xBF]), ('\u{59EB}', [0x98, 0x77]), ('\u{59EC}', [0xAE, 0x56]), ";
"    ('\u{59ED}', [0xCE, 0x76]), ('\u{59EE}', [0xCE, 0x64]), ('\u{59EF}', [0x98, 0x54]), ";
"    ('\u{59F0}', [0x95, 0xC5]), ('\u{59F1}', [0xCE, 0x66]), ('\u{59F2}', [0xCE, 0x6D]), ";
"    ('\u{59F3}', [0xCE, 0x71]), ('\u{59F4}', [0xCE, 0x75]), ('\u{59F5}', [0xCE, 0x72]), ";
"    ('\u{59F6}', [0xCE, 0x6B]), ('\u{59F7}', [0xCE, 0x6E]), ('\u{59F8}', [0x9D, 0x55]), ";
"    ('\u{59F9}', [0xFB, 0xB2]), ('\u{59FA}', [0xCE, 0x68]), ('\u{59FB}', [0xAB, 0xC3]), ";
"    ('\u{59FC}', [0xCE, 0x6A]), ('\u{59FD}', [0xCE, 0x69]), ('\u{59FE}', [0xCE, 0x74]), ";
"    ('\u{59FF}', [0xAB, 0xBA]), ('\u{5A00}', [0xCE, 0x65]), ('\u{5A01}', [0xAB, 0xC2]), ";
"    ('\u{5A02}', [0x95, 0x7E]), ('\u{5A03}', [0xAB, 0xBD]), ('\u{5A09}', [0xAE, 0x5C]), ";
"    ('\u{5A0A}', [0xD1, 0x62]), ('\u{5A0B}', [0x97, 0x42]), ('\u{5A0C}', [0xAE, 0x5B]), ";
"    ('\u{5A0D}', [0x94, 0xE6]), ('\u{5A0F}', [0xD1, 0x60]), ('\u{5A11}', [0xAE, 0x50]), ";
"    ('\u{5A12}', [0x92, 0xF5]), ('\u{5A13}', [0xAE, 0x55]), ('\u{5A15}', [0xD1, 0x5F]), ";
"    ('\u{5A16}', [0xD1, 0x5C]), ('\u{5A17}', [0xD1, 0x61]), ('\u{5A18}', [0xAE, 0x51]), ";
"    ('\u{5A19}', [0xD1, 0x5B]), ('\u{5A1A}', [0x8C, 0xC5]), ('\u{5A1B}', [0xAE, 0x54]), ";
"    ('\u{5A1C}', [0xAE, 0x52]), ('\u{5A1E}', [0xD1, 0x63]), ('\u{5A1F}', [0xAE, 0x53]), ";
"    ('\u{5A20}', [0xAE, 0x57]), ('\u{5A21}', [0x92, 0xFD]), ('\u{5A23}', [0xAE, 0x58]), ";
"    ('\u{5A24}', [0xFB, 0xA2]), ('\u{5A25}', [0xAE, 0x5A]), ('\u{5A27}', [0x9C, 0x51]), ";
"    ('\u{5A29}', [0xAE, 0x59]), ('\u{5A2A}', [0x94, 0xE9]), ('\u{5A2B}', [0x98, 0x5C]), ";
"    ('\u{5A2C}', [0x92, 0xF0]), ('\u{5A2D}', [0xD1, 0x5D]), ('\u{5A2E}', [0xD1, 0x5E]), ";
"    ('\u{5A33}', [0xD1, 0x64]), ('\u{5A35}', [0xD4, 0xD4]), ('\u{5A36}', [0xB0, 0xF9]), ";
"    ('\u{5A37}', [0xD8, 0xC2]), ('\u{5A38}', [0xD4, 0xD3]), ('\u{5A39}', [0xD4, 0xE6]), ";
"    ('\u{5A3C}', [0xB1, 0x40]), ('\u{5A3D}', [0x94, 0x4C]), ('\u{5A3E}', [0xD4, 0xE4]), ";
"    ('\u{5A40}', [0xB0, 0xFE]), ('\u{5A41}', [0xB0, 0xFA]), ('\u{5A42}', [0xD4, 0xED]), ";
"    ('\u{5A43}', [0xD4, 0xDD]), ('\u{5A44}', [0xD4, 0xE0]), ('\u{5A45}', [0x91, 0x6B]), ";
"    ('\u{5A46}', [0xB1, 0x43]), ('\u{5A47}', [0xD4, 0xEA]), ('\u{5A48}', [0xD4, 0xE2]), ";
"    ('\u{5A49}', [0xB0, 0xFB]), ('\u{5A4A}', [0xB1, 0x44]), ('\u{5A4C}', [0xD4, 0xE7]), ";
"    ('\u{5A4D}', [0xD4, 0xE5]), ('\u{5A50}', [0xD4, 0xD6]), ('\u{5A51}', [0xD4, 0xEB]), ";
"    ('\u{5A52}', [0xD4, 0xDF]), ('\u{5A53}', [0xD4, 0xDA]), ('\u{5A54}', [0x8B, 0x78]), ";
"    ('\u{5A55}', [0xD4, 0xD0]), ('\u{5A56}', [0xD4, 0xEC]), ('\u{5A57}', [0xD4, 0xDC]), ";
"    ('\u{5A58}', [0xD4, 0xCF]), ('\u{5A59}', [0x94, 0xE2]), ('\u{5A5A}', [0xB1, 0x42]), ";
"    ('\u{5A5B}', [0xD4, 0xE1]), ('\u{5A5C}', [0xD4, 0xEE]), ('\u{5A5D}', [0xD4, 0xDE]), ";
"    ('\u{5A5E}', [0xD4, 0xD2]), ('\u{5A5F}', [0xD4, 0xD7]), ('\u{5A60}', [0xD4, 0xCE]), ";
"    ('\u{5A61}', [0x98, 0x4F]), ('\u{5A62}', [0xB1, 0x41]), ('\u{5A63}', [0xFB, 0xB5]), ";
"    ('\u{5A64}', [0xD4, 0xDB]), ('\u{5A65}', [0xD4, 0xD8]), ('\u{5A66}', [0xB0, 0xFC]), ";
"    ('\u{5A67}', [0x9C, 0xD0]), ('\u{5A68}', [0x92, 0x71]), ('\u{5A69}', [0xD4, 0xE9]), ";
"    ('\u{5A6A}', [0xB0, 0xFD]), ('\u{5A6B}', [0x93, 0x65]), ('\u{5A6C}', [0xD4, 0xD9]), ";
"    ('\u{5A6D}', [0xD4, 0xD5]), ('\u{5A6E}', [0x98, 0x5B]), ('\u{5A70}', [0xD4, 0xE8]), ";
"    ('\u{5A71}', [0x98, 0x50]), ('\u{5A77}', [0xB4, 0x40]), ('\u{5A78}', [0xD8, 0xBB]), ";
"    ('\u{5A79}', [0x97, 0xBC]), ('\u{5A7A}', [0xD8, 0xB8]), ('\u{5A7B}', [0xD8, 0xC9]), ";
"    ('\u{5A7C}', [0xD8, 0xBD]), ('\u{5A7D}', [0xD8, 0xCA]), ('\u{5A7E}', [0x92, 0xF3]), ";
"    ('\u{5A7F}', [0xB4, 0x42]), ('\u{5A81}', [0x93, 0x40]), ('\u{5A82}', [0x98, 0x4D]), ";
"    ('\u{5A83}', [0xD8, 0xC6]), ('\u{5A84}', [0xD8, 0xC3]), ('\u{5A86}', [0x95, 0x72]), ";
"    ('\u{5A88}', [0xFD, 0xEF]), ('\u{5A8A}', [0xD8, 0xC4]), ('\u{5A8B}', [0xD8, 0xC7]), ";
"    ('\u{5A8C}', [0xD8, 0xCB]), ('\u{5A8E}', [0xD4, 0xE3]), ('\u{5A8F}', [0xD8, 0xCD]), ";
"    ('\u{5A90}', [0xDD, 0x47]), ('\u{5A91}', [0xFD, 0xC1]), ('\u{5A92}', [0xB4, 0x43]), ";
"    ('\u{5A93}', [0xD8, 0xCE]), ('\u{5A94}', [0xD8, 0xB6]), ('\u{5A95}', [0xD8, 0xC0]), ";
"    ('\u{5A96}', [0xFB, 0xBA]), ('\u{5A97}', [0xD8, 0xC5]), ('\u{5A99}', [0x92, 0xEB]), ";
"    ('\u{5A9A}', [0xB4, 0x41]), ('\u{5A9B}', [0xB4, 0x44]), ('\u{5A9C}', [0xD8, 0xCC]), ";
"    ('\u{5A9D}', [0xD8, 0xCF]), ('\u{5A9E}', [0xD8, 0xBA]), ('\u{5A9F}', [0xD8, 0xB7]), ";
"    ('\u{5AA0}', [0xFC, 0x73]), ('\u{5AA1}', [0x97, 0xB7]), ('\u{5AA2}', [0xD8, 0xB9]), ";
"    ('\u{5AA4}', [0x87, 0x6F]), ('\u{5AA5}', [0xD8, 0xBE]), ('\u{5AA6}', [0xD8, 0xBC]), ";
"    ('\u{5AA7}', [0xB4, 0x45]), ('\u{5AA9}', [0xD8, 0xC8]), ('\u{5AAB}', [0xFB, 0xB4]), ";
"    ('\u{5AAC}', [0xD8, 0xBF]), ('\u{5AAE}', [0xD8, 0xC1]), ('\u{5AAF}', [0xD8, 0xB5]), ";
"    ('\u{5AB0}', [0xDC, 0xFA]), ('\u{5AB1}', [0xDC, 0xF8]), ('\u{5AB2}', [0xB7, 0x42]), ";
"    ('\u{5AB3}', [0xB7, 0x40]), ('\u{5AB4}', [0xDD, 0x43]), ('\u{5AB5}', [0xDC, 0xF9]), ";
"    ('\u{5AB6}', [0xDD, 0x44]), ('\u{5AB7}', [0xDD, 0x40]), ('\u{5AB8}', [0xDC, 0xF7]), ";
"    ('\u{5AB9}', [0xDD, 0x46]), ('\u{5ABA}', [0xDC, 0xF6]), ('\u{5ABB}', [0xDC, 0xFD]), ";
"    ('\u{5ABC}', [0xB6, 0xFE]), ('\u{5ABD}', [0xB6, 0xFD]), ('\u{5ABE}', [0xB6, 0xFC]), ";
"    ('\u{5ABF}', [0xDC, 0xFB]), ('\u{5AC0}', [0xDD, 0x41]), ('\u{5AC1}', [0xB6, 0xF9]), ";
"    ('\u{5AC2}', [0xB7, 0x41]), ('\u{5AC3}', [0x90, 0xA7]), ('\u{5AC4}', [0xDC, 0xF4]), ";
"    ('\u{5AC6}', [0xDC, 0xFE]), ('\u{5AC7}', [0xDC, 0xF3]), ('\u{5AC8}', [0xDC, 0xFC]), ";
"    ('\u{5AC9}', [0xB6, 0xFA]), ('\u{5ACA}', [0xDD, 0x42]), ('\u{5ACB}', [0xDC, 0xF5]), ";
"    ('\u{5ACC}', [0xB6, 0xFB]), ('\u{5ACD}', [0xDD, 0x45]), ('\u{5ACE}', [0x97, 0x41]), ";
"    ('\u{5ACF}', [0x92, 0xF4]), ('\u{5AD1}', [0x87, 0x72]), ('\u{5AD3}', [0xFB, 0xBC]), ";
"    ('\u{5AD5}', [0xE1, 0x6E]), ('\u{5AD6}', [0xB9, 0xE2]), ('\u{5AD7}', [0xB9, 0xE1]), ";
"    ('\u{5AD8}', [0xB9, 0xE3]), ('\u{5AD9}', [0xE1, 0x7A]), ('\u{5ADA}', [0xE1, 0x70]), ";
"    ('\u{5ADB}', [0xE1, 0x76]), ('\u{5ADC}', [0xE1, 0x6B]), ('\u{5ADD}', [0xE1, 0x79]), ";
"    ('\u{5ADE}', [0xE1, 0x78]), ('\u{5ADF}', [0xE1, 0x7C]), ('\u{5AE0}', [0xE1, 0x75]), ";
"    ('\u{5AE1}', [0xB9, 0xDE]), ('\u{5AE2}', [0xE1, 0x74]), ('\u{5AE3}', [0xB9, 0xE4]), ";
"    ('\u{5AE4}', [0x95, 0x77]), ('\u{5AE5}', [0xE1, 0x6D]), ('\u{5AE6}', [0xB9, 0xDF]), ";
"    ('\u{5AE8}', [0xE1, 0x7B]), ('\u{5AE9}', [0xB9, 0xE0]), ('\u{5AEA}', [0xE1, 0x6F]), ";
"    ('\u{5AEB}', [0xE1, 0x72]), ('\u{5AEC}', [0xE1, 0x77]), ('\u{5AED}', [0xE1, 0x71]), ";
"    ('\u{5AEE}', [0xE1, 0x6C]), ('\u{5AF0}', [0x9E, 0xE2]), ('\u{5AF2}', [0x8F, 0x78]), ";
"    ('\u{5AF3}', [0xE1, 0x73]), ('\u{5AF4}', [0xE5, 0x55]), ('\u{5AF5}', [0xBC, 0x61]), ";
"    ('\u{5AF6}', [0xE5, 0x58]), ('\u{5AF7}', [0xE5, 0x57]), ('\u{5AF8}', [0xE5, 0x5A]), ";
"    ('\u{5AF9}', [0xE5, 0x5C]), ('\u{5AFA}', [0xF9, 0xDC]), ('\u{5AFB}', [0xBC, 0x5F]), ";
"    ('\u{5AFD}', [0xE5, 0x56]), ('\u{5AFE}', [0x96, 0x72]), ('\u{5AFF}', [0xE5, 0x54]), ";
"    ('\u{5B01}', [0xE5, 0x5D]), ('\u{5B02}', [0xE5, 0x5B]), ('\u{5B03}', [0xE5, 0x59]), ";
"    ('\u{5B05}', [0xE5, 0x5F]), ('\u{5B07}', [0xE5, 0x5E]), ('\u{5B08}', [0xBC, 0x63]), ";
"    ('\u{5B09}', [0xBC, 0x5E]), ('\u{5B0B}', [0xBC, 0x60]), ('\u{5B0C}', [0xBC, 0x62]), ";
"    ('\u{5B0D}', [0x9E, 0xB5]), ('\u{5B0F}', [0xE5, 0x60]), ('\u{5B10}', [0xE9, 0x57]), ";
"    ('\u{5B11}', [0x96, 0x4B]), ('\u{5B13}', [0xE9, 0x56]), ('\u{5B14}', [0xE9, 0x55]), ";
"    ('\u{5B15}', [0x8C, 0xAC]), ('\u{5B16}', [0xE9, 0x58]), ('\u{5B17}', [0xE9, 0x51]), ";
"    ('\u{5B19}', [0xE9, 0x52]), ('\u{5B1A}', [0xE9, 0x5A]), ('\u{5B1B}', [0xE9, 0x53]), ";
"    ('\u{5B1D}', [0xBE, 0xC5]), ('\u{5B1E}', [0xE9, 0x5C]), ('\u{5B1F}', [0xA0, 0xFA]), ";
"    ('\u{5B20}', [0xE9, 0x5B]), ('\u{5B21}', [0xE9, 0x54]), ('\u{5B23}', [0xEC, 0xD1]), ";
"    ('\u{5B24}', [0xC0, 0xA8]), ('\u{5B25}', [0xEC, 0xCF]), ('\u{5B26}', [0xEC, 0xD4]), ";
"    ('\u{5B27}', [0xEC, 0xD3]), ('\u{5B28}', [0x96, 0xFC]), ('\u{5B2A}', [0xC0, 0xA7]), ";
"    ('\u{5B2B}', [0x95, 0x75]), ('\u{5B2C}', [0xEC, 0xD2]), ('\u{5B2D}', [0xEC, 0xCE]), ";
"    ('\u{5B2E}', [0xEC, 0xD6]), ('\u{5B2F}', [0xEC, 0xD5]), ('\u{5B30}', [0xC0, 0xA6]), ";
"    ('\u{5B32}', [0xEC, 0xD0]), ('\u{5B34}', [0xBE, 0xC6]), ('\u{5B38}', [0xC2, 0x54]), ";
"    ('\u{5B3C}', [0xEF, 0xC1]), ('\u{5B3D}', [0xF1, 0xFA]), ('\u{5B3E}', [0xF1, 0xFB]), ";
"    ('\u{5B3F}', [0xF1, 0xFC]), ('\u{5B40}', [0xC4, 0x5C]), ('\u{5B41}', [0x90, 0xDA]), ";
"    ('\u{5B43}', [0xC4, 0x5D]), ('\u{5B44}', [0x93, 0x67]), ('\u{5B45}', [0xF4, 0x43]), ";
"    ('\u{5B46}', [0xFE, 0xA4]), ('\u{5B47}', [0xF5, 0xC8]), ('\u{5B48}', [0xF5, 0xC7]), ";
"    ('\u{5B4A}', [0x90, 0xDF]), ('\u{5B4B}', [0xF6, 0xDB]), ('\u{5B4C}', [0xF6, 0xDC]), ";
"    ('\u{5B4D}', [0xF7, 0xD5]), ('\u{5B4E}', [0xF8, 0xA7]), ('\u{5B4F}', [0x93, 0x54]), ";
"    ('\u{5B50}', [0xA4, 0x6C]), ('\u{5B51}', [0xA4, 0x6D]), ('\u{5B53}', [0xA4, 0x6E]), ";
"    ('\u{5B54}', [0xA4, 0xD5]), ('\u{5B55}', [0xA5, 0xA5]), ('\u{5B56}', [0xC9, 0xD3]), ";
"    ('\u{5B57}', [0xA6, 0x72]), ('\u{5B58}', [0xA6, 0x73]), ('\u{5B5A}', [0xA7, 0xB7]), ";
"    ('\u{5B5B}', [0xA7, 0xB8]), ('\u{5B5C}', [0xA7, 0xB6]), ('\u{5B5D}', [0xA7, 0xB5]), ";
"    ('\u{5B5F}', [0xA9, 0x73]), ('\u{5B62}', [0xCC, 0x55]), ('\u{5B63}', [0xA9, 0x75]), ";
"    ('\u{5B64}', [0xA9, 0x74]), ('\u{5B65}', [0xCC, 0x56]), ('\u{5B66}', [0x89, 0x61]), ";
"    ('\u{5B68}', [0x8B, 0xB4]), ('\u{5B69}', [0xAB, 0xC4]), ('\u{5B6B}', [0xAE, 0x5D]), ";
"    ('\u{5B6C}', [0xD1, 0x65]), ('\u{5B6D}', [0x9D, 0xC0]), ('\u{5B6E}', [0xD4, 0xF0]), ";
"    ('\u{5B70}', [0xB1, 0x45]), ('\u{5B71}', [0xB4, 0x47]), ('\u{5B72}', [0xD4, 0xEF]), ";
"    ('\u{5B73}', [0xB4, 0x46]), ('\u{5B74}', [0x8E, 0x48]), ('\u{5B75}', [0xB9, 0xE5]), ";
"    ('\u{5B76}', [0xFB, 0xC5]), ('\u{5B77}', [0xE1, 0x7D]), ('\u{5B78}', [0xBE, 0xC7]), ";
"    ('\u{5B7A}', [0xC0, 0xA9]), ('\u{5B7B}', [0xEC, 0xD7]), ('\u{5B7C}', [0xFB, 0xC7]), ";
"    ('\u{5B7D}', [0xC4, 0x5E]), ('\u{5B7F}', [0xC5, 0x70]), ('\u{5B80}', [0xC6, 0xCB]), ";
"    ('\u{5B81}', [0xC9, 0x72]), ('\u{5B82}', [0xFA, 0x79]), ('\u{5B83}', [0xA5, 0xA6]), ";
"    ('\u{5B84}', [0xC9, 0x73]), ('\u{5B85}', [0xA6, 0x76]), ('\u{5B87}', [0xA6, 0x74]), ";
"    ('\u{5B88}', [0xA6, 0x75]), ('\u{5B89}', [0xA6, 0x77]), ('\u{5B8B}', [0xA7, 0xBA]), ";
"    ('\u{5B8C}', [0xA7, 0xB9]), ('\u{5B8E}', [0xCA, 0xBC]), ('\u{5B8F}', [0xA7, 0xBB]), ";
"    ('\u{5B90}', [0x9E, 0x67]), ('\u{5B92}', [0xCA, 0xBD]), ('\u{5B93}', [0xCC, 0x57]), ";
"    ('\u{5B95}', [0xCC, 0x58]), ('\u{5B96}', [0x8C, 0xD9]), ('\u{5B97}', [0xA9, 0x76]), ";
"    ('\u{5B98}', [0xA9, 0x78]), ('\u{5B99}', [0xA9, 0x7A]), ('\u{5B9A}', [0xA9, 0x77]), ";
"    ('\u{5B9B}', [0xA9, 0x7B]), ('\u{5B9C}', [0xA9, 0x79]), ('\u{5B9D}', [0xFB, 0xD2]), ";
"    ('\u{5B9E}', [0x89, 0x62]), ('\u{5B9F}', [0x89, 0x63]), ('\u{5BA2}', [0xAB, 0xC8]), ";
"    ('\u{5BA3}', [0xAB, 0xC5]), ('\u{5BA4}', [0xAB, 0xC7]), ('\u{5BA5}', [0xAB, 0xC9]), ";
"    ('\u{5BA6}', [0xAB, 0xC6]), ('\u{5BA7}', [0xD1, 0x66]), ('\u{5BA8}', [0xCE, 0x77]), ";
"    ('\u{5BAA}', [0xFC, 0x7D]), ('\u{5BAC}', [0xD1, 0x68]), ('\u{5BAD}', [0xD1, 0x67]), ";
"    ('\u{5BAE}', [0xAE, 0x63]), ('\u{5BB0}', [0xAE, 0x5F]), ('\u{5BB3}', [0xAE, 0x60]), ";
"    ('\u{5BB4}', [0xAE, 0x62]), ('\u{5BB5}', [0xAE, 0x64]), ('\u{5BB6}', [0xAE, 0x61]), ";
"    ('\u{5BB7}', [0x87, 0x73]), ('\u{5BB8}', [0xAE, 0x66]), ('\u{5BB9}', [0xAE, 0x65]), ";
"    ('\u{5BBF}', [0xB1, 0x4A]), ('\u{5BC0}', [0xD4, 0xF2]), ('\u{5BC1}', [0xD4, 0xF1]), ";
"    ('\u{5BC2}', [0xB1, 0x49]), ('\u{5BC3}', [0x9F, 0x6B]), ('\u{5BC4}', [0xB1, 0x48]), ";
"    ('\u{5BC5}', [0xB1, 0x47]), ('\u{5BC6}', [0xB1, 0x4B]), ('\u{5BC7}', [0xB1, 0x46]), ";
"    ('\u{5BCA}', [0xD8, 0xD5]), ('\u{5BCB}', [0xD8, 0xD2]), ('\u{5BCC}', [0xB4, 0x49]), ";
"    ('\u{5BCD}', [0xD8, 0xD1]), ('\u{5BCE}', [0xD8, 0xD6]), ('\u{5BD0}', [0xB4, 0x4B]), ";
"    ('\u{5BD1}', [0xD8, 0xD4]), ('\u{5BD2}', [0xB4, 0x48]), ('\u{5BD3}', [0xB4, 0x4A]), ";
"    ('\u{5BD4}', [0xD8, 0xD3]), ('\u{5BD5}', [0xFB, 0xCC]), ('\u{5BD6}', [0xDD, 0x48]), ";
"    ('\u{5BD7}', [0xFE, 0xAE]), ('\u{5BD8}', [0xDD, 0x49]), ('\u{5BD9}', [0xDD, 0x4A]), ";
"    ('\u{5BDB}', [0x87, 0x6D]), ('\u{5BDE}', [0xB9, 0xE6]), ('\u{5BDF}', [0xB9, 0xEE]), ";
"    ('\u{5BE0}', [0xE1, 0x7E]), ('\u{5BE1}', [0xB9, 0xE8]), ('\u{5BE2}', [0xB9, 0xEC]), ";
"    ('\u{5BE3}', [0xE1, 0xA1]), ('\u{5BE4}', [0xB9, 0xED]), ('\u{5BE5}', [0xB9, 0xE9]), ";
"    ('\u{5BE6}', [0xB9, 0xEA]), ('\u{5BE7}', [0xB9, 0xE7]), ('\u{5BE8}', [0xB9, 0xEB]), ";
"    ('\u{5BE9}', [0xBC, 0x66]), ('\u{5BEA}', [0xD8, 0xD0]), ('\u{5BEB}', [0xBC, 0x67]), ";
"    ('\u{5BEC}', [0xBC, 0x65]), ('\u{5BEE}', [0xBC, 0x64]), ('\u{5BEF}', [0xE9, 0x5D]), ";
"    ('\u{5BF0}', [0xBE, 0xC8]), ('\u{5BF1}', [0xEC, 0xD8]), ('\u{5BF2}', [0xEC, 0xD9]), ";
"    ('\u{5BF3}', [0xFB, 0xD1]), ('\u{5BF5}', [0xC3, 0x64]), ('\u{5BF6}', [0xC4, 0x5F]), ";
"    ('\u{5BF8}', [0xA4, 0x6F]), ('\u{5BFA}', [0xA6, 0x78]), ('\u{5BFF}', [0xFB, 0x75]), ";
"    ('\u{5C01}', [0xAB, 0xCA]), ('\u{5C03}', [0xD1, 0x69]), ('\u{5C04}', [0xAE, 0x67]), ";
"    ('\u{5C05}', [0xFB, 0xD4]), ('\u{5C07}', [0xB1, 0x4E]), ('\u{5C08}', [0xB1, 0x4D]), ";
"    ('\u{5C09}', [0xB1, 0x4C]), ('\u{5C0A}', [0xB4, 0x4C]), ('\u{5C0B}', [0xB4, 0x4D]), ";
"    ('\u{5C0C}', [0xD8, 0xD7]), ('\u{5C0D}', [0xB9, 0xEF]), ('\u{5C0E}', [0xBE, 0xC9]), ";
"    ('\u{5C0F}', [0xA4, 0x70]), ('\u{5C10}', [0x9C, 0xBC]), ('\u{5C11}', [0xA4, 0xD6]), ";
"    ('\u{5C12}', [0xC9, 0x74]), ('\u{5C13}', [0xFB, 0xD6]), ('\u{5C14}', [0xFB, 0xD8]), ";
"    ('\u{5C15}', [0xC9, 0xD4]), ('\u{5C16}', [0xA6, 0x79]), ('\u{5C1A}', [0xA9, 0x7C]), ";
"    ('\u{5C1C}', [0x8B, 0x5D]), ('\u{5C1E}', [0x93, 0x4C]), ('\u{5C1F}', [0xDD, 0x4B]), ";
"    ('\u{5C20}', [0x9A, 0xE2]), ('\u{5C22}', [0xA4, 0x71]), ('\u{5C23}', [0x8B, 0xC9]), ";
"    ('\u{5C24}', [0xA4, 0xD7]), ('\u{5C25}', [0xC9, 0xD5]), ('\u{5C28}', [0xCA, 0xBE]), ";
"    ('\u{5C2A}', [0xCA, 0xBF]), ('\u{5C2C}', [0xA7, 0xBC]), ('\u{5C30}', [0xD8, 0xD8]), ";
"    ('\u{5C31}', [0xB4, 0x4E]), ('\u{5C33}', [0xDD, 0x4C]), ('\u{5C37}', [0xC0, 0xAA]), ";
"    ('\u{5C38}', [0xA4, 0x72]), ('\u{5C39}', [0xA4, 0xA8]), ('\u{5C3A}', [0xA4, 0xD8]), ";
"    ('\u{5C3B}', [0xC9, 0x75]), ('\u{5C3C}', [0xA5, 0xA7]), ('\u{5C3E}', [0xA7, 0xC0]), ";
"    ('\u{5C3F}', [0xA7, 0xBF]), ('\u{5C40}', [0xA7, 0xBD]), ('\u{5C41}', [0xA7, 0xBE]), ";
"    ('\u{5C44}', [0xCC, 0x59]), ('\u{5C45}', [0xA9, 0x7E]), ('\u{5C46}', [0xA9, 0xA1]), ";
"    ('\u{5C47}', [0xCC, 0x5A]), ('\u{5C48}', [0xA9, 0x7D]), ('\u{5C49}', [0xFB, 0xDB]), ";
"    ('\u{5C4A}', [0x9F, 0xC9]), ('\u{5C4B}', [0xAB, 0xCE]), ('\u{5C4C}', [0xCE, 0x78]), ";
"    ('\u{5C4D}', [0xAB, 0xCD]), ('\u{5C4E}', [0xAB, 0xCB]), ('\u{5C4F}', [0xAB, 0xCC]), ";
"    ('\u{5C50}', [0xAE, 0x6A]), ('\u{5C51}', [0xAE, 0x68]), ('\u{5C53}', [0x9F, 0x44]), ";
"    ('\u{5C54}', [0xD1, 0x6B]), ('\u{5C55}', [0xAE, 0x69]), ('\u{5C56}', [0xD1, 0x6A]), ";
"    ('\u{5C58}', [0xAE, 0x5E]), ('\u{5C59}', [0xD4, 0xF3]), ('\u{5C5C}', [0xB1, 0x50]), ";
"    ('\u{5C5D}', [0xB1, 0x51]), ('\u{5C5E}', [0x98, 0xED]), ('\u{5C60}', [0xB1, 0x4F]), ";
"    ('\u{5C62}', [0xB9, 0xF0]), ('\u{5C63}', [0xE1, 0xA2]), ('\u{5C64}', [0xBC, 0x68]), ";
"    ('\u{5C65}', [0xBC, 0x69]), ('\u{5C67}', [0xE5, 0x61]), ('\u{5C68}', [0xC0, 0xAB]), ";
"    ('\u{5C69}', [0xEF, 0xC2]), ('\u{5C6A}', [0xEF, 0xC3]), ('\u{5C6C}', [0xC4, 0xDD]), ";
"    ('\u{5C6D}', [0xF8, 0xA8]), ('\u{5C6E}', [0xC9, 0x4B]), ('\u{5C6F}', [0xA4, 0xD9]), ";
"    ('\u{5C71}', [0xA4, 0x73]), ('\u{5C73}', [0xC9, 0x77]), ('\u{5C74}', [0xC9, 0x76]), ";
"    ('\u{5C78}', [0x8C, 0xE9]), ('\u{5C79}', [0xA6, 0x7A]), ('\u{5C7A}', [0xC9, 0xD7]), ";
"    ('\u{5C7B}', [0xC9, 0xD8]), ('\u{5C7C}', [0xC9, 0xD6]), ('\u{5C7E}', [0xC9, 0xD9]), ";
"    ('\u{5C85}', [0xFB, 0xDD]), ('\u{5C86}', [0xCA, 0xC7]), ('\u{5C88}', [0xCA, 0xC2]), ";
"    ('\u{5C89}', [0xCA, 0xC4]), ('\u{5C8A}', [0xCA, 0xC6]), ('\u{5C8B}', [0xCA, 0xC3]), ";
"    ('\u{5C8C}', [0xA7, 0xC4]), ('\u{5C8D}', [0xCA, 0xC0]), ('\u{5C8F}', [0xCA, 0xC1]), ";
"    ('\u{5C90}', [0xA7, 0xC1]), ('\u{5C91}', [0xA7, 0xC2]), ('\u{5C92}', [0xCA, 0xC5]), ";
"    ('\u{5C93}', [0xCA, 0xC8]), ('\u{5C94}', [0xA7, 0xC3]), ('\u{5C95}', [0xCA, 0xC9]), ";
"    ('\u{5C99}', [0x8D, 0xF2]), ('\u{5C9A}', [0x89, 0x64]), ('\u{5C9C}', [0xFD, 0xF2]), ";
"    ('\u{5C9D}', [0xCC, 0x68]), ('\u{5C9E}', [0x93, 0x4D]), ('\u{5C9F}', [0xCC, 0x62]), ";
"    ('\u{5CA0}', [0xCC, 0x5D]), ('\u{5CA1}', [0xA9, 0xA3]), ('\u{5CA2}', [0xCC, 0x65]), ";
"    ('\u{5CA3}', [0xCC, 0x63]), ('\u{5CA4}', [0xCC, 0x5C]), ('\u{5CA5}', [0xCC, 0x69]), ";
"    ('\u{5CA6}', [0xCC, 0x6C]), ('\u{5CA7}', [0xCC, 0x67]), ('\u{5CA8}', [0xCC, 0x60]), ";
"    ('\u{5CA9}', [0xA9, 0xA5]), ('\u{5CAA}', [0xCC, 0x66]), ('\u{5CAB}', [0xA9, 0xA6]), ";
"    ('\u{5CAC}', [0xCC, 0x61]), ('\u{5CAD}', [0xCC, 0x64]), ('\u{5CAE}', [0xCC, 0x5B]), ";
"    ('\u{5CAF}', [0xCC, 0x5F]), ('\u{5CB0}', [0xCC, 0x6B]), ('\u{5CB1}', [0xA9, 0xA7]), ";
"    ('\u{5CB3}', [0xA9, 0xA8]), ('\u{5CB5}', [0xCC, 0x5E]), ('\u{5CB6}', [0xCC, 0x6A]), ";
"    ('\u{5CB7}', [0xA9, 0xA2]), ('\u{5CB8}', [0xA9, 0xA4]), ('\u{5CBA}', [0xFB, 0xE7]), ";
"    ('\u{5CC1}', [0xA0, 0xF2]), ('\u{5CC2}', [0x98, 0x68]), ('\u{5CC6}', [0xCE, 0xAB]), ";
"    ('\u{5CC7}', [0xCE, 0xA4]), ('\u{5CC8}', [0xCE, 0xAA]), ('\u{5CC9}', [0xCE, 0xA3]), ";
"    ('\u{5CCA}', [0xCE, 0xA5]), ('\u{5CCB}', [0xCE, 0x7D]), ('\u{5CCC}', [0xCE, 0x7B]), ";
"    ('\u{5CCE}', [0xCE, 0xAC]), ('\u{5CCF}', [0xCE, 0xA9]), ('\u{5CD0}', [0xCE, 0x79]), ";
"    ('\u{5CD1}', [0x9F, 0x58]), ('\u{5CD2}', [0xAB, 0xD0]), ('\u{5CD3}', [0xCE, 0xA7]), "
].
(* /repo/src/generated/whatwg/big5_whatwg_tables.rs.inc:3841-4096 *)
Definition big5_inc_15 : list line := [
"    ('\u{5CD4}', [0xCE, 0xA8]), ('\u{5CD5}', [0x8C, 0xE6]), ('\u{5CD6}', [0xCE, 0xA6]), ";
"    ('\u{5CD7}', [0xCE, 0x7C]), ('\u{5CD8}', [0xCE, 0x7A]), ('\u{5CD9}', [0xAB, 0xCF]), ";
"    ('\u{5CDA}', [0xCE, 0xA2]), ('\u{5CDB}', [0xCE, 0x7E]), ('\u{5CDE}', [0xCE, 0xA1]), ";
"    ('\u{5CDF}', [0xCE, 0xAD]), ('\u{5CE5}', [0x8D, 0x73]), ('\u{5CE8}', [0xAE, 0x6F]), ";
"    ('\u{5CE9}', [0xFB, 0xDE]), ('\u{5CEA}', [0xAE, 0x6E]), ('\u{5CEC}', [0xD1, 0x6C]), ";
"    ('\u{5CED}', [0xAE, 0x6B]), ('\u{5CEE}', [0xD1, 0x6E]), ('\u{5CEF}', [0xFB, 0xDF]), ";
"    ('\u{5CF0}', [0xAE, 0x70]), ('\u{5CF1}', [0xD1, 0x6F]), ('\u{5CF4}', [0xAE, 0x73]), ";
"    ('\u{5CF5}', [0x8C, 0x48]), ('\u{5CF6}', [0xAE, 0x71]), ('\u{5CF7}', [0xD1, 0x70]), ";
"    ('\u{5CF8}', [0xCE, 0xAE]), ('\u{5CF9}', [0xD1, 0x72]), ('\u{5CFB}', [0xAE, 0x6D]), ";
"    ('\u{5CFC}', [0x87, 0x74]), ('\u{5CFD}', [0xAE, 0x6C]), ('\u{5CFF}', [0xD1, 0x6D]), ";
"    ('\u{5D00}', [0xD1, 0x71]), ('\u{5D01}', [0xAE, 0x72]), ('\u{5D06}', [0xB1, 0x53]), ";
"    ('\u{5D07}', [0xB1, 0x52]), ('\u{5D0B}', [0xD4, 0xF5]), ('\u{5D0C}', [0xD4, 0xF9]), ";
"    ('\u{5D0D}', [0xD4, 0xFB]), ('\u{5D0E}', [0xB1, 0x54]), ('\u{5D0F}', [0xD4, 0xFE]), ";
"    ('\u{5D10}', [0xFB, 0xE3]), ('\u{5D11}', [0xB1, 0x58]), ('\u{5D12}', [0xD5, 0x41]), ";
"    ('\u{5D14}', [0xB1, 0x5A]), ('\u{5D15}', [0x8D, 0xA8]), ('\u{5D16}', [0xB1, 0x56]), ";
"    ('\u{5D17}', [0xB1, 0x5E]), ('\u{5D18}', [0xFB, 0xE4]), ('\u{5D19}', [0xB1, 0x5B]), ";
"    ('\u{5D1A}', [0xD4, 0xF7]), ('\u{5D1B}', [0xB1, 0x55]), ('\u{5D1D}', [0xD4, 0xF6]), ";
"    ('\u{5D1E}', [0xD4, 0xF4]), ('\u{5D1F}', [0xD5, 0x43]), ('\u{5D20}', [0xD4, 0xF8]), ";
"    ('\u{5D22}', [0xB1, 0x57]), ('\u{5D23}', [0xD5, 0x42]), ('\u{5D24}', [0xB1, 0x5C]), ";
"    ('\u{5D25}', [0xD4, 0xFD]), ('\u{5D26}', [0xD4, 0xFC]), ('\u{5D27}', [0xB1, 0x5D]), ";
"    ('\u{5D28}', [0xD4, 0xFA]), ('\u{5D29}', [0xB1, 0x59]), ('\u{5D2C}', [0x9C, 0x75]), ";
"    ('\u{5D2E}', [0xD5, 0x44]), ('\u{5D2F}', [0x98, 0x78]), ('\u{5D30}', [0xD5, 0x40]), ";
"    ('\u{5D31}', [0xD8, 0xE7]), ('\u{5D32}', [0xD8, 0xEE]), ('\u{5D33}', [0xD8, 0xE3]), ";
"    ('\u{5D34}', [0xB4, 0x51]), ('\u{5D35}', [0xD8, 0xDF]), ('\u{5D36}', [0xD8, 0xEF]), ";
"    ('\u{5D37}', [0xD8, 0xD9]), ('\u{5D38}', [0xD8, 0xEC]), ('\u{5D39}', [0xD8, 0xEA]), ";
"    ('\u{5D3A}', [0xD8, 0xE4]), ('\u{5D3C}', [0xD8, 0xED]), ('\u{5D3D}', [0xD8, 0xE6]), ";
"    ('\u{5D3E}', [0x8D, 0x60]), ('\u{5D3F}', [0xD8, 0xDE]), ('\u{5D40}', [0xD8, 0xF0]), ";
"    ('\u{5D41}', [0xD8, 0xDC]), ('\u{5D42}', [0xD8, 0xE9]), ('\u{5D43}', [0xD8, 0xDA]), ";
"    ('\u{5D45}', [0xD8, 0xF1]), ('\u{5D46}', [0xFB, 0xE5]), ('\u{5D47}', [0xB4, 0x52]), ";
"    ('\u{5D48}', [0x8D, 0x61]), ('\u{5D49}', [0xD8, 0xEB]), ('\u{5D4A}', [0xDD, 0x4F]), ";
"    ('\u{5D4B}', [0xD8, 0xDD]), ('\u{5D4C}', [0xB4, 0x4F]), ('\u{5D4E}', [0xD8, 0xE1]), ";
"    ('\u{5D50}', [0xB4, 0x50]), ('\u{5D51}', [0xD8, 0xE0]), ('\u{5D52}', [0xD8, 0xE5]), ";
"    ('\u{5D55}', [0xD8, 0xE2]), ('\u{5D56}', [0x8D, 0x62]), ('\u{5D57}', [0xA0, 0xA1]), ";
"    ('\u{5D59}', [0xD8, 0xE8]), ('\u{5D5B}', [0x9C, 0x40]), ('\u{5D5E}', [0xDD, 0x53]), ";
"    ('\u{5D62}', [0xDD, 0x56]), ('\u{5D63}', [0xDD, 0x4E]), ('\u{5D65}', [0xDD, 0x50]), ";
"    ('\u{5D67}', [0xDD, 0x55]), ('\u{5D68}', [0xDD, 0x54]), ('\u{5D69}', [0xB7, 0x43]), ";
"    ('\u{5D6B}', [0xD8, 0xDB]), ('\u{5D6C}', [0xDD, 0x52]), ('\u{5D6F}', [0xB7, 0x44]), ";
"    ('\u{5D70}', [0x98, 0xAD]), ('\u{5D71}', [0xDD, 0x4D]), ('\u{5D72}', [0xDD, 0x51]), ";
"    ('\u{5D74}', [0x9E, 0xEA]), ('\u{5D77}', [0xE1, 0xA9]), ('\u{5D78}', [0x8C, 0xEC]), ";
"    ('\u{5D79}', [0xE1, 0xB0]), ('\u{5D7A}', [0xE1, 0xA7]), ('\u{5D7B}', [0x8C, 0xD4]), ";
"    ('\u{5D7C}', [0xE1, 0xAE]), ('\u{5D7D}', [0xE1, 0xA5]), ('\u{5D7E}', [0xE1, 0xAD]), ";
"    ('\u{5D7F}', [0xE1, 0xB1]), ('\u{5D80}', [0xE1, 0xA4]), ('\u{5D81}', [0xE1, 0xA8]), ";
"    ('\u{5D82}', [0xE1, 0xA3]), ('\u{5D84}', [0xB9, 0xF1]), ('\u{5D85}', [0x9C, 0xEB]), ";
"    ('\u{5D86}', [0xE1, 0xA6]), ('\u{5D87}', [0xB9, 0xF2]), ('\u{5D88}', [0xE1, 0xAC]), ";
"    ('\u{5D89}', [0xE1, 0xAB]), ('\u{5D8A}', [0xE1, 0xAA]), ('\u{5D8B}', [0xFB, 0xE0]), ";
"    ('\u{5D8D}', [0xE1, 0xAF]), ('\u{5D8E}', [0x9F, 0x51]), ('\u{5D92}', [0xE5, 0x65]), ";
"    ('\u{5D93}', [0xE5, 0x67]), ('\u{5D94}', [0xBC, 0x6B]), ('\u{5D95}', [0xE5, 0x68]), ";
"    ('\u{5D97}', [0xE5, 0x63]), ('\u{5D99}', [0xE5, 0x62]), ('\u{5D9A}', [0xE5, 0x6C]), ";
"    ('\u{5D9C}', [0xE5, 0x6A]), ('\u{5D9D}', [0xBC, 0x6A]), ('\u{5D9E}', [0xE5, 0x6D]), ";
"    ('\u{5D9F}', [0xE5, 0x64]), ('\u{5DA0}', [0xE5, 0x69]), ('\u{5DA1}', [0xE5, 0x6B]), ";
"    ('\u{5DA2}', [0xE5, 0x66]), ('\u{5DA4}', [0x8D, 0x65]), ('\u{5DA7}', [0xE9, 0x61]), ";
"    ('\u{5DA8}', [0xE9, 0x66]), ('\u{5DA9}', [0xE9, 0x60]), ('\u{5DAA}', [0xE9, 0x65]), ";
"    ('\u{5DAB}', [0x9C, 0xF1]), ('\u{5DAC}', [0xE9, 0x5E]), ('\u{5DAD}', [0xE9, 0x68]), ";
"    ('\u{5DAE}', [0xE9, 0x64]), ('\u{5DAF}', [0xE9, 0x69]), ('\u{5DB0}', [0xE9, 0x63]), ";
"    ('\u{5DB1}', [0xE9, 0x5F]), ('\u{5DB2}', [0xE9, 0x67]), ('\u{5DB4}', [0xE9, 0x6A]), ";
"    ('\u{5DB5}', [0xE9, 0x62]), ('\u{5DB6}', [0xFC, 0x58]), ('\u{5DB7}', [0xEC, 0xDA]), ";
"    ('\u{5DB8}', [0xC0, 0xAF]), ('\u{5DB9}', [0x8D, 0x66]), ('\u{5DBA}', [0xC0, 0xAD]), ";
"    ('\u{5DBC}', [0xC0, 0xAC]), ('\u{5DBD}', [0xC0, 0xAE]), ('\u{5DC0}', [0xEF, 0xC4]), ";
"    ('\u{5DC1}', [0x96, 0x54]), ('\u{5DC2}', [0xF1, 0x72]), ('\u{5DC3}', [0xF1, 0xFD]), ";
"    ('\u{5DC6}', [0xF4, 0x44]), ('\u{5DC7}', [0xF4, 0x45]), ('\u{5DC9}', [0xC4, 0x60]), ";
"    ('\u{5DCB}', [0xF5, 0xC9]), ('\u{5DCD}', [0xC4, 0xDE]), ('\u{5DCF}', [0xF5, 0xCA]), ";
"    ('\u{5DD1}', [0xF6, 0xDE]), ('\u{5DD2}', [0xC5, 0x72]), ('\u{5DD4}', [0xC5, 0x71]), ";
"    ('\u{5DD5}', [0xF6, 0xDD]), ('\u{5DD6}', [0xC5, 0xC9]), ('\u{5DD7}', [0xFB, 0xE8]), ";
"    ('\u{5DD8}', [0xF7, 0xD6]), ('\u{5DDB}', [0xC6, 0xCC]), ('\u{5DDD}', [0xA4, 0x74]), ";
"    ('\u{5DDE}', [0xA6, 0x7B]), ('\u{5DDF}', [0xC9, 0xDA]), ('\u{5DE0}', [0xCA, 0xCA]), ";
"    ('\u{5DE1}', [0xA8, 0xB5]), ('\u{5DE2}', [0xB1, 0x5F]), ('\u{5DE5}', [0xA4, 0x75]), ";
"    ('\u{5DE6}', [0xA5, 0xAA]), ('\u{5DE7}', [0xA5, 0xA9]), ('\u{5DE8}', [0xA5, 0xA8]), ";
"    ('\u{5DEB}', [0xA7, 0xC5]), ('\u{5DEE}', [0xAE, 0x74]), ('\u{5DF0}', [0xDD, 0x57]), ";
"    ('\u{5DF1}', [0xA4, 0x76]), ('\u{5DF2}', [0xA4, 0x77]), ('\u{5DF3}', [0xA4, 0x78]), ";
"    ('\u{5DF4}', [0xA4, 0xDA]), ('\u{5DF5}', [0x9F, 0xCE]), ('\u{5DF7}', [0xAB, 0xD1]), ";
"    ('\u{5DF9}', [0xCE, 0xAF]), ('\u{5DFD}', [0xB4, 0x53]), ('\u{5DFE}', [0xA4, 0x79]), ";
"    ('\u{5DFF}', [0xC9, 0x5D]), ('\u{5E02}', [0xA5, 0xAB]), ('\u{5E03}', [0xA5, 0xAC]), ";
"    ('\u{5E04}', [0xC9, 0x78]), ('\u{5E06}', [0xA6, 0x7C]), ('\u{5E09}', [0xFB, 0xFC]), ";
"    ('\u{5E0A}', [0xCA, 0xCB]), ('\u{5E0B}', [0x9A, 0xE4]), ('\u{5E0C}', [0xA7, 0xC6]), ";
"    ('\u{5E0E}', [0xCA, 0xCC]), ('\u{5E11}', [0xA9, 0xAE]), ('\u{5E12}', [0x9F, 0x75]), ";
"    ('\u{5E14}', [0xCC, 0x6E]), ('\u{5E15}', [0xA9, 0xAC]), ('\u{5E16}', [0xA9, 0xAB]), ";
"    ('\u{5E17}', [0xCC, 0x6D]), ('\u{5E18}', [0xA9, 0xA9]), ('\u{5E19}', [0xCC, 0x6F]), ";
"    ('\u{5E1A}', [0xA9, 0xAA]), ('\u{5E1B}', [0xA9, 0xAD]), ('\u{5E1D}', [0xAB, 0xD2]), ";
"    ('\u{5E1F}', [0xAB, 0xD4]), ('\u{5E20}', [0xCE, 0xB3]), ('\u{5E21}', [0xCE, 0xB0]), ";
"    ('\u{5E22}', [0xCE, 0xB1]), ('\u{5E23}', [0xCE, 0xB2]), ('\u{5E24}', [0xCE, 0xB4]), ";
"    ('\u{5E25}', [0xAB, 0xD3]), ('\u{5E28}', [0xD1, 0x74]), ('\u{5E29}', [0xD1, 0x73]), ";
"    ('\u{5E2B}', [0xAE, 0x76]), ('\u{5E2D}', [0xAE, 0x75]), ('\u{5E2E}', [0xFB, 0xF1]), ";
"    ('\u{5E33}', [0xB1, 0x62]), ('\u{5E34}', [0xD5, 0x46]), ('\u{5E36}', [0xB1, 0x61]), ";
"    ('\u{5E37}', [0xB1, 0x63]), ('\u{5E38}', [0xB1, 0x60]), ('\u{5E3D}', [0xB4, 0x55]), ";
"    ('\u{5E3E}', [0xD5, 0x45]), ('\u{5E40}', [0xB4, 0x56]), ('\u{5E41}', [0xD8, 0xF3]), ";
"    ('\u{5E42}', [0x8D, 0x69]), ('\u{5E43}', [0xB4, 0x57]), ('\u{5E44}', [0xD8, 0xF2]), ";
"    ('\u{5E45}', [0xB4, 0x54]), ('\u{5E48}', [0x93, 0x4F]), ('\u{5E4A}', [0xDD, 0x5A]), ";
"    ('\u{5E4B}', [0xDD, 0x5C]), ('\u{5E4C}', [0xB7, 0x45]), ('\u{5E4D}', [0xDD, 0x5B]), ";
"    ('\u{5E4E}', [0xDD, 0x59]), ('\u{5E4F}', [0xDD, 0x58]), ('\u{5E53}', [0xE1, 0xB4]), ";
"    ('\u{5E54}', [0xB9, 0xF7]), ('\u{5E55}', [0xB9, 0xF5]), ('\u{5E57}', [0xB9, 0xF6]), ";
"    ('\u{5E58}', [0xE1, 0xB2]), ('\u{5E59}', [0xE1, 0xB3]), ('\u{5E5B}', [0xB9, 0xF3]), ";
"    ('\u{5E5C}', [0xE5, 0x71]), ('\u{5E5D}', [0xE5, 0x6F]), ('\u{5E5E}', [0x93, 0x4E]), ";
"    ('\u{5E5F}', [0xBC, 0x6D]), ('\u{5E60}', [0xE5, 0x70]), ('\u{5E61}', [0xBC, 0x6E]), ";
"    ('\u{5E62}', [0xBC, 0x6C]), ('\u{5E63}', [0xB9, 0xF4]), ('\u{5E66}', [0xE9, 0x6D]), ";
"    ('\u{5E67}', [0xE9, 0x6B]), ('\u{5E68}', [0xE9, 0x6C]), ('\u{5E69}', [0xE5, 0x6E]), ";
"    ('\u{5E6A}', [0xEC, 0xDC]), ('\u{5E6B}', [0xC0, 0xB0]), ('\u{5E6C}', [0xEC, 0xDB]), ";
"    ('\u{5E6D}', [0xEF, 0xC5]), ('\u{5E6E}', [0xEF, 0xC6]), ('\u{5E6F}', [0xE9, 0x6E]), ";
"    ('\u{5E70}', [0xF1, 0xFE]), ('\u{5E72}', [0xA4, 0x7A]), ('\u{5E73}', [0xA5, 0xAD]), ";
"    ('\u{5E74}', [0xA6, 0x7E]), ('\u{5E75}', [0xC9, 0xDB]), ('\u{5E76}', [0xA6, 0x7D]), ";
"    ('\u{5E78}', [0xA9, 0xAF]), ('\u{5E79}', [0xB7, 0x46]), ('\u{5E7A}', [0xFB, 0xF4]), ";
"    ('\u{5E7B}', [0xA4, 0xDB]), ('\u{5E7C}', [0xA5, 0xAE]), ('\u{5E7D}', [0xAB, 0xD5]), ";
"    ('\u{5E7E}', [0xB4, 0x58]), ('\u{5E7F}', [0xC6, 0xCE]), ('\u{5E80}', [0xC9, 0x79]), ";
"    ('\u{5E82}', [0xC9, 0x7A]), ('\u{5E83}', [0xFB, 0xC3]), ('\u{5E84}', [0xC9, 0xDC]), ";
"    ('\u{5E86}', [0x89, 0x65]), ('\u{5E87}', [0xA7, 0xC8]), ('\u{5E88}', [0xCA, 0xD0]), ";
"    ('\u{5E89}', [0xCA, 0xCE]), ('\u{5E8A}', [0xA7, 0xC9]), ('\u{5E8B}', [0xCA, 0xCD]), ";
"    ('\u{5E8C}', [0xCA, 0xCF]), ('\u{5E8D}', [0xCA, 0xD1]), ('\u{5E8F}', [0xA7, 0xC7]), ";
"    ('\u{5E92}', [0x8C, 0x7A]), ('\u{5E95}', [0xA9, 0xB3]), ('\u{5E96}', [0xA9, 0xB4]), ";
"    ('\u{5E97}', [0xA9, 0xB1]), ('\u{5E99}', [0x8C, 0x7B]), ('\u{5E9A}', [0xA9, 0xB0]), ";
"    ('\u{5E9B}', [0xCE, 0xB8]), ('\u{5E9C}', [0xA9, 0xB2]), ('\u{5EA0}', [0xAB, 0xD6]), ";
"    ('\u{5EA2}', [0xCE, 0xB7]), ('\u{5EA3}', [0xCE, 0xB9]), ('\u{5EA4}', [0xCE, 0xB6]), ";
"    ('\u{5EA5}', [0xCE, 0xBA]), ('\u{5EA6}', [0xAB, 0xD7]), ('\u{5EA7}', [0xAE, 0x79]), ";
"    ('\u{5EA8}', [0xD1, 0x75]), ('\u{5EAA}', [0xD1, 0x77]), ('\u{5EAB}', [0xAE, 0x77]), ";
"    ('\u{5EAC}', [0xD1, 0x78]), ('\u{5EAD}', [0xAE, 0x78]), ('\u{5EAE}', [0xD1, 0x76]), ";
"    ('\u{5EB0}', [0xCE, 0xB5]), ('\u{5EB1}', [0xD5, 0x47]), ('\u{5EB2}', [0xD5, 0x4A]), ";
"    ('\u{5EB3}', [0xD5, 0x4B]), ('\u{5EB4}', [0xD5, 0x48]), ('\u{5EB5}', [0xB1, 0x67]), ";
"    ('\u{5EB6}', [0xB1, 0x66]), ('\u{5EB7}', [0xB1, 0x64]), ('\u{5EB8}', [0xB1, 0x65]), ";
"    ('\u{5EB9}', [0xD5, 0x49]), ('\u{5EBD}', [0x8D, 0x6A]), ('\u{5EBE}', [0xB1, 0x68]), ";
"    ('\u{5EC1}', [0xB4, 0x5A]), ('\u{5EC2}', [0xB4, 0x5B]), ('\u{5EC4}', [0xB4, 0x5C]), ";
"    ('\u{5EC5}', [0xDD, 0x5D]), ('\u{5EC6}', [0xDD, 0x5F]), ('\u{5EC7}', [0xDD, 0x61]), ";
"    ('\u{5EC8}', [0xB7, 0x48]), ('\u{5EC9}', [0xB7, 0x47]), ('\u{5ECA}', [0xB4, 0x59]), ";
"    ('\u{5ECB}', [0xDD, 0x60]), ('\u{5ECC}', [0xDD, 0x5E]), ('\u{5ECD}', [0x93, 0x53]), ";
"    ('\u{5ECE}', [0xE1, 0xB8]), ('\u{5ED0}', [0x9D, 0xFB]), ('\u{5ED1}', [0xE1, 0xB6]), ";
"    ('\u{5ED2}', [0xE1, 0xBC]), ('\u{5ED3}', [0xB9, 0xF8]), ('\u{5ED4}', [0xE1, 0xBD]), ";
"    ('\u{5ED5}', [0xE1, 0xBA]), ('\u{5ED6}', [0xB9, 0xF9]), ('\u{5ED7}', [0xE1, 0xB7]), ";
"    ('\u{5ED8}', [0xE1, 0xB5]), ('\u{5ED9}', [0xE1, 0xBB]), ('\u{5EDA}', [0xBC, 0x70]), ";
"    ('\u{5EDB}', [0xE5, 0x73]), ('\u{5EDC}', [0xE1, 0xB9]), ('\u{5EDD}', [0xBC, 0x72]), ";
"    ('\u{5EDE}', [0xE5, 0x74]), ('\u{5EDF}', [0xBC, 0x71]), ('\u{5EE0}', [0xBC, 0x74]), ";
"    ('\u{5EE1}', [0xE5, 0x75]), ('\u{5EE2}', [0xBC, 0x6F]), ('\u{5EE3}', [0xBC, 0x73]), ";
"    ('\u{5EE5}', [0xE9, 0x73]), ('\u{5EE6}', [0xE9, 0x71]), ('\u{5EE7}', [0xE9, 0x70]), ";
"    ('\u{5EE8}', [0xE9, 0x72]), ('\u{5EE9}', [0xE9, 0x6F]), ('\u{5EEC}', [0xC3, 0x66]), ";
"    ('\u{5EEE}', [0xF4, 0x46]), ('\u{5EEF}', [0xF4, 0x47]), ('\u{5EF1}', [0xF5, 0xCB]), ";
"    ('\u{5EF2}', [0xF6, 0xDF]), ('\u{5EF3}', [0xC6, 0x55]), ('\u{5EF4}', [0xC6, 0xCF]), ";
"    ('\u{5EF6}', [0xA9, 0xB5]), ('\u{5EF7}', [0xA7, 0xCA]), ('\u{5EF8}', [0x90, 0x59]), ";
"    ('\u{5EF9}', [0xFC, 0x40]), ('\u{5EFA}', [0xAB, 0xD8]), ('\u{5EFB}', [0xFC, 0x41]), ";
"    ('\u{5EFC}', [0xFC, 0x43]), ('\u{5EFE}', [0xA4, 0x7B]), ('\u{5EFF}', [0xA4, 0xDC]), ";
"    ('\u{5F01}', [0xA5, 0xAF]), ('\u{5F02}', [0xC9, 0xDD]), ('\u{5F04}', [0xA7, 0xCB]), ";
"    ('\u{5F05}', [0xCA, 0xD2]), ('\u{5F07}', [0xCE, 0xBB]), ('\u{5F08}', [0xAB, 0xD9]), ";
"    ('\u{5F0A}', [0xB9, 0xFA]), ('\u{5F0B}', [0xA4, 0x7C]), ('\u{5F0C}', [0x93, 0x61]), ";
"    ('\u{5F0D}', [0xFC, 0x46]), ('\u{5F0E}', [0x93, 0x62]), ('\u{5F0F}', [0xA6, 0xA1]), ";
"    ('\u{5F12}', [0xB7, 0x49]), ('\u{5F13}', [0xA4, 0x7D]), ('\u{5F14}', [0xA4, 0xDD]), ";
"    ('\u{5F15}', [0xA4, 0xDE]), ('\u{5F17}', [0xA5, 0xB1]), ('\u{5F18}', [0xA5, 0xB0]), ";
"    ('\u{5F1A}', [0xC9, 0xDE]), ('\u{5F1B}', [0xA6, 0xA2]), ('\u{5F1D}', [0xCA, 0xD3]), ";
"    ('\u{5F1F}', [0xA7, 0xCC]), ('\u{5F22}', [0xCC, 0x71]), ('\u{5F23}', [0xCC, 0x72]), ";
"    ('\u{5F24}', [0xCC, 0x73]), ('\u{5F25}', [0x8D, 0x6B]), ('\u{5F26}', [0xA9, 0xB6]), ";
"    ('\u{5F27}', [0xA9, 0xB7]), ('\u{5F28}', [0xCC, 0x70]), ('\u{5F29}', [0xA9, 0xB8]), ";
"    ('\u{5F2D}', [0xAB, 0xDA]), ('\u{5F2E}', [0xCE, 0xBC]), ('\u{5F30}', [0xD1, 0x7A]), ";
"    ('\u{5F31}', [0xAE, 0x7A]), ('\u{5F33}', [0xD1, 0x79]), ('\u{5F35}', [0xB1, 0x69]), ";
"    ('\u{5F36}', [0xD5, 0x4C]), ('\u{5F37}', [0xB1, 0x6A]), ('\u{5F38}', [0xD5, 0x4D]), ";
"    ('\u{5F3A}', [0xFC, 0x4C]), ('\u{5F3B}', [0x8C, 0xFE]), ('\u{5F3C}', [0xB4, 0x5D]), ";
"    ('\u{5F40}', [0xDD, 0x62]), ('\u{5F43}', [0xE1, 0xBF]), ('\u{5F44}', [0xE1, 0xBE]), ";
"    ('\u{5F46}', [0xB9, 0xFB]), ('\u{5F48}', [0xBC, 0x75]), ('\u{5F49}', [0xE5, 0x76]), ";
"    ('\u{5F4A}', [0xBE, 0xCA]), ('\u{5F4B}', [0xE9, 0x74]), ('\u{5F4C}', [0xC0, 0xB1]), ";
"    ('\u{5F4D}', [0x95, 0xB8]), ('\u{5F4E}', [0xC5, 0x73]), ('\u{5F4F}', [0xF7, 0xD8]), ";
"    ('\u{5F50}', [0xC6, 0xD0]), ('\u{5F51}', [0x8B, 0xCA]), ('\u{5F54}', [0xCC, 0x74]), ";
"    ('\u{5F56}', [0xCE, 0xBD]), ('\u{5F57}', [0xB1, 0x6B]), ('\u{5F58}', [0xD8, 0xF4]), ";
"    ('\u{5F59}', [0xB7, 0x4A]), ('\u{5F5C}', [0x98, 0x7A]), ('\u{5F5D}', [0xC2, 0x55]), ";
"    ('\u{5F61}', [0xC6, 0xD1]), ('\u{5F62}', [0xA7, 0xCE]), ('\u{5F63}', [0xFC, 0x51]), ";
"    ('\u{5F64}', [0xA7, 0xCD]), ('\u{5F65}', [0xAB, 0xDB]), ('\u{5F67}', [0xD1, 0x7B]), ";
"    ('\u{5F69}', [0xB1, 0x6D]), ('\u{5F6A}', [0xB3, 0x43]), ('\u{5F6B}', [0xB1, 0x6E]), ";
"    ('\u{5F6C}', [0xB1, 0x6C]), ('\u{5F6D}', [0xB4, 0x5E]), ('\u{5F6F}', [0xE1, 0xC0]), ";
"    ('\u{5F70}', [0xB9, 0xFC]), ('\u{5F71}', [0xBC, 0x76]), ('\u{5F72}', [0xFC, 0x54]), ";
"    ('\u{5F73}', [0xC9, 0x4C]), ('\u{5F74}', [0xC9, 0xDF]), ('\u{5F76}', [0xCA, 0xD5]), ";
"    ('\u{5F77}', [0xA7, 0xCF]), ('\u{5F78}', [0xCA, 0xD4]), ('\u{5F79}', [0xA7, 0xD0]), ";
"    ('\u{5F7B}', [0xFA, 0xAF]), ('\u{5F7C}', [0xA9, 0xBC]), ('\u{5F7D}', [0xCC, 0x77]), ";
"    ('\u{5F7E}', [0xCC, 0x76]), ('\u{5F7F}', [0xA9, 0xBB]), ('\u{5F80}', [0xA9, 0xB9]), ";
"    ('\u{5F81}', [0xA9, 0xBA]), ('\u{5F82}', [0xCC, 0x75]), ('\u{5F83}', [0x8D, 0x6C]), ";
"    ('\u{5F85}', [0xAB, 0xDD]), ('\u{5F86}', [0xCE, 0xBE]), ('\u{5F87}', [0xAB, 0xE0]), ";
"    ('\u{5F88}', [0xAB, 0xDC]), ('\u{5F89}', [0xAB, 0xE2]), ('\u{5F8A}', [0xAB, 0xDE]), ";
"    ('\u{5F8B}', [0xAB, 0xDF]), ('\u{5F8C}', [0xAB, 0xE1]), ('\u{5F90}', [0xAE, 0x7D]), ";
"    ('\u{5F91}', [0xAE, 0x7C]), ('\u{5F92}', [0xAE, 0x7B]), ('\u{5F96}', [0xD5, 0x4F]), ";
"    ('\u{5F97}', [0xB1, 0x6F]), ('\u{5F98}', [0xB1, 0x72]), ('\u{5F99}', [0xB1, 0x70]), ";
"    ('\u{5F9B}', [0xD5, 0x4E]), ('\u{5F9C}', [0xB1, 0x75]), ('\u{5F9E}', [0xB1, 0x71]), ";
"    ('\u{5F9F}', [0xD5, 0x50]), ('\u{5FA0}', [0xB1, 0x74]), ('\u{5FA1}', [0xB1, 0x73]), ";
"    ('\u{5FA4}', [0xFA, 0x61]), ('\u{5FA5}', [0xD8, 0xF6]), ('\u{5FA6}', [0xD8, 0xF5]), ";
"    ('\u{5FA7}', [0xFC, 0x57]), ('\u{5FA8}', [0xB4, 0x61]), ('\u{5FA9}', [0xB4, 0x5F]), ";
"    ('\u{5FAA}', [0xB4, 0x60]), ('\u{5FAB}', [0xD8, 0xF7]), ('\u{5FAC}', [0xB7, 0x4B]), ";
"    ('\u{5FAD}', [0xDD, 0x64]), ('\u{5FAE}', [0xB7, 0x4C]), ('\u{5FAF}', [0xDD, 0x63]), ";
"    ('\u{5FB1}', [0x9B, 0x70]), ('\u{5FB2}', [0xE5, 0x77]), ('\u{5FB5}', [0xBC, 0x78]), ";
"    ('\u{5FB6}', [0xE1, 0xC1]), ('\u{5FB7}', [0xBC, 0x77]), ('\u{5FB9}', [0xB9, 0xFD]), ";
"    ('\u{5FBA}', [0xA0, 0x51]), ('\u{5FBB}', [0xEC, 0xDE]), ('\u{5FBC}', [0xE9, 0x75]), ";
"    ('\u{5FBD}', [0xC0, 0xB2]), ('\u{5FBE}', [0xEC, 0xDD]), ('\u{5FBF}', [0xF2, 0x40]), ";
"    ('\u{5FC0}', [0xF4, 0x48]), ('\u{5FC1}', [0xF4, 0x49]), ('\u{5FC2}', [0x8C, 0x7C]), ";
"    ('\u{5FC3}', [0xA4, 0xDF]), ('\u{5FC4}', [0x8B, 0xCB]), ('\u{5FC5}', [0xA5, 0xB2]), ";
"    ('\u{5FC9}', [0xC9, 0x7B]), ('\u{5FCC}', [0xA7, 0xD2]), ('\u{5FCD}', [0xA7, 0xD4]), ";
"    ('\u{5FCF}', [0xC9, 0xE2]), ('\u{5FD0}', [0xCA, 0xD8]), ('\u{5FD1}', [0xCA, 0xD7]), ";
"    ('\u{5FD2}', [0xCA, 0xD6]), ('\u{5FD4}', [0xC9, 0xE1]), ('\u{5FD5}', [0xC9, 0xE0]), ";
"    ('\u{5FD6}', [0xA6, 0xA4]), ('\u{5FD7}', [0xA7, 0xD3]), ('\u{5FD8}', [0xA7, 0xD1]), ";
"    ('\u{5FD9}', [0xA6, 0xA3]), ('\u{5FDB}', [0x93, 0x6E]), ('\u{5FDD}', [0xA9, 0xBD]), ";
"    ('\u{5FDE}', [0xCC, 0x78]), ('\u{5FDF}', [0xFC, 0xD5]), ('\u{5FE0}', [0xA9, 0xBE]), ";
"    ('\u{5FE1}', [0xCA, 0xDD]), ('\u{5FE3}', [0xCA, 0xDF]), ('\u{5FE4}', [0xCA, 0xDE]), ";
"    ('\u{5FE5}', [0xCC, 0x79]), ('\u{5FE8}', [0xCA, 0xDA]), ('\u{5FEA}', [0xA7, 0xD8]), ";
"    ('\u{5FEB}', [0xA7, 0xD6]), ('\u{5FED}', [0xCA, 0xD9]), ('\u{5FEE}', [0xCA, 0xDB]), ";
"    ('\u{5FEF}', [0xCA, 0xE1]), ('\u{5FF1}', [0xA7, 0xD5]), ('\u{5FF3}', [0xCA, 0xDC]), ";
"    ('\u{5FF4}', [0xCA, 0xE5]), ('\u{5FF5}', [0xA9, 0xC0]), ('\u{5FF7}', [0xCA, 0xE2]), ";
"    ('\u{5FF8}', [0xA7, 0xD7]), ('\u{5FFA}', [0xCA, 0xE0]), ('\u{5FFB}', [0xCA, 0xE3]), ";
"    ('\u{5FFD}', [0xA9, 0xBF]), ('\u{5FFF}', [0xA9, 0xC1]), ('\u{6000}', [0xCA, 0xE4]), ";
"    ('\u{6009}', [0xCC, 0xAF]), ('\u{600A}', [0xCC, 0xA2]), ('\u{600B}', [0xCC, 0x7E]), ";
"    ('\u{600C}', [0xCC, 0xAE]), ('\u{600D}', [0xCC, 0xA9]), ('\u{600E}', [0xAB, 0xE7]), ";
"    ('\u{600F}', [0xA9, 0xC2]), ('\u{6010}', [0xCC, 0xAA]), ('\u{6011}', [0xCC, 0xAD]), ";
"    ('\u{6012}', [0xAB, 0xE3]), ('\u{6013}', [0xCC, 0xAC]), ('\u{6014}', [0xA9, 0xC3]), ";
"    ('\u{6015}', [0xA9, 0xC8]), ('\u{6016}', [0xA9, 0xC6]), ('\u{6017}', [0xCC, 0xA3]), ";
"    ('\u{6019}', [0xCC, 0x7C]), ('\u{601A}', [0xCC, 0xA5]), ('\u{601B}', [0xA9, 0xCD]), ";
"    ('\u{601C}', [0xCC, 0xB0]), ('\u{601D}', [0xAB, 0xE4]), ('\u{601E}', [0xCC, 0xA6]), ";
"    ('\u{6020}', [0xAB, 0xE5]), ('\u{6021}', [0xA9, 0xC9]), ('\u{6022}', [0xCC, 0xA8]), ";
"    ('\u{6023}', [0xFC, 0xA9]), ('\u{6024}', [0xCE, 0xCD]), ('\u{6025}', [0xAB, 0xE6]), ";
"    ('\u{6026}', [0xCC, 0x7B]), ('\u{6027}', [0xA9, 0xCA]), ('\u{6028}', [0xAB, 0xE8]), ";
"    ('\u{6029}', [0xA9, 0xCB]), ('\u{602A}', [0xA9, 0xC7]), ('\u{602B}', [0xA9, 0xCC]), ";
"    ('\u{602C}', [0xCC, 0xA7]), ('\u{602D}', [0xCC, 0x7A]), ('\u{602E}', [0xCC, 0xAB]), ";
"    ('\u{602F}', [0xA9, 0xC4]), ('\u{6031}', [0xFC, 0x61]), ('\u{6032}', [0xCC, 0x7D]), ";
"    ('\u{6033}', [0xCC, 0xA4]), ('\u{6034}', [0xCC, 0xA1]), ('\u{6035}', [0xA9, 0xC5]), ";
"    ('\u{6037}', [0xCE, 0xBF]), ('\u{6039}', [0xCE, 0xC0]), ('\u{603B}', [0x89, 0x66]), ";
"    ('\u{6040}', [0xCE, 0xCA]), ('\u{6041}', [0xD1, 0xA1]), ('\u{6042}', [0xCE, 0xCB]), ";
"    ('\u{6043}', [0xAB, 0xEE]), ('\u{6044}', [0xCE, 0xCE]), ('\u{6045}', [0xCE, 0xC4]), ";
"    ('\u{6046}', [0xAB, 0xED]), ('\u{6047}', [0xCE, 0xC6]), ('\u{6049}', [0xCE, 0xC7]), ";
"    ('\u{604A}', [0xFA, 0xCB]), ('\u{604C}', [0xCE, 0xC9]), ('\u{604D}', [0xAB, 0xE9]), ";
"    ('\u{6050}', [0xAE, 0xA3]), ('\u{6052}', [0xF9, 0xDA]), ('\u{6053}', [0xCE, 0xC5]), ";
"    ('\u{6054}', [0xCE, 0xC1]), ('\u{6055}', [0xAE, 0xA4]), ('\u{6058}', [0xCE, 0xCF]), ";
"    ('\u{6059}', [0xAE, 0x7E]), ('\u{605A}', [0xD1, 0x7D]), ('\u{605B}', [0xCE, 0xC8]), ";
"    ('\u{605D}', [0xD1, 0x7C]), ('\u{605E}', [0xCE, 0xC3]), ('\u{605F}', [0xCE, 0xCC]), ";
"    ('\u{6062}', [0x9E, 0xA9]), ('\u{6063}', [0xAE, 0xA1]), ('\u{6064}', [0xAB, 0xF2]), ";
"    ('\u{6065}', [0xAE, 0xA2]), ('\u{6066}', [0xCE, 0xD0]), ('\u{6067}', [0xD1, 0x7E]), ";
"    ('\u{6068}', [0xAB, 0xEB]), ('\u{6069}', [0xAE, 0xA6]), ('\u{606A}', [0xAB, 0xF1]), ";
"    ('\u{606B}', [0xAB, 0xF0]), ('\u{606C}', [0xAB, 0xEF]), ('\u{606D}', [0xAE, 0xA5]), ";
"    ('\u{606E}', [0xCE, 0xD1]), ('\u{606F}', [0xAE, 0xA7]), ('\u{6070}', [0xAB, 0xEA]), ";
"    ('\u{6072}', [0xCE, 0xC2]), ('\u{6075}', [0x93, 0x7A]), ('\u{6077}', [0xA0, 0xE0]), ";
"    ('\u{607E}', [0x93, 0x6B]), ('\u{607F}', [0xB1, 0x76]), ('\u{6080}', [0xD1, 0xA4]), ";
"    ('\u{6081}', [0xD1, 0xA6]), ('\u{6083}', [0xD1, 0xA8]), ('\u{6084}', [0xAE, 0xA8]), ";
"    ('\u{6085}', [0xAE, 0xAE]), ('\u{6086}', [0xD5, 0x53]), ('\u{6087}', [0xD1, 0xAC]), ";
"    ('\u{6088}', [0xD1, 0xA3]), ('\u{6089}', [0xB1, 0x78]), ('\u{608A}', [0xD5, 0x51]), ";
"    ('\u{608C}', [0xAE, 0xAD]), ('\u{608D}', [0xAE, 0xAB]), ('\u{608E}', [0xD1, 0xAE]), ";
"    ('\u{6090}', [0xD5, 0x52]), ('\u{6092}', [0xD1, 0xA5]), ('\u{6094}', [0xAE, 0xAC]), ";
"    ('\u{6095}', [0xD1, 0xA9]), ('\u{6096}', [0xAE, 0xAF]), ('\u{6097}', [0xD1, 0xAB]), ";
"    ('\u{609A}', [0xAE, 0xAA]), ('\u{609B}', [0xD1, 0xAA]), ('\u{609C}', [0xD1, 0xAD]), ";
"    ('\u{609D}', [0xD1, 0xA7]), ('\u{609E}', [0xFC, 0x6B]), ('\u{609F}', [0xAE, 0xA9]), ";
"    ('\u{60A0}', [0xB1, 0x79]), ('\u{60A2}', [0xD1, 0xA2]), ('\u{60A3}', [0xB1, 0x77]), ";
"    ('\u{60A4}', [0xA0, 0xDC]), ('\u{60A7}', [0x94, 0x68]), ('\u{60A8}', [0xB1, 0x7A]), ";
"    ('\u{60B0}', [0xD5, 0x55]), ('\u{60B1}', [0xD5, 0x5E]), ('\u{60B2}', [0xB4, 0x64]), ";
"    ('\u{60B3}', [0xFC, 0x6D]), ('\u{60B4}', [0xB1, 0x7C]), ('\u{60B5}', [0xB1, 0xA3]), ";
"    ('\u{60B6}', [0xB4, 0x65]), ('\u{60B7}', [0xD5, 0x60]), ('\u{60B8}', [0xB1, 0xAA]), ";
"    ('\u{60B9}', [0xD8, 0xF9]), ('\u{60BA}', [0xD5, 0x56]), ('\u{60BB}', [0xB1, 0xA2]), ";
"    ('\u{60BC}', [0xB1, 0xA5]), ('\u{60BD}', [0xB1, 0x7E]), ('\u{60BE}', [0xD5, 0x54]), ";
"    ('\u{60BF}', [0xD5, 0x62]), ('\u{60C0}', [0xD5, 0x65]), ('\u{60C1}', [0xD9, 0x49]), ";
"    ('\u{60C3}', [0xD5, 0x63]), ('\u{60C4}', [0xD8, 0xFD]), ('\u{60C5}', [0xB1, 0xA1]), ";
"    ('\u{60C6}', [0xB1, 0xA8]), ('\u{60C7}', [0xB1, 0xAC]), ('\u{60C8}', [0xD5, 0x5D]), ";
"    ('\u{60C9}', [0xD8, 0xF8]), ('\u{60CA}', [0xD5, 0x61]), ('\u{60CB}', [0xB1, 0x7B]), ";
"    ('\u{60CC}', [0xD8, 0xFA]), ('\u{60CD}', [0xD5, 0x64]), ('\u{60CE}', [0xD8, 0xFC]), ";
"    ('\u{60CF}', [0xD5, 0x59]), ('\u{60D1}', [0xB4, 0x62]), ('\u{60D3}', [0xD5, 0x57]), ";
"    ('\u{60D4}', [0xD5, 0x58]), ('\u{60D5}', [0xB1, 0xA7]), ('\u{60D7}', [0x8D, 0x71]), ";
"    ('\u{60D8}', [0xB1, 0xA6]), ('\u{60D9}', [0xD5, 0x5B]), ('\u{60DA}', [0xB1, 0xAB]), ";
"    ('\u{60DB}', [0xD5, 0x5F]), ('\u{60DC}', [0xB1, 0xA4]), ('\u{60DD}', [0xD5, 0x5C]), ";
"    ('\u{60DE}', [0x9B, 0xEC]), ('\u{60DF}', [0xB1, 0xA9]), ('\u{60E0}', [0xB4, 0x66]), ";
"    ('\u{60E1}', [0xB4, 0x63]), ('\u{60E2}', [0xD8, 0xFB]), ('\u{60E3}', [0x99, 0xBA]), ";
"    ('\u{60E4}', [0xD5, 0x5A]), ('\u{60E6}', [0xB1, 0x7D]), ('\u{60E7}', [0x9A, 0xD0]), ";
"    ('\u{60E8}', [0x9A, 0x61]), ('\u{60E9}', [0xA0, 0xE5]), ('\u{60F0}', [0xB4, 0x6B]), ";
"    ('\u{60F1}', [0xB4, 0x6F]), ('\u{60F2}', [0xD9, 0x40]), ('\u{60F3}', [0xB7, 0x51]), ";
"    ('\u{60F4}', [0xB4, 0x6D]), ('\u{60F5}', [0xD9, 0x44]), ('\u{60F6}', [0xB4, 0x71]), "
].
(* /repo/src/generated/whatwg/big5_whatwg_tables.rs.inc:4097-4352 *)
Definition big5_inc_16 : list line := [
"    ('\u{60F7}', [0xDD, 0x65]), ('\u{60F8}', [0xD9, 0x46]), ('\u{60F9}', [0xB7, 0x53]), ";
"    ('\u{60FA}', [0xB4, 0x69]), ('\u{60FB}', [0xB4, 0x6C]), ('\u{60FC}', [0xD9, 0x47]), ";
"    ('\u{60FD}', [0xA0, 0x5B]), ('\u{60FE}', [0xD9, 0x48]), ('\u{60FF}', [0xD9, 0x4E]), ";
"    ('\u{6100}', [0xB4, 0x73]), ('\u{6101}', [0xB7, 0x54]), ('\u{6103}', [0xD9, 0x4A]), ";
"    ('\u{6104}', [0xD9, 0x4F]), ('\u{6105}', [0xD9, 0x43]), ('\u{6106}', [0xB7, 0x5E]), ";
"    ('\u{6107}', [0x96, 0xAC]), ('\u{6108}', [0xB7, 0x55]), ('\u{6109}', [0xB4, 0x72]), ";
"    ('\u{610A}', [0xD9, 0x41]), ('\u{610B}', [0xD9, 0x50]), ('\u{610C}', [0x97, 0x40]), ";
"    ('\u{610D}', [0xB7, 0x5D]), ('\u{610E}', [0xB4, 0x70]), ('\u{610F}', [0xB7, 0x4E]), ";
"    ('\u{6110}', [0xD9, 0x4D]), ('\u{6112}', [0xB4, 0x74]), ('\u{6113}', [0xD9, 0x45]), ";
"    ('\u{6114}', [0xD8, 0xFE]), ('\u{6115}', [0xB4, 0x6A]), ('\u{6116}', [0xD9, 0x42]), ";
"    ('\u{6118}', [0xD9, 0x4B]), ('\u{6119}', [0x9E, 0xF1]), ('\u{611A}', [0xB7, 0x4D]), ";
"    ('\u{611B}', [0xB7, 0x52]), ('\u{611C}', [0xB4, 0x67]), ('\u{611D}', [0xD9, 0x4C]), ";
"    ('\u{611F}', [0xB7, 0x50]), ('\u{6122}', [0x8C, 0x4D]), ('\u{6123}', [0xB4, 0x68]), ";
"    ('\u{6127}', [0xB7, 0x5C]), ('\u{6128}', [0xE1, 0xC3]), ('\u{6129}', [0xDD, 0x70]), ";
"    ('\u{612B}', [0xDD, 0x68]), ('\u{612C}', [0xE1, 0xC2]), ('\u{612E}', [0xDD, 0x6C]), ";
"    ('\u{612F}', [0xDD, 0x6E]), ('\u{6130}', [0x9F, 0x7E]), ('\u{6132}', [0xDD, 0x6B]), ";
"    ('\u{6134}', [0xB7, 0x5B]), ('\u{6136}', [0xDD, 0x6A]), ('\u{6137}', [0xB7, 0x5F]), ";
"    ('\u{613B}', [0xE1, 0xD2]), ('\u{613D}', [0x8D, 0x72]), ('\u{613E}', [0xB7, 0x5A]), ";
"    ('\u{613F}', [0xBA, 0x40]), ('\u{6140}', [0xDD, 0x71]), ('\u{6141}', [0xE1, 0xC4]), ";
"    ('\u{6142}', [0xFC, 0x76]), ('\u{6144}', [0xB7, 0x58]), ('\u{6145}', [0xDD, 0x69]), ";
"    ('\u{6146}', [0xDD, 0x6D]), ('\u{6147}', [0xB9, 0xFE]), ('\u{6148}', [0xB7, 0x4F]), ";
"    ('\u{6149}', [0xDD, 0x66]), ('\u{614A}', [0xDD, 0x67]), ('\u{614B}', [0xBA, 0x41]), ";
"    ('\u{614C}', [0xB7, 0x57]), ('\u{614D}', [0xB7, 0x59]), ('\u{614E}', [0xB7, 0x56]), ";
"    ('\u{614F}', [0xDD, 0x6F]), ('\u{6150}', [0x96, 0xA9]), ('\u{6152}', [0xE1, 0xC8]), ";
"    ('\u{6153}', [0xE1, 0xC9]), ('\u{6154}', [0xE1, 0xCE]), ('\u{6155}', [0xBC, 0x7D]), ";
"    ('\u{6156}', [0xE1, 0xD5]), ('\u{6158}', [0xBA, 0x47]), ('\u{6159}', [0xA0, 0x6E]), ";
"    ('\u{615A}', [0xBA, 0x46]), ('\u{615B}', [0xE1, 0xD0]), ('\u{615C}', [0xFC, 0xAA]), ";
"    ('\u{615D}', [0xBC, 0x7C]), ('\u{615E}', [0xE1, 0xC5]), ('\u{615F}', [0xBA, 0x45]), ";
"    ('\u{6160}', [0xFB, 0xCD]), ('\u{6161}', [0xE1, 0xD4]), ('\u{6162}', [0xBA, 0x43]), ";
"    ('\u{6163}', [0xBA, 0x44]), ('\u{6164}', [0xFC, 0x74]), ('\u{6165}', [0xE1, 0xD1]), ";
"    ('\u{6166}', [0xE5, 0xAA]), ('\u{6167}', [0xBC, 0x7A]), ('\u{6168}', [0xB4, 0x6E]), ";
"    ('\u{616A}', [0xE1, 0xD3]), ('\u{616B}', [0xBC, 0xA3]), ('\u{616C}', [0xE1, 0xCB]), ";
"    ('\u{616E}', [0xBC, 0x7B]), ('\u{616F}', [0xA0, 0x74]), ('\u{6170}', [0xBC, 0xA2]), ";
"    ('\u{6171}', [0xE1, 0xC6]), ('\u{6172}', [0xE1, 0xCA]), ('\u{6173}', [0xE1, 0xC7]), ";
"    ('\u{6174}', [0xE1, 0xCD]), ('\u{6175}', [0xBA, 0x48]), ('\u{6176}', [0xBC, 0x79]), ";
"    ('\u{6177}', [0xBA, 0x42]), ('\u{6179}', [0xE5, 0x7A]), ('\u{617A}', [0xE1, 0xCF]), ";
"    ('\u{617C}', [0xBC, 0xA1]), ('\u{617D}', [0xA0, 0x71]), ('\u{617E}', [0xBC, 0xA4]), ";
"    ('\u{6180}', [0xE1, 0xCC]), ('\u{6181}', [0xFC, 0x79]), ('\u{6182}', [0xBC, 0x7E]), ";
"    ('\u{6183}', [0xE5, 0x79]), ('\u{6187}', [0xFC, 0x7C]), ('\u{6189}', [0xE5, 0x7E]), ";
"    ('\u{618A}', [0xBE, 0xCE]), ('\u{618B}', [0xE5, 0x78]), ('\u{618C}', [0xE9, 0xA3]), ";
"    ('\u{618D}', [0xE5, 0xA9]), ('\u{618E}', [0xBC, 0xA8]), ('\u{6190}', [0xBC, 0xA6]), ";
"    ('\u{6191}', [0xBE, 0xCC]), ('\u{6192}', [0xE5, 0xA6]), ('\u{6193}', [0xE5, 0xA2]), ";
"    ('\u{6194}', [0xBC, 0xAC]), ('\u{6195}', [0x9C, 0x50]), ('\u{6196}', [0xE9, 0x78]), ";
"    ('\u{6198}', [0x93, 0x79]), ('\u{6199}', [0x93, 0x78]), ('\u{619A}', [0xBC, 0xAA]), ";
"    ('\u{619B}', [0xE5, 0xA1]), ('\u{619C}', [0xA0, 0xDD]), ('\u{619D}', [0xE9, 0x76]), ";
"    ('\u{619F}', [0xE5, 0xA5]), ('\u{61A1}', [0xE5, 0xA8]), ('\u{61A2}', [0xE5, 0x7D]), ";
"    ('\u{61A4}', [0xBC, 0xAB]), ('\u{61A7}', [0xBC, 0xA5]), ('\u{61A8}', [0xE9, 0x77]), ";
"    ('\u{61A9}', [0xBE, 0xCD]), ('\u{61AA}', [0xE5, 0xA7]), ('\u{61AB}', [0xBC, 0xA7]), ";
"    ('\u{61AC}', [0xBC, 0xA9]), ('\u{61AD}', [0xE5, 0xA4]), ('\u{61AE}', [0xBC, 0xAD]), ";
"    ('\u{61AF}', [0xE5, 0xA3]), ('\u{61B0}', [0xE5, 0x7C]), ('\u{61B1}', [0xE5, 0x7B]), ";
"    ('\u{61B2}', [0xBE, 0xCB]), ('\u{61B3}', [0xE5, 0xAB]), ('\u{61B4}', [0xE9, 0x7A]), ";
"    ('\u{61B5}', [0xEC, 0xE0]), ('\u{61B6}', [0xBE, 0xD0]), ('\u{61B7}', [0x8D, 0x75]), ";
"    ('\u{61B8}', [0xE9, 0xA2]), ('\u{61B9}', [0x8D, 0x76]), ('\u{61BA}', [0xE9, 0x7E]), ";
"    ('\u{61BC}', [0xEC, 0xE1]), ('\u{61BE}', [0xBE, 0xD1]), ('\u{61BF}', [0xE9, 0xA1]), ";
"    ('\u{61C0}', [0x93, 0x74]), ('\u{61C1}', [0xE9, 0x7C]), ('\u{61C2}', [0xC0, 0xB4]), ";
"    ('\u{61C3}', [0xEC, 0xDF]), ('\u{61C5}', [0xE9, 0x79]), ('\u{61C6}', [0xE9, 0x7B]), ";
"    ('\u{61C7}', [0xC0, 0xB5]), ('\u{61C8}', [0xBE, 0xD3]), ('\u{61C9}', [0xC0, 0xB3]), ";
"    ('\u{61CA}', [0xBE, 0xD2]), ('\u{61CB}', [0xC0, 0xB7]), ('\u{61CC}', [0xE9, 0x7D]), ";
"    ('\u{61CD}', [0xBE, 0xCF]), ('\u{61CF}', [0x8D, 0x77]), ('\u{61D0}', [0xFC, 0xA5]), ";
"    ('\u{61D3}', [0xFC, 0xA2]), ('\u{61D6}', [0xEF, 0xCF]), ('\u{61D8}', [0xEF, 0xC7]), ";
"    ('\u{61DA}', [0x90, 0xC3]), ('\u{61DE}', [0xEC, 0xE7]), ('\u{61DF}', [0xEF, 0xC8]), ";
"    ('\u{61E0}', [0xEC, 0xE3]), ('\u{61E2}', [0xA0, 0x79]), ('\u{61E3}', [0xC2, 0x56]), ";
"    ('\u{61E4}', [0xEC, 0xE5]), ('\u{61E5}', [0xEC, 0xE4]), ('\u{61E6}', [0xC0, 0xB6]), ";
"    ('\u{61E7}', [0xEC, 0xE2]), ('\u{61E8}', [0xEC, 0xE6]), ('\u{61E9}', [0xEF, 0xD0]), ";
"    ('\u{61EA}', [0xEF, 0xCC]), ('\u{61EB}', [0xEF, 0xCE]), ('\u{61ED}', [0xEF, 0xC9]), ";
"    ('\u{61EE}', [0xEF, 0xCA]), ('\u{61F0}', [0xEF, 0xCD]), ('\u{61F1}', [0xEF, 0xCB]), ";
"    ('\u{61F2}', [0xC3, 0x67]), ('\u{61F5}', [0xC3, 0x6A]), ('\u{61F6}', [0xC3, 0x69]), ";
"    ('\u{61F7}', [0xC3, 0x68]), ('\u{61F8}', [0xC4, 0x61]), ('\u{61F9}', [0xF4, 0x4A]), ";
"    ('\u{61FA}', [0xC4, 0x62]), ('\u{61FB}', [0xF2, 0x41]), ('\u{61FC}', [0xC4, 0xDF]), ";
"    ('\u{61FD}', [0xF5, 0xCC]), ('\u{61FE}', [0xC4, 0xE0]), ('\u{61FF}', [0xC5, 0x74]), ";
"    ('\u{6200}', [0xC5, 0xCA]), ('\u{6201}', [0xF7, 0xD9]), ('\u{6203}', [0xF7, 0xDA]), ";
"    ('\u{6204}', [0xF7, 0xDB]), ('\u{6207}', [0xF9, 0xBA]), ('\u{6208}', [0xA4, 0xE0]), ";
"    ('\u{6209}', [0xC9, 0x7C]), ('\u{620A}', [0xA5, 0xB3]), ('\u{620C}', [0xA6, 0xA6]), ";
"    ('\u{620D}', [0xA6, 0xA7]), ('\u{620E}', [0xA6, 0xA5]), ('\u{6210}', [0xA6, 0xA8]), ";
"    ('\u{6211}', [0xA7, 0xDA]), ('\u{6212}', [0xA7, 0xD9]), ('\u{6214}', [0xCC, 0xB1]), ";
"    ('\u{6215}', [0xA9, 0xCF]), ('\u{6216}', [0xA9, 0xCE]), ('\u{6219}', [0xD1, 0xAF]), ";
"    ('\u{621A}', [0xB1, 0xAD]), ('\u{621B}', [0xB1, 0xAE]), ('\u{621F}', [0xB4, 0x75]), ";
"    ('\u{6220}', [0xDD, 0x72]), ('\u{6221}', [0xB7, 0x60]), ('\u{6222}', [0xB7, 0x61]), ";
"    ('\u{6223}', [0xDD, 0x74]), ('\u{6224}', [0xDD, 0x76]), ('\u{6225}', [0xDD, 0x75]), ";
"    ('\u{6227}', [0xE1, 0xD7]), ('\u{6229}', [0xE1, 0xD6]), ('\u{622A}', [0xBA, 0x49]), ";
"    ('\u{622B}', [0xE1, 0xD8]), ('\u{622C}', [0x8D, 0x79]), ('\u{622D}', [0xE5, 0xAC]), ";
"    ('\u{622E}', [0xBC, 0xAE]), ('\u{6230}', [0xBE, 0xD4]), ('\u{6232}', [0xC0, 0xB8]), ";
"    ('\u{6233}', [0xC2, 0x57]), ('\u{6234}', [0xC0, 0xB9]), ('\u{6236}', [0xA4, 0xE1]), ";
"    ('\u{6237}', [0x8B, 0xFC]), ('\u{6239}', [0xA0, 0x76]), ('\u{623A}', [0xCA, 0xE6]), ";
"    ('\u{623D}', [0xCC, 0xB2]), ('\u{623E}', [0xA9, 0xD1]), ('\u{623F}', [0xA9, 0xD0]), ";
"    ('\u{6240}', [0xA9, 0xD2]), ('\u{6241}', [0xAB, 0xF3]), ('\u{6242}', [0xCE, 0xD2]), ";
"    ('\u{6243}', [0xCE, 0xD3]), ('\u{6246}', [0xD1, 0xB0]), ('\u{6247}', [0xAE, 0xB0]), ";
"    ('\u{6248}', [0xB1, 0xAF]), ('\u{6249}', [0xB4, 0x76]), ('\u{624A}', [0xD9, 0x51]), ";
"    ('\u{624B}', [0xA4, 0xE2]), ('\u{624C}', [0x8B, 0xCD]), ('\u{624D}', [0xA4, 0x7E]), ";
"    ('\u{624E}', [0xA4, 0xE3]), ('\u{6250}', [0xC9, 0x7D]), ('\u{6251}', [0xA5, 0xB7]), ";
"    ('\u{6252}', [0xA5, 0xB6]), ('\u{6253}', [0xA5, 0xB4]), ('\u{6254}', [0xA5, 0xB5]), ";
"    ('\u{6258}', [0xA6, 0xAB]), ('\u{6259}', [0xC9, 0xE9]), ('\u{625A}', [0xC9, 0xEB]), ";
"    ('\u{625B}', [0xA6, 0xAA]), ('\u{625C}', [0xC9, 0xE3]), ('\u{625E}', [0xC9, 0xE4]), ";
"    ('\u{6260}', [0xC9, 0xEA]), ('\u{6261}', [0xC9, 0xE6]), ('\u{6262}', [0xC9, 0xE8]), ";
"    ('\u{6263}', [0xA6, 0xA9]), ('\u{6264}', [0xC9, 0xE5]), ('\u{6265}', [0xC9, 0xEC]), ";
"    ('\u{6266}', [0xC9, 0xE7]), ('\u{6268}', [0x9F, 0x5A]), ('\u{626D}', [0xA7, 0xE1]), ";
"    ('\u{626E}', [0xA7, 0xEA]), ('\u{626F}', [0xA7, 0xE8]), ('\u{6270}', [0xCA, 0xF0]), ";
"    ('\u{6271}', [0xCA, 0xED]), ('\u{6272}', [0xCA, 0xF5]), ('\u{6273}', [0xA7, 0xE6]), ";
"    ('\u{6274}', [0xCA, 0xF6]), ('\u{6276}', [0xA7, 0xDF]), ('\u{6277}', [0xCA, 0xF3]), ";
"    ('\u{6279}', [0xA7, 0xE5]), ('\u{627A}', [0xCA, 0xEF]), ('\u{627B}', [0xCA, 0xEE]), ";
"    ('\u{627C}', [0xA7, 0xE3]), ('\u{627D}', [0xCA, 0xF4]), ('\u{627E}', [0xA7, 0xE4]), ";
"    ('\u{627F}', [0xA9, 0xD3]), ('\u{6280}', [0xA7, 0xDE]), ('\u{6281}', [0xCA, 0xF1]), ";
"    ('\u{6282}', [0x9F, 0xF4]), ('\u{6283}', [0xCA, 0xE7]), ('\u{6284}', [0xA7, 0xDB]), ";
"    ('\u{6285}', [0x9F, 0xBA]), ('\u{6286}', [0xA7, 0xEE]), ('\u{6287}', [0xCA, 0xEC]), ";
"    ('\u{6288}', [0xCA, 0xF2]), ('\u{6289}', [0xA7, 0xE0]), ('\u{628A}', [0xA7, 0xE2]), ";
"    ('\u{628C}', [0xCA, 0xE8]), ('\u{628E}', [0xCA, 0xE9]), ('\u{628F}', [0xCA, 0xEA]), ";
"    ('\u{6290}', [0x8D, 0x7A]), ('\u{6291}', [0xA7, 0xED]), ('\u{6292}', [0xA7, 0xE7]), ";
"    ('\u{6293}', [0xA7, 0xEC]), ('\u{6294}', [0xCA, 0xEB]), ('\u{6295}', [0xA7, 0xEB]), ";
"    ('\u{6296}', [0xA7, 0xDD]), ('\u{6297}', [0xA7, 0xDC]), ('\u{6298}', [0xA7, 0xE9]), ";
"    ('\u{629D}', [0x9E, 0x45]), ('\u{62A4}', [0x93, 0xB0]), ('\u{62A6}', [0xA0, 0x75]), ";
"    ('\u{62A8}', [0xA9, 0xE1]), ('\u{62A9}', [0xCC, 0xBE]), ('\u{62AA}', [0xCC, 0xB7]), ";
"    ('\u{62AB}', [0xA9, 0xDC]), ('\u{62AC}', [0xA9, 0xEF]), ('\u{62AD}', [0xCC, 0xB3]), ";
"    ('\u{62AE}', [0xCC, 0xBA]), ('\u{62AF}', [0xCC, 0xBC]), ('\u{62B0}', [0xCC, 0xBF]), ";
"    ('\u{62B1}', [0xA9, 0xEA]), ('\u{62B3}', [0xCC, 0xBB]), ('\u{62B4}', [0xCC, 0xB4]), ";
"    ('\u{62B5}', [0xA9, 0xE8]), ('\u{62B6}', [0xCC, 0xB8]), ('\u{62B8}', [0xCC, 0xC0]), ";
"    ('\u{62B9}', [0xA9, 0xD9]), ('\u{62BB}', [0xCC, 0xBD]), ('\u{62BC}', [0xA9, 0xE3]), ";
"    ('\u{62BD}', [0xA9, 0xE2]), ('\u{62BE}', [0xCC, 0xB6]), ('\u{62BF}', [0xA9, 0xD7]), ";
"    ('\u{62C1}', [0x87, 0xDD]), ('\u{62C2}', [0xA9, 0xD8]), ('\u{62C3}', [0x9B, 0x46]), ";
"    ('\u{62C4}', [0xA9, 0xD6]), ('\u{62C5}', [0xFC, 0xAE]), ('\u{62C6}', [0xA9, 0xEE]), ";
"    ('\u{62C7}', [0xA9, 0xE6]), ('\u{62C8}', [0xA9, 0xE0]), ('\u{62C9}', [0xA9, 0xD4]), ";
"    ('\u{62CA}', [0xCC, 0xB9]), ('\u{62CB}', [0xA9, 0xDF]), ('\u{62CC}', [0xA9, 0xD5]), ";
"    ('\u{62CD}', [0xA9, 0xE7]), ('\u{62CE}', [0xA0, 0x77]), ('\u{62CF}', [0xCE, 0xD4]), ";
"    ('\u{62D0}', [0x9D, 0xC4]), ('\u{62D1}', [0xCC, 0xB5]), ('\u{62D2}', [0xA9, 0xDA]), ";
"    ('\u{62D3}', [0xA9, 0xDD]), ('\u{62D4}', [0xA9, 0xDE]), ('\u{62D5}', [0xFC, 0xB0]), ";
"    ('\u{62D6}', [0xA9, 0xEC]), ('\u{62D7}', [0xA9, 0xED]), ('\u{62D8}', [0xA9, 0xEB]), ";
"    ('\u{62D9}', [0xA9, 0xE5]), ('\u{62DA}', [0xA9, 0xE9]), ('\u{62DB}', [0xA9, 0xDB]), ";
"    ('\u{62DC}', [0xAB, 0xF4]), ('\u{62DF}', [0xFA, 0x51]), ('\u{62E5}', [0x8D, 0x7B]), ";
"    ('\u{62EB}', [0xCE, 0xDA]), ('\u{62EC}', [0xAC, 0x41]), ('\u{62ED}', [0xAB, 0xF8]), ";
"    ('\u{62EE}', [0xAB, 0xFA]), ('\u{62EF}', [0xAC, 0x40]), ('\u{62F0}', [0xCE, 0xE6]), ";
"    ('\u{62F1}', [0xAB, 0xFD]), ('\u{62F2}', [0xD1, 0xB1]), ('\u{62F3}', [0xAE, 0xB1]), ";
"    ('\u{62F4}', [0xAC, 0x43]), ('\u{62F5}', [0xCE, 0xD7]), ('\u{62F6}', [0xCE, 0xDF]), ";
"    ('\u{62F7}', [0xAB, 0xFE]), ('\u{62F8}', [0xCE, 0xDE]), ('\u{62F9}', [0xCE, 0xDB]), ";
"    ('\u{62FA}', [0xCE, 0xE3]), ('\u{62FB}', [0xCE, 0xE5]), ('\u{62FC}', [0xAB, 0xF7]), ";
"    ('\u{62FD}', [0xAB, 0xFB]), ('\u{62FE}', [0xAC, 0x42]), ('\u{62FF}', [0xAE, 0xB3]), ";
"    ('\u{6300}', [0xCE, 0xE0]), ('\u{6301}', [0xAB, 0xF9]), ('\u{6302}', [0xAC, 0x45]), ";
"    ('\u{6303}', [0xCE, 0xD9]), ('\u{6307}', [0xAB, 0xFC]), ('\u{6308}', [0xAE, 0xB2]), ";
"    ('\u{6309}', [0xAB, 0xF6]), ('\u{630B}', [0xCE, 0xD6]), ('\u{630C}', [0xCE, 0xDD]), ";
"    ('\u{630D}', [0xCE, 0xD5]), ('\u{630E}', [0xCE, 0xD8]), ('\u{630F}', [0xCE, 0xDC]), ";
"    ('\u{6310}', [0xD1, 0xB2]), ('\u{6311}', [0xAC, 0x44]), ('\u{6313}', [0xCE, 0xE1]), ";
"    ('\u{6314}', [0xCE, 0xE2]), ('\u{6315}', [0xCE, 0xE4]), ('\u{6316}', [0xAB, 0xF5]), ";
"    ('\u{6318}', [0x8D, 0x7C]), ('\u{6328}', [0xAE, 0xC1]), ('\u{6329}', [0xD1, 0xBE]), ";
"    ('\u{632A}', [0xAE, 0xBF]), ('\u{632B}', [0xAE, 0xC0]), ('\u{632C}', [0xD1, 0xB4]), ";
"    ('\u{632D}', [0xD1, 0xC4]), ('\u{632E}', [0x9E, 0xD6]), ('\u{632F}', [0xAE, 0xB6]), ";
"    ('\u{6331}', [0x93, 0xAC]), ('\u{6332}', [0xD5, 0x66]), ('\u{6333}', [0xD1, 0xC6]), ";
"    ('\u{6334}', [0xD1, 0xC0]), ('\u{6335}', [0x9F, 0x5B]), ('\u{6336}', [0xD1, 0xB7]), ";
"    ('\u{6337}', [0x93, 0xA9]), ('\u{6338}', [0xD1, 0xC9]), ('\u{6339}', [0xD1, 0xBA]), ";
"    ('\u{633A}', [0xAE, 0xBC]), ('\u{633B}', [0xD5, 0x7D]), ('\u{633C}', [0xD1, 0xBD]), ";
"    ('\u{633D}', [0xAE, 0xBE]), ('\u{633E}', [0xAE, 0xB5]), ('\u{6340}', [0xD1, 0xCB]), ";
"    ('\u{6341}', [0xD1, 0xBF]), ('\u{6342}', [0xAE, 0xB8]), ('\u{6343}', [0xD1, 0xB8]), ";
"    ('\u{6344}', [0xD1, 0xB5]), ('\u{6345}', [0xD1, 0xB6]), ('\u{6346}', [0xAE, 0xB9]), ";
"    ('\u{6347}', [0xD1, 0xC5]), ('\u{6348}', [0xD1, 0xCC]), ('\u{6349}', [0xAE, 0xBB]), ";
"    ('\u{634A}', [0xD1, 0xBC]), ('\u{634B}', [0xD1, 0xBB]), ('\u{634C}', [0xAE, 0xC3]), ";
"    ('\u{634D}', [0xAE, 0xC2]), ('\u{634E}', [0xAE, 0xB4]), ('\u{634F}', [0xAE, 0xBA]), ";
"    ('\u{6350}', [0xAE, 0xBD]), ('\u{6351}', [0xD1, 0xC8]), ('\u{6354}', [0xD1, 0xC2]), ";
"    ('\u{6355}', [0xAE, 0xB7]), ('\u{6356}', [0xD1, 0xB3]), ('\u{6357}', [0xD1, 0xCA]), ";
"    ('\u{6358}', [0xD1, 0xC1]), ('\u{6359}', [0xD1, 0xC3]), ('\u{635A}', [0xD1, 0xC7]), ";
"    ('\u{6364}', [0xA0, 0x7C]), ('\u{6365}', [0xD5, 0x67]), ('\u{6367}', [0xB1, 0xB7]), ";
"    ('\u{6368}', [0xB1, 0xCB]), ('\u{6369}', [0xB1, 0xCA]), ('\u{636B}', [0xB1, 0xBF]), ";
"    ('\u{636C}', [0xFC, 0xB2]), ('\u{636D}', [0xD5, 0x79]), ('\u{636E}', [0xD5, 0x75]), ";
"    ('\u{636F}', [0xD5, 0x72]), ('\u{6370}', [0xD5, 0xA6]), ('\u{6371}', [0xB1, 0xBA]), ";
"    ('\u{6372}', [0xB1, 0xB2]), ('\u{6375}', [0xD5, 0x77]), ('\u{6376}', [0xB4, 0xA8]), ";
"    ('\u{6377}', [0xB1, 0xB6]), ('\u{6378}', [0xD5, 0xA1]), ('\u{6379}', [0x8A, 0xC1]), ";
"    ('\u{637A}', [0xB1, 0xCC]), ('\u{637B}', [0xB1, 0xC9]), ('\u{637C}', [0xD5, 0x7B]), ";
"    ('\u{637D}', [0xD5, 0x6A]), ('\u{637F}', [0x9F, 0xB4]), ('\u{6380}', [0xB1, 0xC8]), ";
"    ('\u{6381}', [0xD5, 0xA3]), ('\u{6382}', [0xD5, 0x69]), ('\u{6383}', [0xB1, 0xBD]), ";
"    ('\u{6384}', [0xB1, 0xC1]), ('\u{6385}', [0xD5, 0xA2]), ('\u{6387}', [0xD5, 0x73]), ";
"    ('\u{6388}', [0xB1, 0xC2]), ('\u{6389}', [0xB1, 0xBC]), ('\u{638A}', [0xD5, 0x68]), ";
"    ('\u{638B}', [0xFC, 0xAC]), ('\u{638C}', [0xB4, 0x78]), ('\u{638D}', [0xD5, 0xA5]), ";
"    ('\u{638E}', [0xD5, 0x71]), ('\u{638F}', [0xB1, 0xC7]), ('\u{6390}', [0xD5, 0x74]), ";
"    ('\u{6391}', [0xD5, 0xA4]), ('\u{6392}', [0xB1, 0xC6]), ('\u{6394}', [0xD9, 0x52]), ";
"    ('\u{6396}', [0xB1, 0xB3]), ('\u{6397}', [0xD5, 0x6F]), ('\u{6398}', [0xB1, 0xB8]), ";
"    ('\u{6399}', [0xB1, 0xC3]), ('\u{639B}', [0xB1, 0xBE]), ('\u{639C}', [0xD5, 0x78]), ";
"    ('\u{639D}', [0xD5, 0x6E]), ('\u{639E}', [0xD5, 0x6C]), ('\u{639F}', [0xD5, 0x7E]), ";
"    ('\u{63A0}', [0xB1, 0xB0]), ('\u{63A1}', [0xB1, 0xC4]), ('\u{63A2}', [0xB1, 0xB4]), ";
"    ('\u{63A3}', [0xB4, 0x77]), ('\u{63A4}', [0xD5, 0x7C]), ('\u{63A5}', [0xB1, 0xB5]), ";
"    ('\u{63A7}', [0xB1, 0xB1]), ('\u{63A8}', [0xB1, 0xC0]), ('\u{63A9}', [0xB1, 0xBB]), ";
"    ('\u{63AA}', [0xB1, 0xB9]), ('\u{63AB}', [0xD5, 0x70]), ('\u{63AC}', [0xB1, 0xC5]), ";
"    ('\u{63AD}', [0xD5, 0x6D]), ('\u{63AE}', [0xD5, 0x7A]), ('\u{63AF}', [0xD5, 0x76]), ";
"    ('\u{63B0}', [0xD9, 0x54]), ('\u{63B1}', [0xD9, 0x53]), ('\u{63B9}', [0x9E, 0x4C]), ";
"    ('\u{63BD}', [0xD5, 0x6B]), ('\u{63BE}', [0xD9, 0x64]), ('\u{63C0}', [0xB4, 0x7A]), ";
"    ('\u{63C1}', [0x8F, 0xC5]), ('\u{63C2}', [0xD9, 0x6A]), ('\u{63C3}', [0xD9, 0x59]), ";
"    ('\u{63C4}', [0xD9, 0x67]), ('\u{63C5}', [0xDD, 0x77]), ('\u{63C6}', [0xB4, 0x7D]), ";
"    ('\u{63C7}', [0xD9, 0x6B]), ('\u{63C8}', [0xD9, 0x6E]), ('\u{63C9}', [0xB4, 0x7C]), ";
"    ('\u{63CA}', [0xD9, 0x5C]), ('\u{63CB}', [0xD9, 0x6D]), ('\u{63CC}', [0xD9, 0x6C]), ";
"    ('\u{63CD}', [0xB4, 0x7E]), ('\u{63CE}', [0xD9, 0x55]), ('\u{63CF}', [0xB4, 0x79]), ";
"    ('\u{63D0}', [0xB4, 0xA3]), ('\u{63D1}', [0x93, 0xAD]), ('\u{63D2}', [0xB4, 0xA1]), ";
"    ('\u{63D3}', [0xD9, 0x69]), ('\u{63D5}', [0xD9, 0x5F]), ('\u{63D6}', [0xB4, 0xA5]), ";
"    ('\u{63D7}', [0xD9, 0x70]), ('\u{63D8}', [0xD9, 0x68]), ('\u{63D9}', [0xD9, 0x71]), ";
"    ('\u{63DA}', [0xB4, 0xAD]), ('\u{63DB}', [0xB4, 0xAB]), ('\u{63DC}', [0xD9, 0x66]), ";
"    ('\u{63DD}', [0xD9, 0x65]), ('\u{63DE}', [0x9D, 0xC3]), ('\u{63DF}', [0xD9, 0x63]), ";
"    ('\u{63E0}', [0xD9, 0x5D]), ('\u{63E1}', [0xB4, 0xA4]), ('\u{63E2}', [0x8D, 0xA2]), ";
"    ('\u{63E3}', [0xB4, 0xA2]), ('\u{63E4}', [0xD1, 0xB9]), ('\u{63E5}', [0xD9, 0x56]), ";
"    ('\u{63E6}', [0x9D, 0x4A]), ('\u{63E7}', [0xDD, 0xB7]), ('\u{63E8}', [0xD9, 0x57]), ";
"    ('\u{63E9}', [0xB4, 0x7B]), ('\u{63EA}', [0xB4, 0xAA]), ('\u{63EB}', [0xDD, 0x79]), ";
"    ('\u{63ED}', [0xB4, 0xA6]), ('\u{63EE}', [0xB4, 0xA7]), ('\u{63EF}', [0xD9, 0x58]), ";
"    ('\u{63F0}', [0xD9, 0x6F]), ('\u{63F1}', [0xDD, 0x78]), ('\u{63F2}', [0xD9, 0x60]), ";
"    ('\u{63F3}', [0xD9, 0x5B]), ('\u{63F4}', [0xB4, 0xA9]), ('\u{63F5}', [0xD9, 0x61]), ";
"    ('\u{63F6}', [0xD9, 0x5E]), ('\u{63F8}', [0xFC, 0xB6]), ('\u{63F9}', [0xB4, 0xAE]), ";
"    ('\u{63FB}', [0x8D, 0xA3]), ('\u{63FC}', [0x9E, 0x4B]), ('\u{63FE}', [0x9E, 0x4D]), ";
"    ('\u{6406}', [0xB7, 0x70]), ('\u{6407}', [0x8D, 0xA4]), ('\u{6409}', [0xDD, 0x7C]), ";
"    ('\u{640A}', [0xDD, 0xB1]), ('\u{640B}', [0xDD, 0xB6]), ('\u{640C}', [0xDD, 0xAA]), ";
"    ('\u{640D}', [0xB7, 0x6C]), ('\u{640E}', [0xDD, 0xBB]), ('\u{640F}', [0xB7, 0x69]), ";
"    ('\u{6410}', [0xDD, 0x7A]), ('\u{6412}', [0xDD, 0x7B]), ('\u{6413}', [0xB7, 0x62]), ";
"    ('\u{6414}', [0xB7, 0x6B]), ('\u{6415}', [0xDD, 0xA4]), ('\u{6416}', [0xB7, 0x6E]), ";
"    ('\u{6417}', [0xB7, 0x6F]), ('\u{6418}', [0xDD, 0xA5]), ('\u{641A}', [0xDD, 0xB2]), ";
"    ('\u{641B}', [0xDD, 0xB8]), ('\u{641C}', [0xB7, 0x6A]), ('\u{641E}', [0xB7, 0x64]), ";
"    ('\u{641F}', [0xDD, 0xA3]), ('\u{6420}', [0xDD, 0x7D]), ('\u{6421}', [0xDD, 0xBA]), ";
"    ('\u{6422}', [0xDD, 0xA8]), ('\u{6423}', [0xDD, 0xA9]), ('\u{6424}', [0xDD, 0x7E]), ";
"    ('\u{6425}', [0xDD, 0xB4]), ('\u{6426}', [0xDD, 0xAB]), ('\u{6427}', [0xDD, 0xB5]), ";
"    ('\u{6428}', [0xDD, 0xAD]), ('\u{642A}', [0xB7, 0x65]), ('\u{642B}', [0xE1, 0xD9]), ";
"    ('\u{642C}', [0xB7, 0x68]), ('\u{642D}', [0xB7, 0x66]), ('\u{642E}', [0xDD, 0xB9]), ";
"    ('\u{642F}', [0xDD, 0xB0]), ('\u{6430}', [0xDD, 0xAC]), ('\u{6432}', [0x8A, 0xFD]), ";
"    ('\u{6433}', [0xDD, 0xA1]), ('\u{6434}', [0xBA, 0x53]), ('\u{6435}', [0xDD, 0xAF]), ";
"    ('\u{6436}', [0xB7, 0x6D]), ('\u{6437}', [0xDD, 0xA7]), ('\u{6438}', [0xFC, 0xB5]), ";
"    ('\u{6439}', [0xDD, 0xA6]), ('\u{643A}', [0xFC, 0xC3]), ('\u{643B}', [0x93, 0xB2]), ";
"    ('\u{643D}', [0xB7, 0x67]), ('\u{643E}', [0xB7, 0x63]), ('\u{643F}', [0xE1, 0xEE]), ";
"    ('\u{6440}', [0xDD, 0xB3]), ('\u{6441}', [0xDD, 0xAE]), ('\u{6443}', [0xDD, 0xA2]), ";
"    ('\u{644B}', [0xE1, 0xE9]), ('\u{644D}', [0xE1, 0xDA]), ('\u{644E}', [0xE1, 0xE5]), ";
"    ('\u{6450}', [0xE1, 0xEC]), ('\u{6451}', [0xBA, 0x51]), ('\u{6452}', [0xB4, 0xAC]), ";
"    ('\u{6453}', [0xE1, 0xEA]), ('\u{6454}', [0xBA, 0x4C]), ('\u{6458}', [0xBA, 0x4B]), ";
"    ('\u{6459}', [0xE1, 0xF1]), ('\u{645A}', [0x8D, 0xA5]), ('\u{645B}', [0xE1, 0xDB]), ";
"    ('\u{645C}', [0xE1, 0xE8]), ('\u{645D}', [0xE1, 0xDC]), ('\u{645E}', [0xE1, 0xE7]), ";
"    ('\u{645F}', [0xBA, 0x4F]), ('\u{6460}', [0xE1, 0xEB]), ('\u{6461}', [0xD9, 0x62]), ";
"    ('\u{6465}', [0xE1, 0xF2]), ('\u{6466}', [0xE1, 0xE3]), ('\u{6467}', [0xBA, 0x52]), ";
"    ('\u{6468}', [0xE5, 0xBA]), ('\u{6469}', [0xBC, 0xAF]), ('\u{646B}', [0xE1, 0xF0]), ";
"    ('\u{646C}', [0xE1, 0xEF]), ('\u{646D}', [0xBA, 0x54]), ('\u{646E}', [0xE5, 0xAD]), ";
"    ('\u{646F}', [0xBC, 0xB0]), ('\u{6470}', [0xE5, 0xAE]), ('\u{6471}', [0x93, 0xA1]), ";
"    ('\u{6472}', [0xE1, 0xDF]), ('\u{6473}', [0xE1, 0xE0]), ('\u{6474}', [0xE1, 0xDD]), ";
"    ('\u{6475}', [0xE1, 0xE2]), ('\u{6476}', [0xE1, 0xDE]), ('\u{6477}', [0xE1, 0xF3]), ";
"    ('\u{6478}', [0xBA, 0x4E]), ('\u{6479}', [0xBC, 0xB1]), ('\u{647A}', [0xBA, 0x50]), ";
"    ('\u{647B}', [0xBA, 0x55]), ('\u{647C}', [0x8A, 0xC6]), ('\u{647D}', [0xE1, 0xE1]), ";
"    ('\u{647F}', [0xE1, 0xED]), ('\u{6482}', [0xE1, 0xE6]), ('\u{6485}', [0xE5, 0xB1]), ";
"    ('\u{6487}', [0xBA, 0x4A]), ('\u{6488}', [0xBC, 0xB4]), ('\u{6489}', [0xE9, 0xAA]), ";
"    ('\u{648A}', [0xE5, 0xB6]), ('\u{648B}', [0xE5, 0xB5]), ('\u{648C}', [0xE5, 0xB7]), ";
"    ('\u{648D}', [0x8A, 0x5B]), ('\u{648F}', [0xE5, 0xB4]), ('\u{6490}', [0xBC, 0xB5]), ";
"    ('\u{6491}', [0x89, 0x4D]), ('\u{6492}', [0xBC, 0xBB]), ('\u{6493}', [0xBC, 0xB8]), ";
"    ('\u{6495}', [0xBC, 0xB9]), ('\u{6496}', [0xE5, 0xAF]), ('\u{6497}', [0xE5, 0xB2]), ";
"    ('\u{6498}', [0xE5, 0xBC]), ('\u{6499}', [0xBC, 0xC1]), ('\u{649A}', [0xBC, 0xBF]), ";
"    ('\u{649C}', [0xE5, 0xB3]), ('\u{649D}', [0xD9, 0x5A]), ('\u{649E}', [0xBC, 0xB2]), ";
"    ('\u{649F}', [0xE5, 0xB9]), ('\u{64A0}', [0xE5, 0xB0]), ('\u{64A2}', [0xBC, 0xC2]), ";
"    ('\u{64A3}', [0xE5, 0xB8]), ('\u{64A4}', [0xBA, 0x4D]), ('\u{64A5}', [0xBC, 0xB7]), ";
"    ('\u{64A6}', [0xE1, 0xE4]), ('\u{64A9}', [0xBC, 0xBA]), ('\u{64AB}', [0xBC, 0xBE]), ";
"    ('\u{64AC}', [0xBC, 0xC0]), ('\u{64AD}', [0xBC, 0xBD]), ('\u{64AE}', [0xBC, 0xBC]), ";
"    ('\u{64AF}', [0xFE, 0xD4]), ('\u{64B0}', [0xBC, 0xB6]), ('\u{64B1}', [0xE5, 0xBB]), ";
"    ('\u{64B2}', [0xBC, 0xB3]), ('\u{64B3}', [0xBC, 0xC3]), ('\u{64B4}', [0x8A, 0x78]), ";
"    ('\u{64B6}', [0x93, 0xAB]), ('\u{64BB}', [0xBE, 0xD8]), ('\u{64BC}', [0xBE, 0xD9]), ";
"    ('\u{64BD}', [0xE9, 0xA9]), ('\u{64BE}', [0xBE, 0xE2]), ('\u{64BF}', [0xBE, 0xDF]), ";
"    ('\u{64C0}', [0x8D, 0xA7]), ('\u{64C1}', [0xBE, 0xD6]), ('\u{64C2}', [0xBE, 0xDD]), ";
"    ('\u{64C3}', [0xE9, 0xAB]), ('\u{64C4}', [0xBE, 0xDB]), ('\u{64C5}', [0xBE, 0xD5]), ";
"    ('\u{64C7}', [0xBE, 0xDC]), ('\u{64C9}', [0xE9, 0xA8]), ('\u{64CA}', [0xC0, 0xBB]), ";
"    ('\u{64CB}', [0xBE, 0xD7]), ('\u{64CD}', [0xBE, 0xDE]), ('\u{64CE}', [0xC0, 0xBA]), ";
"    ('\u{64CF}', [0xE9, 0xA7]), ('\u{64D0}', [0xE9, 0xA6]), ('\u{64D2}', [0xBE, 0xE0]), ";
"    ('\u{64D3}', [0x9F, 0x45]), ('\u{64D4}', [0xBE, 0xE1]), ('\u{64D6}', [0xE9, 0xA5]), ";
"    ('\u{64D7}', [0xE9, 0xA4]), ('\u{64D8}', [0xC0, 0xBC]), ('\u{64D9}', [0xE9, 0xAE]), ";
"    ('\u{64DA}', [0xBE, 0xDA]), ('\u{64DB}', [0xE9, 0xAC]), ('\u{64DD}', [0x8A, 0x56]), ";
"    ('\u{64E0}', [0xC0, 0xBD]), ('\u{64E1}', [0xFC, 0xBF]), ('\u{64E2}', [0xC0, 0xC2]), "
].
(* /repo/src/generated/whatwg/big5_whatwg_tables.rs.inc:4353-4608 *)
Definition big5_inc_17 : list line := [
"    ('\u{64E3}', [0xEC, 0xEA]), ('\u{64E4}', [0xEC, 0xEC]), ('\u{64E5}', [0xFC, 0xC0]), ";
"    ('\u{64E6}', [0xC0, 0xBF]), ('\u{64E7}', [0x8E, 0xE6]), ('\u{64E8}', [0xEC, 0xED]), ";
"    ('\u{64E9}', [0xEC, 0xE9]), ('\u{64EA}', [0x8A, 0xA4]), ('\u{64EB}', [0xEC, 0xEB]), ";
"    ('\u{64EC}', [0xC0, 0xC0]), ('\u{64ED}', [0xC0, 0xC3]), ('\u{64EF}', [0xEC, 0xE8]), ";
"    ('\u{64F0}', [0xC0, 0xBE]), ('\u{64F1}', [0xC0, 0xC1]), ('\u{64F2}', [0xC2, 0x59]), ";
"    ('\u{64F3}', [0xE9, 0xAD]), ('\u{64F4}', [0xC2, 0x58]), ('\u{64F7}', [0xC2, 0x5E]), ";
"    ('\u{64F8}', [0xEF, 0xD4]), ('\u{64FA}', [0xC2, 0x5C]), ('\u{64FB}', [0xC2, 0x5D]), ";
"    ('\u{64FC}', [0xEF, 0xD7]), ('\u{64FD}', [0xEF, 0xD3]), ('\u{64FE}', [0xC2, 0x5A]), ";
"    ('\u{64FF}', [0xEF, 0xD1]), ('\u{6500}', [0xC3, 0x6B]), ('\u{6501}', [0xEF, 0xD5]), ";
"    ('\u{6503}', [0xEF, 0xD6]), ('\u{6504}', [0xEF, 0xD2]), ('\u{6506}', [0xC2, 0x5B]), ";
"    ('\u{6507}', [0xF2, 0x42]), ('\u{6509}', [0xF2, 0x45]), ('\u{650A}', [0x89, 0x43]), ";
"    ('\u{650C}', [0xF2, 0x46]), ('\u{650D}', [0xF2, 0x44]), ('\u{650E}', [0xF2, 0x47]), ";
"    ('\u{650F}', [0xC3, 0x6C]), ('\u{6510}', [0xF2, 0x43]), ('\u{6511}', [0x93, 0xF3]), ";
"    ('\u{6513}', [0xF4, 0x4E]), ('\u{6514}', [0xC4, 0x64]), ('\u{6515}', [0xF4, 0x4D]), ";
"    ('\u{6516}', [0xF4, 0x4C]), ('\u{6517}', [0xF4, 0x4B]), ('\u{6518}', [0xC4, 0x63]), ";
"    ('\u{6519}', [0xC4, 0x65]), ('\u{651B}', [0xF5, 0xCD]), ('\u{651C}', [0xC4, 0xE2]), ";
"    ('\u{651D}', [0xC4, 0xE1]), ('\u{651E}', [0xFC, 0xAB]), ('\u{651F}', [0x9E, 0xA2]), ";
"    ('\u{6520}', [0xF6, 0xE1]), ('\u{6521}', [0xF6, 0xE0]), ('\u{6522}', [0xF6, 0xE3]), ";
"    ('\u{6523}', [0xC5, 0xCB]), ('\u{6524}', [0xC5, 0x75]), ('\u{6525}', [0xF7, 0xDD]), ";
"    ('\u{6526}', [0xF6, 0xE2]), ('\u{6529}', [0xF7, 0xDC]), ('\u{652A}', [0xC5, 0xCD]), ";
"    ('\u{652B}', [0xC5, 0xCC]), ('\u{652C}', [0xC5, 0xF3]), ('\u{652D}', [0xF8, 0xA9]), ";
"    ('\u{652E}', [0xF8, 0xEF]), ('\u{652F}', [0xA4, 0xE4]), ('\u{6530}', [0x9D, 0xC7]), ";
"    ('\u{6532}', [0xD9, 0x72]), ('\u{6533}', [0xE9, 0xAF]), ('\u{6534}', [0xC6, 0xD2]), ";
"    ('\u{6535}', [0x8B, 0xCE]), ('\u{6536}', [0xA6, 0xAC]), ('\u{6537}', [0xCA, 0xF7]), ";
"    ('\u{6538}', [0xA7, 0xF1]), ('\u{6539}', [0xA7, 0xEF]), ('\u{653B}', [0xA7, 0xF0]), ";
"    ('\u{653D}', [0xCC, 0xC1]), ('\u{653E}', [0xA9, 0xF1]), ('\u{653F}', [0xAC, 0x46]), ";
"    ('\u{6541}', [0xCE, 0xE7]), ('\u{6543}', [0xCE, 0xE8]), ('\u{6545}', [0xAC, 0x47]), ";
"    ('\u{6546}', [0xD1, 0xCE]), ('\u{6548}', [0xAE, 0xC4]), ('\u{6549}', [0xAE, 0xC5]), ";
"    ('\u{654A}', [0xD1, 0xCD]), ('\u{654D}', [0xFC, 0xC5]), ('\u{654F}', [0xB1, 0xD3]), ";
"    ('\u{6551}', [0xB1, 0xCF]), ('\u{6553}', [0xD5, 0xA7]), ('\u{6554}', [0xB1, 0xD6]), ";
"    ('\u{6555}', [0xB1, 0xD5]), ('\u{6556}', [0xB1, 0xCE]), ('\u{6557}', [0xB1, 0xD1]), ";
"    ('\u{6558}', [0xB1, 0xD4]), ('\u{6559}', [0xB1, 0xD0]), ('\u{655C}', [0xD9, 0x76]), ";
"    ('\u{655D}', [0xB1, 0xCD]), ('\u{655E}', [0xB4, 0xAF]), ('\u{655F}', [0xFC, 0xCB]), ";
"    ('\u{6562}', [0xB4, 0xB1]), ('\u{6563}', [0xB4, 0xB2]), ('\u{6564}', [0xD9, 0x75]), ";
"    ('\u{6565}', [0xD9, 0x78]), ('\u{6566}', [0xB4, 0xB0]), ('\u{6567}', [0xD9, 0x73]), ";
"    ('\u{6568}', [0xD9, 0x77]), ('\u{656A}', [0xD9, 0x74]), ('\u{656B}', [0x93, 0xB3]), ";
"    ('\u{656C}', [0xB7, 0x71]), ('\u{656D}', [0xFC, 0xCA]), ('\u{656F}', [0xDD, 0xBC]), ";
"    ('\u{6572}', [0xBA, 0x56]), ('\u{6573}', [0xE1, 0xF4]), ('\u{6574}', [0xBE, 0xE3]), ";
"    ('\u{6575}', [0xBC, 0xC4]), ('\u{6576}', [0xE5, 0xBD]), ('\u{6577}', [0xBC, 0xC5]), ";
"    ('\u{6578}', [0xBC, 0xC6]), ('\u{6579}', [0xE5, 0xBF]), ('\u{657A}', [0xE5, 0xBE]), ";
"    ('\u{657B}', [0xE5, 0xC0]), ('\u{657C}', [0xE9, 0xB1]), ('\u{657F}', [0xE9, 0xB0]), ";
"    ('\u{6580}', [0xEC, 0xEF]), ('\u{6581}', [0xEC, 0xEE]), ('\u{6582}', [0xC0, 0xC4]), ";
"    ('\u{6583}', [0xC0, 0xC5]), ('\u{6584}', [0xF2, 0x48]), ('\u{6585}', [0xFC, 0xC9]), ";
"    ('\u{6586}', [0x8D, 0xAC]), ('\u{6587}', [0xA4, 0xE5]), ('\u{6588}', [0xFB, 0xC6]), ";
"    ('\u{6589}', [0x89, 0x67]), ('\u{658B}', [0x8C, 0x7E]), ('\u{658C}', [0xD9, 0x79]), ";
"    ('\u{6590}', [0xB4, 0xB4]), ('\u{6591}', [0xB4, 0xB3]), ('\u{6592}', [0xDD, 0xBD]), ";
"    ('\u{6594}', [0xEF, 0xD8]), ('\u{6595}', [0xC4, 0xE3]), ('\u{6596}', [0xF7, 0xDE]), ";
"    ('\u{6597}', [0xA4, 0xE6]), ('\u{6599}', [0xAE, 0xC6]), ('\u{659B}', [0xB1, 0xD8]), ";
"    ('\u{659C}', [0xB1, 0xD7]), ('\u{659D}', [0xD9, 0x7A]), ('\u{659E}', [0xD9, 0x7B]), ";
"    ('\u{659F}', [0xB7, 0x72]), ('\u{65A0}', [0xE1, 0xF5]), ('\u{65A1}', [0xBA, 0x57]), ";
"    ('\u{65A2}', [0xE9, 0xB2]), ('\u{65A4}', [0xA4, 0xE7]), ('\u{65A5}', [0xA5, 0xB8]), ";
"    ('\u{65A7}', [0xA9, 0xF2]), ('\u{65A8}', [0xCC, 0xC2]), ('\u{65AA}', [0xCE, 0xE9]), ";
"    ('\u{65AB}', [0xAC, 0x48]), ('\u{65AC}', [0xB1, 0xD9]), ('\u{65AE}', [0xD9, 0x7C]), ";
"    ('\u{65AF}', [0xB4, 0xB5]), ('\u{65B0}', [0xB7, 0x73]), ('\u{65B2}', [0xE5, 0xC1]), ";
"    ('\u{65B3}', [0xE5, 0xC2]), ('\u{65B5}', [0xFC, 0xCD]), ('\u{65B6}', [0xEC, 0xF0]), ";
"    ('\u{65B7}', [0xC2, 0x5F]), ('\u{65B8}', [0xF8, 0xF0]), ('\u{65B9}', [0xA4, 0xE8]), ";
"    ('\u{65BB}', [0xCC, 0xC3]), ('\u{65BC}', [0xA9, 0xF3]), ('\u{65BD}', [0xAC, 0x49]), ";
"    ('\u{65BE}', [0x9C, 0xF3]), ('\u{65BF}', [0xCE, 0xEA]), ('\u{65C1}', [0xAE, 0xC7]), ";
"    ('\u{65C2}', [0xD1, 0xD2]), ('\u{65C3}', [0xD1, 0xD0]), ('\u{65C4}', [0xD1, 0xD1]), ";
"    ('\u{65C5}', [0xAE, 0xC8]), ('\u{65C6}', [0xD1, 0xCF]), ('\u{65CB}', [0xB1, 0xDB]), ";
"    ('\u{65CC}', [0xB1, 0xDC]), ('\u{65CD}', [0xD5, 0xA8]), ('\u{65CE}', [0xB1, 0xDD]), ";
"    ('\u{65CF}', [0xB1, 0xDA]), ('\u{65D0}', [0xD9, 0x7D]), ('\u{65D1}', [0xFC, 0xD0]), ";
"    ('\u{65D2}', [0xD9, 0x7E]), ('\u{65D3}', [0xDD, 0xBE]), ('\u{65D4}', [0x95, 0xBB]), ";
"    ('\u{65D6}', [0xBA, 0x59]), ('\u{65D7}', [0xBA, 0x58]), ('\u{65DA}', [0xEC, 0xF1]), ";
"    ('\u{65DB}', [0xEF, 0xD9]), ('\u{65DD}', [0xF2, 0x4A]), ('\u{65DE}', [0xF2, 0x49]), ";
"    ('\u{65DF}', [0xF4, 0x4F]), ('\u{65E0}', [0xC6, 0xD3]), ('\u{65E1}', [0xC9, 0x5E]), ";
"    ('\u{65E2}', [0xAC, 0x4A]), ('\u{65E3}', [0xFC, 0xD4]), ('\u{65E5}', [0xA4, 0xE9]), ";
"    ('\u{65E6}', [0xA5, 0xB9]), ('\u{65E8}', [0xA6, 0xAE]), ('\u{65E9}', [0xA6, 0xAD]), ";
"    ('\u{65EC}', [0xA6, 0xAF]), ('\u{65ED}', [0xA6, 0xB0]), ('\u{65EE}', [0xC9, 0xEE]), ";
"    ('\u{65EF}', [0xC9, 0xED]), ('\u{65F0}', [0xCA, 0xF8]), ('\u{65F1}', [0xA7, 0xF2]), ";
"    ('\u{65F2}', [0xCA, 0xFB]), ('\u{65F3}', [0xCA, 0xFA]), ('\u{65F4}', [0xCA, 0xF9]), ";
"    ('\u{65F5}', [0xCA, 0xFC]), ('\u{65FA}', [0xA9, 0xF4]), ('\u{65FB}', [0xCC, 0xC9]), ";
"    ('\u{65FC}', [0xCC, 0xC5]), ('\u{65FD}', [0xCC, 0xCE]), ('\u{65FF}', [0x8D, 0xAE]), ";
"    ('\u{6600}', [0xA9, 0xFB]), ('\u{6602}', [0xA9, 0xF9]), ('\u{6603}', [0xCC, 0xCA]), ";
"    ('\u{6604}', [0xCC, 0xC6]), ('\u{6605}', [0xCC, 0xCD]), ('\u{6606}', [0xA9, 0xF8]), ";
"    ('\u{6607}', [0xAA, 0x40]), ('\u{6608}', [0xCC, 0xC8]), ('\u{6609}', [0xCC, 0xC4]), ";
"    ('\u{660A}', [0xA9, 0xFE]), ('\u{660B}', [0xCC, 0xCB]), ('\u{660C}', [0xA9, 0xF7]), ";
"    ('\u{660D}', [0xCC, 0xCC]), ('\u{660E}', [0xA9, 0xFA]), ('\u{660F}', [0xA9, 0xFC]), ";
"    ('\u{6610}', [0xCC, 0xD0]), ('\u{6611}', [0xCC, 0xCF]), ('\u{6612}', [0xCC, 0xC7]), ";
"    ('\u{6613}', [0xA9, 0xF6]), ('\u{6614}', [0xA9, 0xF5]), ('\u{6615}', [0xA9, 0xFD]), ";
"    ('\u{6618}', [0xFC, 0xD7]), ('\u{661C}', [0xCE, 0xEF]), ('\u{661D}', [0xCE, 0xF5]), ";
"    ('\u{661E}', [0x93, 0xDB]), ('\u{661F}', [0xAC, 0x50]), ('\u{6620}', [0xAC, 0x4D]), ";
"    ('\u{6621}', [0xCE, 0xEC]), ('\u{6622}', [0xCE, 0xF1]), ('\u{6623}', [0xFE, 0x63]), ";
"    ('\u{6624}', [0xAC, 0x53]), ('\u{6625}', [0xAC, 0x4B]), ('\u{6626}', [0xCE, 0xF0]), ";
"    ('\u{6627}', [0xAC, 0x4E]), ('\u{6628}', [0xAC, 0x51]), ('\u{662B}', [0xCE, 0xF3]), ";
"    ('\u{662D}', [0xAC, 0x4C]), ('\u{662E}', [0xCE, 0xF8]), ('\u{662F}', [0xAC, 0x4F]), ";
"    ('\u{6630}', [0x93, 0xD5]), ('\u{6631}', [0xAC, 0x52]), ('\u{6632}', [0xCE, 0xED]), ";
"    ('\u{6633}', [0xCE, 0xF2]), ('\u{6634}', [0xCE, 0xF6]), ('\u{6635}', [0xCE, 0xEE]), ";
"    ('\u{6636}', [0xCE, 0xEB]), ('\u{6639}', [0xCE, 0xF7]), ('\u{663A}', [0xCE, 0xF4]), ";
"    ('\u{6641}', [0xAE, 0xD0]), ('\u{6642}', [0xAE, 0xC9]), ('\u{6643}', [0xAE, 0xCC]), ";
"    ('\u{6644}', [0xFC, 0xDA]), ('\u{6645}', [0xAE, 0xCF]), ('\u{6647}', [0xD1, 0xD5]), ";
"    ('\u{6648}', [0x9B, 0x71]), ('\u{6649}', [0xAE, 0xCA]), ('\u{664A}', [0xD1, 0xD3]), ";
"    ('\u{664B}', [0xFC, 0xDD]), ('\u{664C}', [0xAE, 0xCE]), ('\u{664D}', [0x87, 0x64]), ";
"    ('\u{664F}', [0xAE, 0xCB]), ('\u{6651}', [0xD1, 0xD6]), ('\u{6652}', [0xAE, 0xCD]), ";
"    ('\u{6653}', [0x8D, 0xAF]), ('\u{6657}', [0xFA, 0xF2]), ('\u{6659}', [0xD5, 0xAC]), ";
"    ('\u{665A}', [0xB1, 0xDF]), ('\u{665B}', [0xD5, 0xAB]), ('\u{665C}', [0xD5, 0xAD]), ";
"    ('\u{665D}', [0xB1, 0xDE]), ('\u{665E}', [0xB1, 0xE3]), ('\u{665F}', [0xD1, 0xD4]), ";
"    ('\u{6660}', [0x87, 0xB5]), ('\u{6661}', [0xD5, 0xAA]), ('\u{6662}', [0xD5, 0xAE]), ";
"    ('\u{6663}', [0x93, 0xD8]), ('\u{6664}', [0xB1, 0xE0]), ('\u{6665}', [0xD5, 0xA9]), ";
"    ('\u{6666}', [0xB1, 0xE2]), ('\u{6667}', [0xFC, 0xDF]), ('\u{6668}', [0xB1, 0xE1]), ";
"    ('\u{666A}', [0xD9, 0xA7]), ('\u{666B}', [0x93, 0xD3]), ('\u{666C}', [0xD9, 0xA2]), ";
"    ('\u{666E}', [0xB4, 0xB6]), ('\u{666F}', [0xB4, 0xBA]), ('\u{6670}', [0xB4, 0xB7]), ";
"    ('\u{6671}', [0xD9, 0xA5]), ('\u{6672}', [0xD9, 0xA8]), ('\u{6673}', [0xFC, 0xE1]), ";
"    ('\u{6674}', [0xB4, 0xB8]), ('\u{6676}', [0xB4, 0xB9]), ('\u{6677}', [0xB4, 0xBE]), ";
"    ('\u{6678}', [0xDD, 0xC7]), ('\u{6679}', [0xD9, 0xA6]), ('\u{667A}', [0xB4, 0xBC]), ";
"    ('\u{667B}', [0xD9, 0xA3]), ('\u{667C}', [0xD9, 0xA1]), ('\u{667D}', [0x8E, 0x76]), ";
"    ('\u{667E}', [0xB4, 0xBD]), ('\u{6680}', [0xD9, 0xA4]), ('\u{6684}', [0xB7, 0x79]), ";
"    ('\u{6685}', [0xFC, 0x62]), ('\u{6686}', [0xDD, 0xBF]), ('\u{6687}', [0xB7, 0x76]), ";
"    ('\u{6688}', [0xB7, 0x77]), ('\u{6689}', [0xB7, 0x75]), ('\u{668A}', [0xDD, 0xC4]), ";
"    ('\u{668B}', [0xDD, 0xC3]), ('\u{668C}', [0xDD, 0xC0]), ('\u{668D}', [0xB7, 0x7B]), ";
"    ('\u{668E}', [0x93, 0xD1]), ('\u{6690}', [0xDD, 0xC2]), ('\u{6691}', [0xB4, 0xBB]), ";
"    ('\u{6692}', [0x8D, 0xB1]), ('\u{6694}', [0xDD, 0xC6]), ('\u{6695}', [0xDD, 0xC1]), ";
"    ('\u{6696}', [0xB7, 0x78]), ('\u{6697}', [0xB7, 0x74]), ('\u{6698}', [0xB7, 0x7A]), ";
"    ('\u{6699}', [0xDD, 0xC5]), ('\u{669A}', [0x98, 0x59]), ('\u{669D}', [0xBA, 0x5C]), ";
"    ('\u{669F}', [0xE1, 0xF8]), ('\u{66A0}', [0xE1, 0xF7]), ('\u{66A1}', [0xE1, 0xF6]), ";
"    ('\u{66A2}', [0xBA, 0x5A]), ('\u{66A4}', [0xFB, 0x52]), ('\u{66A8}', [0xBA, 0x5B]), ";
"    ('\u{66A9}', [0xE5, 0xC5]), ('\u{66AA}', [0xE5, 0xC8]), ('\u{66AB}', [0xBC, 0xC8]), ";
"    ('\u{66AD}', [0xFB, 0x53]), ('\u{66AE}', [0xBC, 0xC7]), ('\u{66AF}', [0xE5, 0xC9]), ";
"    ('\u{66B0}', [0xE5, 0xC4]), ('\u{66B1}', [0xBC, 0xCA]), ('\u{66B2}', [0xE5, 0xC6]), ";
"    ('\u{66B3}', [0xFB, 0x4D]), ('\u{66B4}', [0xBC, 0xC9]), ('\u{66B5}', [0xE5, 0xC3]), ";
"    ('\u{66B6}', [0x9C, 0xBF]), ('\u{66B7}', [0xE5, 0xC7]), ('\u{66B8}', [0xBE, 0xE9]), ";
"    ('\u{66B9}', [0xBE, 0xE6]), ('\u{66BA}', [0xE9, 0xBB]), ('\u{66BB}', [0xE9, 0xBA]), ";
"    ('\u{66BD}', [0xE9, 0xB9]), ('\u{66BE}', [0xE9, 0xB4]), ('\u{66BF}', [0x9B, 0x72]), ";
"    ('\u{66C0}', [0xE9, 0xB5]), ('\u{66C4}', [0xBE, 0xE7]), ('\u{66C6}', [0xBE, 0xE4]), ";
"    ('\u{66C7}', [0xBE, 0xE8]), ('\u{66C8}', [0xE9, 0xB3]), ('\u{66C9}', [0xBE, 0xE5]), ";
"    ('\u{66CA}', [0xE9, 0xB6]), ('\u{66CB}', [0xE9, 0xB7]), ('\u{66CC}', [0xE9, 0xBC]), ";
"    ('\u{66CD}', [0xFB, 0x50]), ('\u{66CE}', [0x93, 0xBE]), ('\u{66CF}', [0xE9, 0xB8]), ";
"    ('\u{66D2}', [0xEC, 0xF2]), ('\u{66D6}', [0xC0, 0xC7]), ('\u{66D8}', [0xEF, 0xDC]), ";
"    ('\u{66D9}', [0xC0, 0xC6]), ('\u{66DA}', [0xEF, 0xDA]), ('\u{66DB}', [0xEF, 0xDB]), ";
"    ('\u{66DC}', [0xC2, 0x60]), ('\u{66DD}', [0xC3, 0x6E]), ('\u{66DE}', [0xF2, 0x4B]), ";
"    ('\u{66E0}', [0xC3, 0x6D]), ('\u{66E3}', [0xF4, 0x51]), ('\u{66E4}', [0xF4, 0x52]), ";
"    ('\u{66E6}', [0xC4, 0x66]), ('\u{66E7}', [0x8C, 0xDB]), ('\u{66E8}', [0xF4, 0x50]), ";
"    ('\u{66E9}', [0xC4, 0xE4]), ('\u{66EB}', [0xF7, 0xDF]), ('\u{66EC}', [0xC5, 0xCE]), ";
"    ('\u{66ED}', [0xF8, 0xAA]), ('\u{66EE}', [0xF8, 0xAB]), ('\u{66F0}', [0xA4, 0xEA]), ";
"    ('\u{66F1}', [0x9D, 0xF1]), ('\u{66F2}', [0xA6, 0xB1]), ('\u{66F3}', [0xA6, 0xB2]), ";
"    ('\u{66F4}', [0xA7, 0xF3]), ('\u{66F6}', [0xCC, 0xD1]), ('\u{66F7}', [0xAC, 0x54]), ";
"    ('\u{66F8}', [0xAE, 0xD1]), ('\u{66F9}', [0xB1, 0xE4]), ('\u{66FC}', [0xB0, 0xD2]), ";
"    ('\u{66FE}', [0xB4, 0xBF]), ('\u{66FF}', [0xB4, 0xC0]), ('\u{6700}', [0xB3, 0xCC]), ";
"    ('\u{6701}', [0xD9, 0xA9]), ('\u{6702}', [0xFC, 0xEB]), ('\u{6703}', [0xB7, 0x7C]), ";
"    ('\u{6704}', [0xE1, 0xFA]), ('\u{6705}', [0xE1, 0xF9]), ('\u{6708}', [0xA4, 0xEB]), ";
"    ('\u{6709}', [0xA6, 0xB3]), ('\u{670A}', [0xCC, 0xD2]), ('\u{670B}', [0xAA, 0x42]), ";
"    ('\u{670C}', [0xA0, 0xBB]), ('\u{670D}', [0xAA, 0x41]), ('\u{670E}', [0x9B, 0x7E]), ";
"    ('\u{670F}', [0xCE, 0xF9]), ('\u{6710}', [0xCE, 0xFA]), ('\u{6712}', [0xD1, 0xD7]), ";
"    ('\u{6713}', [0xD1, 0xD8]), ('\u{6714}', [0xAE, 0xD2]), ('\u{6715}', [0xAE, 0xD3]), ";
"    ('\u{6716}', [0x8D, 0xB3]), ('\u{6717}', [0xAE, 0xD4]), ('\u{6718}', [0xD5, 0xAF]), ";
"    ('\u{6719}', [0x8C, 0x52]), ('\u{671B}', [0xB1, 0xE6]), ('\u{671D}', [0xB4, 0xC2]), ";
"    ('\u{671E}', [0x9A, 0xE8]), ('\u{671F}', [0xB4, 0xC1]), ('\u{6720}', [0xDD, 0xC8]), ";
"    ('\u{6721}', [0xDF, 0x7A]), ('\u{6722}', [0xE1, 0xFB]), ('\u{6723}', [0xE9, 0xBD]), ";
"    ('\u{6725}', [0x8E, 0xDC]), ('\u{6726}', [0xC2, 0x61]), ('\u{6727}', [0xC4, 0x67]), ";
"    ('\u{6728}', [0xA4, 0xEC]), ('\u{672A}', [0xA5, 0xBC]), ('\u{672B}', [0xA5, 0xBD]), ";
"    ('\u{672C}', [0xA5, 0xBB]), ('\u{672D}', [0xA5, 0xBE]), ('\u{672E}', [0xA5, 0xBA]), ";
"    ('\u{6731}', [0xA6, 0xB6]), ('\u{6733}', [0xC9, 0xF6]), ('\u{6734}', [0xA6, 0xB5]), ";
"    ('\u{6735}', [0xA6, 0xB7]), ('\u{6736}', [0x9C, 0xF9]), ('\u{6738}', [0xC9, 0xF1]), ";
"    ('\u{6739}', [0xC9, 0xF0]), ('\u{673A}', [0xC9, 0xF3]), ('\u{673B}', [0xC9, 0xF2]), ";
"    ('\u{673C}', [0xC9, 0xF5]), ('\u{673D}', [0xA6, 0xB4]), ('\u{673E}', [0xC9, 0xEF]), ";
"    ('\u{673F}', [0xC9, 0xF4]), ('\u{6744}', [0xFA, 0x50]), ('\u{6745}', [0xCA, 0xFD]), ";
"    ('\u{6746}', [0xA7, 0xFD]), ('\u{6747}', [0xCA, 0xFE]), ('\u{6748}', [0xCB, 0x43]), ";
"    ('\u{6749}', [0xA7, 0xFC]), ('\u{674B}', [0xCB, 0x47]), ('\u{674C}', [0xCB, 0x42]), ";
"    ('\u{674D}', [0xCB, 0x45]), ('\u{674E}', [0xA7, 0xF5]), ('\u{674F}', [0xA7, 0xF6]), ";
"    ('\u{6750}', [0xA7, 0xF7]), ('\u{6751}', [0xA7, 0xF8]), ('\u{6753}', [0xA8, 0x40]), ";
"    ('\u{6755}', [0xCB, 0x41]), ('\u{6756}', [0xA7, 0xFA]), ('\u{6757}', [0xA8, 0x41]), ";
"    ('\u{6759}', [0xCB, 0x40]), ('\u{675A}', [0xCB, 0x46]), ('\u{675C}', [0xA7, 0xF9]), ";
"    ('\u{675D}', [0xCB, 0x44]), ('\u{675E}', [0xA7, 0xFB]), ('\u{675F}', [0xA7, 0xF4]), ";
"    ('\u{6760}', [0xA7, 0xFE]), ('\u{6761}', [0x98, 0xE7]), ('\u{6762}', [0xFC, 0xF3]), ";
"    ('\u{6767}', [0xFC, 0xF2]), ('\u{676A}', [0xAA, 0x57]), ('\u{676B}', [0x8C, 0xCA]), ";
"    ('\u{676C}', [0xCC, 0xD4]), ('\u{676D}', [0xAA, 0x43]), ('\u{676E}', [0x87, 0x75]), ";
"    ('\u{676F}', [0xAA, 0x4D]), ('\u{6770}', [0xAA, 0x4E]), ('\u{6771}', [0xAA, 0x46]), ";
"    ('\u{6772}', [0xAA, 0x58]), ('\u{6773}', [0xAA, 0x48]), ('\u{6774}', [0xCC, 0xDC]), ";
"    ('\u{6775}', [0xAA, 0x53]), ('\u{6776}', [0xCC, 0xD7]), ('\u{6777}', [0xAA, 0x49]), ";
"    ('\u{6778}', [0xCC, 0xE6]), ('\u{6779}', [0xCC, 0xE7]), ('\u{677A}', [0xCC, 0xDF]), ";
"    ('\u{677B}', [0xCC, 0xD8]), ('\u{677C}', [0xAA, 0x56]), ('\u{677D}', [0xCC, 0xE4]), ";
"    ('\u{677E}', [0xAA, 0x51]), ('\u{677F}', [0xAA, 0x4F]), ('\u{6781}', [0xCC, 0xE5]), ";
"    ('\u{6782}', [0x87, 0xBA]), ('\u{6783}', [0xCC, 0xE3]), ('\u{6784}', [0xCC, 0xDB]), ";
"    ('\u{6785}', [0xCC, 0xD3]), ('\u{6786}', [0xCC, 0xDA]), ('\u{6787}', [0xAA, 0x4A]), ";
"    ('\u{6789}', [0xAA, 0x50]), ('\u{678B}', [0xAA, 0x44]), ('\u{678C}', [0xCC, 0xDE]), ";
"    ('\u{678D}', [0xCC, 0xDD]), ('\u{678E}', [0xCC, 0xD5]), ('\u{678F}', [0x93, 0xE5]), ";
"    ('\u{6790}', [0xAA, 0x52]), ('\u{6791}', [0xCC, 0xE1]), ('\u{6792}', [0xCC, 0xD6]), ";
"    ('\u{6793}', [0xAA, 0x55]), ('\u{6794}', [0xCC, 0xE8]), ('\u{6795}', [0xAA, 0x45]), ";
"    ('\u{6797}', [0xAA, 0x4C]), ('\u{6798}', [0xCC, 0xD9]), ('\u{6799}', [0xCC, 0xE2]), ";
"    ('\u{679A}', [0xAA, 0x54]), ('\u{679C}', [0xAA, 0x47]), ('\u{679D}', [0xAA, 0x4B]), ";
"    ('\u{679F}', [0xCC, 0xE0]), ('\u{67A0}', [0x9A, 0x59]), ('\u{67A4}', [0x8D, 0xB5]), ";
"    ('\u{67AC}', [0xFD, 0x4D]), ('\u{67AE}', [0xCF, 0x5B]), ('\u{67AF}', [0xAC, 0x5C]), ";
"    ('\u{67B0}', [0xAC, 0x69]), ('\u{67B1}', [0xFD, 0x5E]), ('\u{67B2}', [0xCF, 0x56]), ";
"    ('\u{67B3}', [0xCF, 0x4C]), ('\u{67B4}', [0xAC, 0x62]), ('\u{67B5}', [0xCF, 0x4A]), ";
"    ('\u{67B6}', [0xAC, 0x5B]), ('\u{67B7}', [0xCF, 0x45]), ('\u{67B8}', [0xAC, 0x65]), ";
"    ('\u{67B9}', [0xCF, 0x52]), ('\u{67BA}', [0xCE, 0xFE]), ('\u{67BB}', [0xCF, 0x41]), ";
"    ('\u{67BF}', [0x8F, 0x7D]), ('\u{67C0}', [0xCF, 0x44]), ('\u{67C1}', [0xCE, 0xFB]), ";
"    ('\u{67C2}', [0xCF, 0x51]), ('\u{67C3}', [0xCF, 0x61]), ('\u{67C4}', [0xAC, 0x60]), ";
"    ('\u{67C5}', [0xCF, 0x46]), ('\u{67C6}', [0xCF, 0x58]), ('\u{67C8}', [0xCE, 0xFD]), ";
"    ('\u{67C9}', [0xCF, 0x5F]), ('\u{67CA}', [0xCF, 0x60]), ('\u{67CB}', [0xCF, 0x63]), ";
"    ('\u{67CC}', [0xCF, 0x5A]), ('\u{67CD}', [0xCF, 0x4B]), ('\u{67CE}', [0xCF, 0x53]), ";
"    ('\u{67CF}', [0xAC, 0x66]), ('\u{67D0}', [0xAC, 0x59]), ('\u{67D1}', [0xAC, 0x61]), ";
"    ('\u{67D2}', [0xAC, 0x6D]), ('\u{67D3}', [0xAC, 0x56]), ('\u{67D4}', [0xAC, 0x58]), ";
"    ('\u{67D6}', [0x95, 0x47]), ('\u{67D7}', [0xFC, 0xF6]), ('\u{67D8}', [0xCF, 0x43]), ";
"    ('\u{67D9}', [0xAC, 0x6A]), ('\u{67DA}', [0xAC, 0x63]), ('\u{67DB}', [0xCF, 0x5D]), ";
"    ('\u{67DC}', [0xCF, 0x40]), ('\u{67DD}', [0xAC, 0x6C]), ('\u{67DE}', [0xAC, 0x67]), ";
"    ('\u{67DF}', [0xCF, 0x49]), ('\u{67E2}', [0xAC, 0x6B]), ('\u{67E3}', [0xCF, 0x50]), ";
"    ('\u{67E4}', [0xCF, 0x48]), ('\u{67E5}', [0xAC, 0x64]), ('\u{67E6}', [0xCF, 0x5C]), ";
"    ('\u{67E7}', [0xCF, 0x54]), ('\u{67E9}', [0xAC, 0x5E]), ('\u{67EA}', [0xCF, 0x62]), ";
"    ('\u{67EB}', [0xCF, 0x47]), ('\u{67EC}', [0xAC, 0x5A]), ('\u{67ED}', [0xCF, 0x59]), ";
"    ('\u{67EE}', [0xCF, 0x4F]), ('\u{67EF}', [0xAC, 0x5F]), ('\u{67F0}', [0xCF, 0x55]), ";
"    ('\u{67F1}', [0xAC, 0x57]), ('\u{67F2}', [0xCE, 0xFC]), ('\u{67F3}', [0xAC, 0x68]), ";
"    ('\u{67F4}', [0xAE, 0xE3]), ('\u{67F5}', [0xAC, 0x5D]), ('\u{67F6}', [0xCF, 0x4E]), ";
"    ('\u{67F7}', [0xCF, 0x4D]), ('\u{67F8}', [0xCF, 0x42]), ('\u{67F9}', [0x92, 0x50]), ";
"    ('\u{67FA}', [0xCF, 0x5E]), ('\u{67FC}', [0xCF, 0x57]), ('\u{67FE}', [0x89, 0x68]), ";
"    ('\u{67FF}', [0xAC, 0x55]), ('\u{6800}', [0x8D, 0xB6]), ('\u{6801}', [0xFC, 0xFB]), ";
"    ('\u{6802}', [0xA0, 0x7D]), ('\u{6803}', [0x98, 0xFC]), ('\u{6804}', [0x89, 0x69]), ";
"    ('\u{680D}', [0xFE, 0x4F]), ('\u{6810}', [0x92, 0x56]), ('\u{6812}', [0xD1, 0xEC]), ";
"    ('\u{6813}', [0xAE, 0xEA]), ('\u{6814}', [0xD1, 0xED]), ('\u{6816}', [0xD1, 0xE1]), ";
"    ('\u{6817}', [0xAE, 0xDF]), ('\u{6818}', [0xAE, 0xEB]), ('\u{681A}', [0xD1, 0xDA]), ";
"    ('\u{681B}', [0xFA, 0xC9]), ('\u{681C}', [0xD1, 0xE3]), ('\u{681D}', [0xD1, 0xEB]), ";
"    ('\u{681E}', [0x93, 0xE8]), ('\u{681F}', [0xD1, 0xD9]), ('\u{6820}', [0xD1, 0xF4]), ";
"    ('\u{6821}', [0xAE, 0xD5]), ('\u{6822}', [0xFC, 0xF8]), ('\u{6825}', [0xD1, 0xF3]), ";
"    ('\u{6826}', [0xD1, 0xEE]), ('\u{6828}', [0xD1, 0xEF]), ('\u{6829}', [0xAE, 0xDD]), ";
"    ('\u{682A}', [0xAE, 0xE8]), ('\u{682B}', [0xD1, 0xE5]), ('\u{682D}', [0xD1, 0xE6]), ";
"    ('\u{682E}', [0xD1, 0xF0]), ('\u{682F}', [0xD1, 0xE7]), ('\u{6831}', [0xD1, 0xE2]), ";
"    ('\u{6832}', [0xD1, 0xDC]), ('\u{6833}', [0xD1, 0xDD]), ('\u{6834}', [0xD1, 0xEA]), ";
"    ('\u{6835}', [0xD1, 0xE4]), ('\u{6836}', [0x9C, 0xE3]), ('\u{6837}', [0xFD, 0xA9]), ";
"    ('\u{6838}', [0xAE, 0xD6]), ('\u{6839}', [0xAE, 0xDA]), ('\u{683A}', [0xD1, 0xF2]), ";
"    ('\u{683B}', [0xD1, 0xDE]), ('\u{683C}', [0xAE, 0xE6]), ('\u{683D}', [0xAE, 0xE2]), ";
"    ('\u{683E}', [0xFC, 0x44]), ('\u{6840}', [0xAE, 0xE5]), ('\u{6841}', [0xAE, 0xEC]), ";
"    ('\u{6842}', [0xAE, 0xDB]), ('\u{6843}', [0xAE, 0xE7]), ('\u{6844}', [0xD1, 0xE9]), ";
"    ('\u{6845}', [0xAE, 0xE9]), ('\u{6846}', [0xAE, 0xD8]), ('\u{6847}', [0x96, 0x40]), ";
"    ('\u{6848}', [0xAE, 0xD7]), ('\u{6849}', [0xD1, 0xDB]), ('\u{684A}', [0x8D, 0xB8]), ";
"    ('\u{684B}', [0xD1, 0xDF]), ('\u{684C}', [0xAE, 0xE0]), ('\u{684D}', [0xD1, 0xF1]), ";
"    ('\u{684E}', [0xD1, 0xE8]), ('\u{684F}', [0xD1, 0xE0]), ('\u{6850}', [0xAE, 0xE4]), ";
"    ('\u{6851}', [0xAE, 0xE1]), ('\u{6853}', [0xAE, 0xD9]), ('\u{6854}', [0xAE, 0xDC]), ";
"    ('\u{6855}', [0x9B, 0x4A]), ('\u{6856}', [0x8F, 0xB9]), ('\u{685D}', [0xFC, 0xFE]), ";
"    ('\u{6865}', [0x89, 0x6A]), ('\u{686B}', [0xD5, 0xC4]), ('\u{686D}', [0xD5, 0xB4]), ";
"    ('\u{686E}', [0xD5, 0xB5]), ('\u{686F}', [0xD5, 0xB9]), ('\u{6871}', [0xD5, 0xC8]), ";
"    ('\u{6872}', [0xD5, 0xC5]), ('\u{6874}', [0xD5, 0xBE]), ('\u{6875}', [0xD5, 0xBD]), ";
"    ('\u{6876}', [0xB1, 0xED]), ('\u{6877}', [0xD5, 0xC1]), ('\u{6878}', [0xD5, 0xD0]), ";
"    ('\u{6879}', [0xD5, 0xB0]), ('\u{687B}', [0xD5, 0xD1]), ('\u{687C}', [0xD5, 0xC3]), ";
"    ('\u{687D}', [0xD5, 0xD5]), ('\u{687E}', [0xD5, 0xC9]), ('\u{687F}', [0xB1, 0xEC]), ";
"    ('\u{6880}', [0xD5, 0xC7]), ('\u{6881}', [0xB1, 0xE7]), ('\u{6882}', [0xB1, 0xFC]), ";
"    ('\u{6883}', [0xB1, 0xF2]), ('\u{6884}', [0x8D, 0xB9]), ('\u{6885}', [0xB1, 0xF6]), ";
"    ('\u{6886}', [0xB1, 0xF5]), ('\u{6887}', [0xD5, 0xB1]), ('\u{6888}', [0x91, 0x7E]), ";
"    ('\u{6889}', [0xD5, 0xCE]), ('\u{688A}', [0xD5, 0xD4]), ('\u{688B}', [0xD5, 0xCC]), ";
"    ('\u{688C}', [0xD5, 0xD3]), ('\u{688F}', [0xD5, 0xC0]), ('\u{6890}', [0xD5, 0xB2]), ";
"    ('\u{6891}', [0xD5, 0xD2]), ('\u{6892}', [0xD5, 0xC2]), ('\u{6893}', [0xB1, 0xEA]), ";
"    ('\u{6894}', [0xB1, 0xF7]), ('\u{6896}', [0xD5, 0xCB]), ('\u{6897}', [0xB1, 0xF0]), ";
"    ('\u{6898}', [0x93, 0xF4]), ('\u{689B}', [0xD5, 0xCA]), ('\u{689C}', [0xD5, 0xB3]), ";
"    ('\u{689D}', [0xB1, 0xF8]), ('\u{689F}', [0xB1, 0xFA]), ('\u{68A0}', [0xD5, 0xCD]), ";
"    ('\u{68A1}', [0xB1, 0xFB]), ('\u{68A2}', [0xB1, 0xE9]), ('\u{68A3}', [0xD5, 0xBA]), ";
"    ('\u{68A4}', [0xD5, 0xCF]), ('\u{68A6}', [0xFB, 0x7C]), ('\u{68A7}', [0xB1, 0xEF]), ";
"    ('\u{68A8}', [0xB1, 0xF9]), ('\u{68A9}', [0xD5, 0xBC]), ('\u{68AA}', [0xD5, 0xC6]), ";
"    ('\u{68AB}', [0xD5, 0xB7]), ('\u{68AC}', [0xD5, 0xBB]), ('\u{68AD}', [0xB1, 0xF4]), ";
"    ('\u{68AE}', [0xD5, 0xB6]), ('\u{68AF}', [0xB1, 0xE8]), ('\u{68B0}', [0xB1, 0xF1]), ";
"    ('\u{68B1}', [0xB1, 0xEE]), ('\u{68B2}', [0xD5, 0xBF]), ('\u{68B3}', [0xAE, 0xDE]), ";
"    ('\u{68B4}', [0xD9, 0xC0]), ('\u{68B5}', [0xB1, 0xEB]), ('\u{68B6}', [0x93, 0xE7]), ";
"    ('\u{68B9}', [0x97, 0xEF]), ('\u{68BD}', [0xFE, 0x4A]), ('\u{68C3}', [0xFD, 0x45]), ";
"    ('\u{68C4}', [0xB1, 0xF3]), ('\u{68C5}', [0x96, 0xA5]), ('\u{68C6}', [0xD9, 0xC3]), ";
"    ('\u{68C7}', [0xD9, 0xD9]), ('\u{68C8}', [0xD9, 0xCE]), ('\u{68C9}', [0xB4, 0xD6]), ";
"    ('\u{68CA}', [0xFE, 0xE0]), ('\u{68CB}', [0xB4, 0xD1]), ('\u{68CC}', [0xD9, 0xBD]), ";
"    ('\u{68CD}', [0xB4, 0xD2]), ('\u{68CE}', [0xD9, 0xCD]), ('\u{68D0}', [0xD9, 0xC6]), ";
"    ('\u{68D1}', [0xD9, 0xD3]), ('\u{68D2}', [0xB4, 0xCE]), ('\u{68D3}', [0xD9, 0xAB]), "
].
(* /repo/src/generated/whatwg/big5_whatwg_tables.rs.inc:4609-4864 *)
Definition big5_inc_18 : list line := [
"    ('\u{68D4}', [0xD9, 0xD5]), ('\u{68D5}', [0xB4, 0xC4]), ('\u{68D6}', [0xD9, 0xB3]), ";
"    ('\u{68D7}', [0xB4, 0xC7]), ('\u{68D8}', [0xB4, 0xC6]), ('\u{68DA}', [0xB4, 0xD7]), ";
"    ('\u{68DC}', [0xD9, 0xAD]), ('\u{68DD}', [0xD9, 0xCF]), ('\u{68DE}', [0xD9, 0xD0]), ";
"    ('\u{68DF}', [0xB4, 0xC9]), ('\u{68E0}', [0xB4, 0xC5]), ('\u{68E1}', [0xD9, 0xBB]), ";
"    ('\u{68E3}', [0xB4, 0xD0]), ('\u{68E4}', [0xD9, 0xB6]), ('\u{68E6}', [0xD9, 0xD1]), ";
"    ('\u{68E7}', [0xB4, 0xCC]), ('\u{68E8}', [0xD9, 0xC9]), ('\u{68E9}', [0xD9, 0xD6]), ";
"    ('\u{68EA}', [0xD9, 0xB0]), ('\u{68EB}', [0xD9, 0xB5]), ('\u{68EC}', [0xD9, 0xAF]), ";
"    ('\u{68EE}', [0xB4, 0xCB]), ('\u{68EF}', [0xD9, 0xC2]), ('\u{68F0}', [0xDD, 0xDE]), ";
"    ('\u{68F1}', [0xD9, 0xB1]), ('\u{68F2}', [0xB4, 0xCF]), ('\u{68F3}', [0xD9, 0xBA]), ";
"    ('\u{68F4}', [0xD9, 0xD2]), ('\u{68F5}', [0xB4, 0xCA]), ('\u{68F6}', [0xD9, 0xB7]), ";
"    ('\u{68F7}', [0xD9, 0xB4]), ('\u{68F8}', [0xD9, 0xC5]), ('\u{68F9}', [0xB4, 0xCD]), ";
"    ('\u{68FA}', [0xB4, 0xC3]), ('\u{68FB}', [0xB4, 0xD9]), ('\u{68FC}', [0xD9, 0xC8]), ";
"    ('\u{68FD}', [0xD9, 0xC7]), ('\u{6900}', [0xFD, 0x48]), ('\u{6901}', [0xFD, 0x47]), ";
"    ('\u{6902}', [0xFE, 0xF2]), ('\u{6903}', [0xFE, 0x6A]), ('\u{6904}', [0xD9, 0xAC]), ";
"    ('\u{6905}', [0xB4, 0xC8]), ('\u{6906}', [0xD9, 0xD4]), ('\u{6907}', [0xD9, 0xBC]), ";
"    ('\u{6908}', [0xD9, 0xBE]), ('\u{6909}', [0x8D, 0xBD]), ('\u{690A}', [0xD9, 0xCB]), ";
"    ('\u{690B}', [0xD9, 0xCA]), ('\u{690C}', [0xD9, 0xAA]), ('\u{690D}', [0xB4, 0xD3]), ";
"    ('\u{690E}', [0xB4, 0xD5]), ('\u{690F}', [0xD9, 0xB2]), ('\u{6910}', [0xD9, 0xB9]), ";
"    ('\u{6911}', [0xD9, 0xC1]), ('\u{6912}', [0xB4, 0xD4]), ('\u{6913}', [0xD9, 0xB8]), ";
"    ('\u{6914}', [0xD9, 0xC4]), ('\u{6915}', [0xD9, 0xD7]), ('\u{6917}', [0xD9, 0xCC]), ";
"    ('\u{6918}', [0x9B, 0xA1]), ('\u{6919}', [0x8C, 0xA2]), ('\u{691A}', [0x9A, 0xB7]), ";
"    ('\u{691B}', [0x8E, 0xFC]), ('\u{6925}', [0xD9, 0xD8]), ('\u{692A}', [0xD9, 0xAE]), ";
"    ('\u{692C}', [0x9F, 0xA1]), ('\u{692F}', [0xDD, 0xF2]), ('\u{6930}', [0xB7, 0xA6]), ";
"    ('\u{6932}', [0xDD, 0xF0]), ('\u{6933}', [0xDD, 0xDB]), ('\u{6934}', [0xDD, 0xE0]), ";
"    ('\u{6935}', [0xDD, 0xD9]), ('\u{6936}', [0xFD, 0x51]), ('\u{6937}', [0xDD, 0xEC]), ";
"    ('\u{6938}', [0xDD, 0xCB]), ('\u{6939}', [0xDD, 0xD2]), ('\u{693B}', [0xDD, 0xEA]), ";
"    ('\u{693C}', [0xDD, 0xF4]), ('\u{693D}', [0xDD, 0xDC]), ('\u{693E}', [0xFA, 0xAD]), ";
"    ('\u{693F}', [0xDD, 0xCF]), ('\u{6940}', [0xDD, 0xE2]), ('\u{6941}', [0xDD, 0xE7]), ";
"    ('\u{6942}', [0xDD, 0xD3]), ('\u{6943}', [0x8D, 0xBE]), ('\u{6944}', [0xDD, 0xE4]), ";
"    ('\u{6945}', [0xDD, 0xD0]), ('\u{6946}', [0x89, 0xA4]), ('\u{6948}', [0xDD, 0xD7]), ";
"    ('\u{6949}', [0xDD, 0xD8]), ('\u{694A}', [0xB7, 0xA8]), ('\u{694B}', [0xDD, 0xEB]), ";
"    ('\u{694C}', [0xDD, 0xE9]), ('\u{694E}', [0xDD, 0xCC]), ('\u{694F}', [0xDD, 0xEE]), ";
"    ('\u{6951}', [0xDD, 0xEF]), ('\u{6952}', [0xDD, 0xF1]), ('\u{6953}', [0xB7, 0xAC]), ";
"    ('\u{6954}', [0xB7, 0xA4]), ('\u{6955}', [0x9A, 0xD9]), ('\u{6956}', [0xD5, 0xB8]), ";
"    ('\u{6957}', [0xDD, 0xD4]), ('\u{6958}', [0xDD, 0xE6]), ('\u{6959}', [0xDD, 0xD5]), ";
"    ('\u{695A}', [0xB7, 0xA1]), ('\u{695B}', [0xB7, 0xB1]), ('\u{695C}', [0xDD, 0xED]), ";
"    ('\u{695D}', [0xB7, 0xAF]), ('\u{695E}', [0xB7, 0xAB]), ('\u{695F}', [0xDD, 0xCA]), ";
"    ('\u{6960}', [0xB7, 0xA3]), ('\u{6961}', [0xFD, 0x4E]), ('\u{6962}', [0xDD, 0xCD]), ";
"    ('\u{6963}', [0xB7, 0xB0]), ('\u{6964}', [0x8D, 0xC0]), ('\u{6965}', [0xDD, 0xDD]), ";
"    ('\u{6966}', [0xDD, 0xC9]), ('\u{6967}', [0x97, 0xF0]), ('\u{6968}', [0xB7, 0xA9]), ";
"    ('\u{6969}', [0xDD, 0xE1]), ('\u{696A}', [0xDD, 0xD1]), ('\u{696B}', [0xB7, 0xAA]), ";
"    ('\u{696C}', [0xDD, 0xDA]), ('\u{696D}', [0xB7, 0x7E]), ('\u{696E}', [0xB4, 0xD8]), ";
"    ('\u{696F}', [0xDD, 0xE3]), ('\u{6970}', [0xD9, 0xBF]), ('\u{6971}', [0xDD, 0xCE]), ";
"    ('\u{6972}', [0x93, 0xB4]), ('\u{6973}', [0xFD, 0x44]), ('\u{6974}', [0xDD, 0xE8]), ";
"    ('\u{6975}', [0xB7, 0xA5]), ('\u{6976}', [0xDD, 0xE5]), ('\u{6977}', [0xB7, 0xA2]), ";
"    ('\u{6978}', [0xDD, 0xDF]), ('\u{6979}', [0xB7, 0xAD]), ('\u{697A}', [0xDD, 0xD6]), ";
"    ('\u{697B}', [0xDD, 0xF3]), ('\u{6980}', [0x9F, 0xA7]), ('\u{6982}', [0xB7, 0xA7]), ";
"    ('\u{6983}', [0xDE, 0xC6]), ('\u{6985}', [0x8D, 0xC2]), ('\u{6986}', [0xB7, 0xAE]), ";
"    ('\u{698A}', [0x99, 0xB6]), ('\u{698D}', [0xE2, 0x4A]), ('\u{698E}', [0xE2, 0x48]), ";
"    ('\u{6990}', [0xE2, 0x5E]), ('\u{6991}', [0xE2, 0x46]), ('\u{6993}', [0xE2, 0x58]), ";
"    ('\u{6994}', [0xB7, 0x7D]), ('\u{6995}', [0xBA, 0x5F]), ('\u{6996}', [0xE2, 0x42]), ";
"    ('\u{6997}', [0xE2, 0x5D]), ('\u{6998}', [0xFD, 0x52]), ('\u{6999}', [0xE2, 0x47]), ";
"    ('\u{699A}', [0xE2, 0x55]), ('\u{699B}', [0xBA, 0x64]), ('\u{699C}', [0xBA, 0x5D]), ";
"    ('\u{699E}', [0xE2, 0x5B]), ('\u{699F}', [0x8D, 0xC1]), ('\u{69A0}', [0xE2, 0x40]), ";
"    ('\u{69A1}', [0xE2, 0x5A]), ('\u{69A2}', [0x8E, 0x46]), ('\u{69A3}', [0xBA, 0x6F]), ";
"    ('\u{69A4}', [0xE2, 0x51]), ('\u{69A5}', [0xE2, 0x61]), ('\u{69A6}', [0xBA, 0x6D]), ";
"    ('\u{69A7}', [0xE2, 0x49]), ('\u{69A8}', [0xBA, 0x5E]), ('\u{69A9}', [0xE2, 0x4B]), ";
"    ('\u{69AA}', [0xE2, 0x59]), ('\u{69AB}', [0xBA, 0x67]), ('\u{69AC}', [0xE2, 0x44]), ";
"    ('\u{69AD}', [0xBA, 0x6B]), ('\u{69AE}', [0xBA, 0x61]), ('\u{69AF}', [0xE2, 0x4D]), ";
"    ('\u{69B0}', [0xE2, 0x43]), ('\u{69B1}', [0xE1, 0xFC]), ('\u{69B2}', [0xA0, 0xD1]), ";
"    ('\u{69B3}', [0xE2, 0x57]), ('\u{69B4}', [0xBA, 0x68]), ('\u{69B5}', [0xE2, 0x60]), ";
"    ('\u{69B6}', [0xE1, 0xFD]), ('\u{69B7}', [0xBA, 0x65]), ('\u{69B9}', [0xE2, 0x53]), ";
"    ('\u{69BB}', [0xBA, 0x66]), ('\u{69BC}', [0xE2, 0x45]), ('\u{69BD}', [0xE2, 0x50]), ";
"    ('\u{69BE}', [0xE2, 0x4C]), ('\u{69BF}', [0xE2, 0x4E]), ('\u{69C0}', [0x9F, 0xCA]), ";
"    ('\u{69C1}', [0xBA, 0x60]), ('\u{69C2}', [0xE2, 0x5F]), ('\u{69C3}', [0xBA, 0x6E]), ";
"    ('\u{69C4}', [0xE2, 0x4F]), ('\u{69C6}', [0xE2, 0x62]), ('\u{69C9}', [0xE1, 0xFE]), ";
"    ('\u{69CA}', [0xE2, 0x54]), ('\u{69CB}', [0xBA, 0x63]), ('\u{69CC}', [0xBA, 0x6C]), ";
"    ('\u{69CD}', [0xBA, 0x6A]), ('\u{69CE}', [0xE2, 0x41]), ('\u{69CF}', [0xE2, 0x56]), ";
"    ('\u{69D0}', [0xBA, 0x69]), ('\u{69D1}', [0x92, 0xCF]), ('\u{69D3}', [0xBA, 0x62]), ";
"    ('\u{69D4}', [0xE2, 0x52]), ('\u{69D5}', [0x9C, 0xF4]), ('\u{69D6}', [0x8D, 0xC4]), ";
"    ('\u{69D9}', [0xE2, 0x5C]), ('\u{69E1}', [0xFD, 0x41]), ('\u{69E2}', [0xE5, 0xD5]), ";
"    ('\u{69E4}', [0xE5, 0xD1]), ('\u{69E5}', [0xE5, 0xCD]), ('\u{69E6}', [0xE5, 0xE1]), ";
"    ('\u{69E7}', [0xE5, 0xDE]), ('\u{69E8}', [0xBC, 0xCD]), ('\u{69E9}', [0x9B, 0x4C]), ";
"    ('\u{69EB}', [0xE5, 0xE5]), ('\u{69EC}', [0xE5, 0xD4]), ('\u{69ED}', [0xBC, 0xD8]), ";
"    ('\u{69EE}', [0xE5, 0xDB]), ('\u{69F1}', [0xE5, 0xD0]), ('\u{69F2}', [0xE5, 0xDA]), ";
"    ('\u{69F3}', [0xBC, 0xD5]), ('\u{69F4}', [0xE5, 0xEE]), ('\u{69F6}', [0xE5, 0xEB]), ";
"    ('\u{69F7}', [0xE5, 0xDD]), ('\u{69F8}', [0xE5, 0xCE]), ('\u{69F9}', [0xFD, 0x57]), ";
"    ('\u{69FA}', [0xFC, 0xEF]), ('\u{69FB}', [0xE5, 0xE2]), ('\u{69FC}', [0xE5, 0xE4]), ";
"    ('\u{69FD}', [0xBC, 0xD1]), ('\u{69FE}', [0xE5, 0xD8]), ('\u{69FF}', [0xE5, 0xD3]), ";
"    ('\u{6A00}', [0xE5, 0xCA]), ('\u{6A01}', [0xBC, 0xCE]), ('\u{6A02}', [0xBC, 0xD6]), ";
"    ('\u{6A03}', [0x9C, 0xDE]), ('\u{6A04}', [0xE5, 0xE7]), ('\u{6A05}', [0xBC, 0xD7]), ";
"    ('\u{6A06}', [0xE5, 0xCB]), ('\u{6A07}', [0xE5, 0xED]), ('\u{6A08}', [0xE5, 0xE0]), ";
"    ('\u{6A09}', [0xE5, 0xE6]), ('\u{6A0A}', [0xBC, 0xD4]), ('\u{6A0B}', [0xFD, 0x42]), ";
"    ('\u{6A0C}', [0x98, 0x6C]), ('\u{6A0D}', [0xE5, 0xE3]), ('\u{6A0F}', [0xE5, 0xEA]), ";
"    ('\u{6A11}', [0xBC, 0xD9]), ('\u{6A13}', [0xBC, 0xD3]), ('\u{6A14}', [0xE5, 0xDC]), ";
"    ('\u{6A15}', [0xE5, 0xCF]), ('\u{6A16}', [0xE5, 0xEF]), ('\u{6A17}', [0xE5, 0xCC]), ";
"    ('\u{6A18}', [0xE5, 0xE8]), ('\u{6A19}', [0xBC, 0xD0]), ('\u{6A1A}', [0x97, 0xF9]), ";
"    ('\u{6A1B}', [0xE5, 0xD6]), ('\u{6A1C}', [0x95, 0x58]), ('\u{6A1D}', [0xE5, 0xD7]), ";
"    ('\u{6A1E}', [0xBC, 0xCF]), ('\u{6A1F}', [0xBC, 0xCC]), ('\u{6A20}', [0xE5, 0xD2]), ";
"    ('\u{6A21}', [0xBC, 0xD2]), ('\u{6A23}', [0xBC, 0xCB]), ('\u{6A25}', [0xE5, 0xE9]), ";
"    ('\u{6A26}', [0xE5, 0xEC]), ('\u{6A27}', [0xE5, 0xD9]), ('\u{6A28}', [0xE9, 0xCA]), ";
"    ('\u{6A29}', [0x87, 0xB6]), ('\u{6A2B}', [0x98, 0x5E]), ('\u{6A2C}', [0xFE, 0x7B]), ";
"    ('\u{6A2D}', [0x94, 0xCD]), ('\u{6A32}', [0xE9, 0xC2]), ('\u{6A33}', [0x93, 0xEE]), ";
"    ('\u{6A34}', [0xE9, 0xBE]), ('\u{6A35}', [0xBE, 0xF6]), ('\u{6A38}', [0xBE, 0xEB]), ";
"    ('\u{6A39}', [0xBE, 0xF0]), ('\u{6A3A}', [0xBE, 0xEC]), ('\u{6A3B}', [0xE9, 0xCC]), ";
"    ('\u{6A3C}', [0xE9, 0xD7]), ('\u{6A3D}', [0xBE, 0xEA]), ('\u{6A3E}', [0xE9, 0xC4]), ";
"    ('\u{6A3F}', [0xE9, 0xCD]), ('\u{6A40}', [0xE5, 0xDF]), ('\u{6A41}', [0xE9, 0xCE]), ";
"    ('\u{6A43}', [0x8C, 0xA3]), ('\u{6A44}', [0xBE, 0xF1]), ('\u{6A45}', [0xFD, 0x5A]), ";
"    ('\u{6A46}', [0xE9, 0xDD]), ('\u{6A47}', [0xBE, 0xF5]), ('\u{6A48}', [0xBE, 0xF8]), ";
"    ('\u{6A49}', [0xE9, 0xC0]), ('\u{6A4B}', [0xBE, 0xF4]), ('\u{6A4C}', [0x93, 0xF5]), ";
"    ('\u{6A4D}', [0xE9, 0xDB]), ('\u{6A4E}', [0xE9, 0xDC]), ('\u{6A4F}', [0xE9, 0xD2]), ";
"    ('\u{6A50}', [0xE9, 0xD1]), ('\u{6A51}', [0xE9, 0xC9]), ('\u{6A52}', [0x93, 0xEF]), ";
"    ('\u{6A53}', [0x8E, 0xEA]), ('\u{6A54}', [0xE9, 0xD3]), ('\u{6A55}', [0xE9, 0xDA]), ";
"    ('\u{6A56}', [0xE9, 0xD9]), ('\u{6A57}', [0x8F, 0x5B]), ('\u{6A58}', [0xBE, 0xEF]), ";
"    ('\u{6A59}', [0xBE, 0xED]), ('\u{6A5A}', [0xE9, 0xCB]), ('\u{6A5B}', [0xE9, 0xC8]), ";
"    ('\u{6A5D}', [0xE9, 0xC5]), ('\u{6A5E}', [0xE9, 0xD8]), ('\u{6A5F}', [0xBE, 0xF7]), ";
"    ('\u{6A60}', [0xE9, 0xD6]), ('\u{6A61}', [0xBE, 0xF3]), ('\u{6A62}', [0xBE, 0xF2]), ";
"    ('\u{6A63}', [0x8C, 0x5E]), ('\u{6A64}', [0xE9, 0xD0]), ('\u{6A65}', [0x8D, 0xC6]), ";
"    ('\u{6A66}', [0xE9, 0xBF]), ('\u{6A67}', [0xE9, 0xC1]), ('\u{6A68}', [0xE9, 0xC3]), ";
"    ('\u{6A69}', [0xE9, 0xD5]), ('\u{6A6A}', [0xE9, 0xCF]), ('\u{6A6B}', [0xBE, 0xEE]), ";
"    ('\u{6A6D}', [0xE9, 0xC6]), ('\u{6A6F}', [0xE9, 0xD4]), ('\u{6A71}', [0x8D, 0xC8]), ";
"    ('\u{6A74}', [0x8D, 0xC7]), ('\u{6A76}', [0xE9, 0xC7]), ('\u{6A7A}', [0x93, 0xF7]), ";
"    ('\u{6A7E}', [0xC0, 0xCF]), ('\u{6A7F}', [0xED, 0x45]), ('\u{6A80}', [0xC0, 0xC8]), ";
"    ('\u{6A81}', [0xEC, 0xF5]), ('\u{6A82}', [0x8D, 0xC9]), ('\u{6A83}', [0xED, 0x41]), ";
"    ('\u{6A84}', [0xC0, 0xCA]), ('\u{6A85}', [0xED, 0x48]), ('\u{6A87}', [0xEC, 0xFC]), ";
"    ('\u{6A89}', [0xEC, 0xF7]), ('\u{6A8A}', [0xFB, 0xF2]), ('\u{6A8C}', [0xED, 0x49]), ";
"    ('\u{6A8D}', [0xEC, 0xF3]), ('\u{6A8E}', [0xEC, 0xFE]), ('\u{6A8F}', [0x96, 0x70]), ";
"    ('\u{6A90}', [0xC0, 0xD1]), ('\u{6A91}', [0xED, 0x44]), ('\u{6A92}', [0xED, 0x4A]), ";
"    ('\u{6A93}', [0xEC, 0xFD]), ('\u{6A94}', [0xC0, 0xC9]), ('\u{6A95}', [0xED, 0x40]), ";
"    ('\u{6A96}', [0xEC, 0xF4]), ('\u{6A97}', [0xC0, 0xD0]), ('\u{6A99}', [0x8D, 0xCB]), ";
"    ('\u{6A9A}', [0xED, 0x47]), ('\u{6A9B}', [0xEC, 0xF9]), ('\u{6A9C}', [0xC0, 0xCC]), ";
"    ('\u{6A9D}', [0xFD, 0x5C]), ('\u{6A9E}', [0xEC, 0xFB]), ('\u{6A9F}', [0xEC, 0xF8]), ";
"    ('\u{6AA0}', [0xC0, 0xD2]), ('\u{6AA1}', [0xEC, 0xFA]), ('\u{6AA2}', [0xC0, 0xCB]), ";
"    ('\u{6AA3}', [0xC0, 0xCE]), ('\u{6AA4}', [0xED, 0x43]), ('\u{6AA5}', [0xEC, 0xF6]), ";
"    ('\u{6AA6}', [0xED, 0x46]), ('\u{6AA7}', [0x8F, 0x65]), ('\u{6AA8}', [0xED, 0x42]), ";
"    ('\u{6AAB}', [0x8D, 0xCD]), ('\u{6AAC}', [0xC2, 0x63]), ('\u{6AAD}', [0xEF, 0xE7]), ";
"    ('\u{6AAE}', [0xC2, 0x68]), ('\u{6AAF}', [0xC2, 0x69]), ('\u{6AB1}', [0x9D, 0xA8]), ";
"    ('\u{6AB2}', [0x94, 0xF9]), ('\u{6AB3}', [0xC2, 0x62]), ('\u{6AB4}', [0xEF, 0xE6]), ";
"    ('\u{6AB5}', [0x8D, 0xCE]), ('\u{6AB6}', [0xEF, 0xE3]), ('\u{6AB7}', [0xEF, 0xE4]), ";
"    ('\u{6AB8}', [0xC2, 0x66]), ('\u{6AB9}', [0xEF, 0xDE]), ('\u{6ABA}', [0xEF, 0xE2]), ";
"    ('\u{6ABB}', [0xC2, 0x65]), ('\u{6ABD}', [0xEF, 0xDF]), ('\u{6ABE}', [0x93, 0xEA]), ";
"    ('\u{6AC2}', [0xC2, 0x67]), ('\u{6AC3}', [0xC2, 0x64]), ('\u{6AC5}', [0xEF, 0xDD]), ";
"    ('\u{6AC6}', [0xEF, 0xE1]), ('\u{6AC7}', [0xEF, 0xE5]), ('\u{6AC8}', [0xFD, 0x5F]), ";
"    ('\u{6AC9}', [0x93, 0xF0]), ('\u{6ACA}', [0x9F, 0xB6]), ('\u{6ACB}', [0xF2, 0x51]), ";
"    ('\u{6ACC}', [0xF2, 0x4E]), ('\u{6ACD}', [0xF2, 0x57]), ('\u{6ACF}', [0xF2, 0x56]), ";
"    ('\u{6AD0}', [0xF2, 0x54]), ('\u{6AD1}', [0xF2, 0x4F]), ('\u{6AD3}', [0xC3, 0x72]), ";
"    ('\u{6AD4}', [0x8D, 0xCF]), ('\u{6AD8}', [0x97, 0x63]), ('\u{6AD9}', [0xF2, 0x50]), ";
"    ('\u{6ADA}', [0xC3, 0x71]), ('\u{6ADB}', [0xC0, 0xCD]), ('\u{6ADC}', [0xF2, 0x53]), ";
"    ('\u{6ADD}', [0xC3, 0x70]), ('\u{6ADE}', [0xF2, 0x58]), ('\u{6ADF}', [0xF2, 0x52]), ";
"    ('\u{6AE0}', [0xF2, 0x4D]), ('\u{6AE1}', [0xEF, 0xE0]), ('\u{6AE5}', [0xC3, 0x6F]), ";
"    ('\u{6AE7}', [0xF2, 0x4C]), ('\u{6AE8}', [0xF4, 0x56]), ('\u{6AEA}', [0xF4, 0x55]), ";
"    ('\u{6AEB}', [0xF2, 0x55]), ('\u{6AEC}', [0xC4, 0x68]), ('\u{6AEE}', [0xF4, 0x59]), ";
"    ('\u{6AEF}', [0xF4, 0x5A]), ('\u{6AF0}', [0xF4, 0x54]), ('\u{6AF1}', [0xF4, 0x58]), ";
"    ('\u{6AF3}', [0xF4, 0x53]), ('\u{6AF6}', [0x8D, 0xD0]), ('\u{6AF8}', [0xF5, 0xD1]), ";
"    ('\u{6AF9}', [0xF4, 0x57]), ('\u{6AFA}', [0xC4, 0xE7]), ('\u{6AFB}', [0xC4, 0xE5]), ";
"    ('\u{6AFC}', [0xF5, 0xCF]), ('\u{6B00}', [0xF5, 0xD2]), ('\u{6B02}', [0xF5, 0xCE]), ";
"    ('\u{6B03}', [0xF5, 0xD0]), ('\u{6B04}', [0xC4, 0xE6]), ('\u{6B05}', [0x93, 0xF1]), ";
"    ('\u{6B08}', [0xF6, 0xE5]), ('\u{6B09}', [0xF6, 0xE6]), ('\u{6B0A}', [0xC5, 0x76]), ";
"    ('\u{6B0B}', [0xF6, 0xE4]), ('\u{6B0F}', [0xF7, 0xE2]), ('\u{6B10}', [0xC5, 0xCF]), ";
"    ('\u{6B11}', [0xF7, 0xE0]), ('\u{6B12}', [0xF7, 0xE1]), ('\u{6B13}', [0xF8, 0xAC]), ";
"    ('\u{6B16}', [0xC6, 0x56]), ('\u{6B17}', [0xF8, 0xF3]), ('\u{6B18}', [0xF8, 0xF1]), ";
"    ('\u{6B19}', [0xF8, 0xF2]), ('\u{6B1A}', [0xF8, 0xF4]), ('\u{6B1D}', [0xFD, 0x62]), ";
"    ('\u{6B1E}', [0xF9, 0xBB]), ('\u{6B20}', [0xA4, 0xED]), ('\u{6B21}', [0xA6, 0xB8]), ";
"    ('\u{6B23}', [0xAA, 0x59]), ('\u{6B25}', [0xCC, 0xE9]), ('\u{6B28}', [0xCF, 0x64]), ";
"    ('\u{6B2C}', [0xD1, 0xF5]), ('\u{6B2D}', [0xD1, 0xF7]), ('\u{6B2F}', [0xD1, 0xF6]), ";
"    ('\u{6B31}', [0xD1, 0xF8]), ('\u{6B32}', [0xB1, 0xFD]), ('\u{6B33}', [0xD5, 0xD7]), ";
"    ('\u{6B34}', [0xD1, 0xF9]), ('\u{6B35}', [0xFD, 0x65]), ('\u{6B36}', [0xD5, 0xD6]), ";
"    ('\u{6B37}', [0xD5, 0xD8]), ('\u{6B38}', [0xD5, 0xD9]), ('\u{6B39}', [0xD9, 0xDA]), ";
"    ('\u{6B3A}', [0xB4, 0xDB]), ('\u{6B3B}', [0xD9, 0xDB]), ('\u{6B3C}', [0xD9, 0xDD]), ";
"    ('\u{6B3D}', [0xB4, 0xDC]), ('\u{6B3E}', [0xB4, 0xDA]), ('\u{6B3F}', [0xD9, 0xDC]), ";
"    ('\u{6B41}', [0xDD, 0xFA]), ('\u{6B42}', [0xDD, 0xF8]), ('\u{6B43}', [0xDD, 0xF7]), ";
"    ('\u{6B45}', [0xDD, 0xF6]), ('\u{6B46}', [0xDD, 0xF5]), ('\u{6B47}', [0xB7, 0xB2]), ";
"    ('\u{6B48}', [0xDD, 0xF9]), ('\u{6B49}', [0xBA, 0x70]), ('\u{6B4A}', [0xE2, 0x63]), ";
"    ('\u{6B4B}', [0xE2, 0x65]), ('\u{6B4C}', [0xBA, 0x71]), ('\u{6B4D}', [0xE2, 0x64]), ";
"    ('\u{6B4E}', [0xBC, 0xDB]), ('\u{6B50}', [0xBC, 0xDA]), ('\u{6B51}', [0xE5, 0xF0]), ";
"    ('\u{6B52}', [0x9F, 0xDB]), ('\u{6B54}', [0xE9, 0xDF]), ('\u{6B55}', [0xE9, 0xDE]), ";
"    ('\u{6B56}', [0xE9, 0xE0]), ('\u{6B57}', [0x93, 0xF8]), ('\u{6B59}', [0xBE, 0xF9]), ";
"    ('\u{6B5B}', [0xED, 0x4B]), ('\u{6B5C}', [0xC0, 0xD3]), ('\u{6B5E}', [0xEF, 0xE8]), ";
"    ('\u{6B5F}', [0xC2, 0x6A]), ('\u{6B60}', [0xF2, 0x59]), ('\u{6B61}', [0xC5, 0x77]), ";
"    ('\u{6B62}', [0xA4, 0xEE]), ('\u{6B63}', [0xA5, 0xBF]), ('\u{6B64}', [0xA6, 0xB9]), ";
"    ('\u{6B65}', [0xA8, 0x42]), ('\u{6B66}', [0xAA, 0x5A]), ('\u{6B67}', [0xAA, 0x5B]), ";
"    ('\u{6B6A}', [0xAC, 0x6E]), ('\u{6B6D}', [0xD1, 0xFA]), ('\u{6B6F}', [0x8B, 0xF7]), ";
"    ('\u{6B72}', [0xB7, 0xB3]), ('\u{6B74}', [0xFD, 0x66]), ('\u{6B76}', [0xE6, 0xD1]), ";
"    ('\u{6B77}', [0xBE, 0xFA]), ('\u{6B78}', [0xC2, 0x6B]), ('\u{6B79}', [0xA4, 0xEF]), ";
"    ('\u{6B7A}', [0x8B, 0xCF]), ('\u{6B7B}', [0xA6, 0xBA]), ('\u{6B7E}', [0xCC, 0xEB]), ";
"    ('\u{6B7F}', [0xAA, 0x5C]), ('\u{6B80}', [0xCC, 0xEA]), ('\u{6B81}', [0x8D, 0xD1]), ";
"    ('\u{6B82}', [0xCF, 0x65]), ('\u{6B83}', [0xAC, 0x6F]), ('\u{6B84}', [0xCF, 0x66]), ";
"    ('\u{6B86}', [0xAC, 0x70]), ('\u{6B88}', [0xD1, 0xFC]), ('\u{6B89}', [0xAE, 0xEE]), ";
"    ('\u{6B8A}', [0xAE, 0xED]), ('\u{6B8C}', [0xD5, 0xDE]), ('\u{6B8D}', [0xD5, 0xDC]), ";
"    ('\u{6B8E}', [0xD5, 0xDD]), ('\u{6B8F}', [0xD5, 0xDB]), ('\u{6B91}', [0xD5, 0xDA]), ";
"    ('\u{6B94}', [0xD9, 0xDE]), ('\u{6B95}', [0xD9, 0xE1]), ('\u{6B96}', [0xB4, 0xDE]), ";
"    ('\u{6B97}', [0xD9, 0xDF]), ('\u{6B98}', [0xB4, 0xDD]), ('\u{6B99}', [0xD9, 0xE0]), ";
"    ('\u{6B9B}', [0xDD, 0xFB]), ('\u{6B9E}', [0xE2, 0x66]), ('\u{6B9F}', [0xE2, 0x67]), ";
"    ('\u{6BA0}', [0xE2, 0x68]), ('\u{6BA2}', [0xE5, 0xF3]), ('\u{6BA3}', [0xE5, 0xF2]), ";
"    ('\u{6BA4}', [0xBC, 0xDC]), ('\u{6BA5}', [0xE5, 0xF1]), ('\u{6BA6}', [0xE5, 0xF4]), ";
"    ('\u{6BA7}', [0xE9, 0xE1]), ('\u{6BAA}', [0xE9, 0xE2]), ('\u{6BAB}', [0xE9, 0xE3]), ";
"    ('\u{6BAD}', [0xED, 0x4C]), ('\u{6BAE}', [0xC0, 0xD4]), ('\u{6BAF}', [0xC2, 0x6C]), ";
"    ('\u{6BB0}', [0xF2, 0x5A]), ('\u{6BB2}', [0xC4, 0xE8]), ('\u{6BB3}', [0xC9, 0x5F]), ";
"    ('\u{6BB5}', [0xAC, 0x71]), ('\u{6BB6}', [0xCF, 0x67]), ('\u{6BB7}', [0xAE, 0xEF]), ";
"    ('\u{6BBA}', [0xB1, 0xFE]), ('\u{6BBC}', [0xB4, 0xDF]), ('\u{6BBD}', [0xD9, 0xE2]), ";
"    ('\u{6BBF}', [0xB7, 0xB5]), ('\u{6BC0}', [0xB7, 0xB4]), ('\u{6BC1}', [0x8D, 0xD2]), ";
"    ('\u{6BC3}', [0xE2, 0x69]), ('\u{6BC4}', [0xE2, 0x6A]), ('\u{6BC5}', [0xBC, 0xDD]), ";
"    ('\u{6BC6}', [0xBC, 0xDE]), ('\u{6BC7}', [0xE9, 0xE5]), ('\u{6BC8}', [0xE9, 0xE4]), ";
"    ('\u{6BC9}', [0xEF, 0xE9]), ('\u{6BCA}', [0xF7, 0xE3]), ('\u{6BCB}', [0xA4, 0xF0]), ";
"    ('\u{6BCC}', [0xC9, 0x60]), ('\u{6BCD}', [0xA5, 0xC0]), ('\u{6BCF}', [0xA8, 0x43]), ";
"    ('\u{6BD0}', [0xCB, 0x48]), ('\u{6BD2}', [0xAC, 0x72]), ('\u{6BD3}', [0xB7, 0xB6]), ";
"    ('\u{6BD4}', [0xA4, 0xF1]), ('\u{6BD6}', [0xCF, 0x68]), ('\u{6BD7}', [0xAC, 0x73]), ";
"    ('\u{6BD8}', [0xCF, 0x69]), ('\u{6BDA}', [0xC0, 0xD5]), ('\u{6BDB}', [0xA4, 0xF2]), ";
"    ('\u{6BDC}', [0xFD, 0x71]), ('\u{6BDE}', [0xCC, 0xEC]), ('\u{6BE0}', [0xCF, 0x6A]), ";
"    ('\u{6BE1}', [0xFD, 0x6F]), ('\u{6BE2}', [0xD2, 0x42]), ('\u{6BE3}', [0xD2, 0x41]), ";
"    ('\u{6BE4}', [0xD1, 0xFE]), ('\u{6BE6}', [0xD1, 0xFD]), ('\u{6BE7}', [0xD2, 0x43]), ";
"    ('\u{6BE8}', [0xD2, 0x40]), ('\u{6BEA}', [0x8D, 0xD3]), ('\u{6BEB}', [0xB2, 0x40]), ";
"    ('\u{6BEC}', [0xB2, 0x41]), ('\u{6BEF}', [0xB4, 0xE0]), ('\u{6BF0}', [0xD9, 0xE3]), ";
"    ('\u{6BF2}', [0xD9, 0xE4]), ('\u{6BF3}', [0xD9, 0xE5]), ('\u{6BF7}', [0xDE, 0x41]), ";
"    ('\u{6BF8}', [0xDE, 0x42]), ('\u{6BF9}', [0xDE, 0x40]), ('\u{6BFA}', [0x9F, 0xE7]), ";
"    ('\u{6BFB}', [0xDD, 0xFD]), ('\u{6BFC}', [0xDD, 0xFE]), ('\u{6BFD}', [0xB7, 0xB7]), ";
"    ('\u{6BFE}', [0xE2, 0x6B]), ('\u{6BFF}', [0xE5, 0xF7]), ('\u{6C00}', [0xE5, 0xF6]), ";
"    ('\u{6C01}', [0xE5, 0xF5]), ('\u{6C02}', [0xE5, 0xF8]), ('\u{6C03}', [0xE9, 0xE7]), ";
"    ('\u{6C04}', [0xE9, 0xE6]), ('\u{6C05}', [0xBE, 0xFB]), ('\u{6C06}', [0xE9, 0xE8]), ";
"    ('\u{6C08}', [0xC0, 0xD6]), ('\u{6C09}', [0xED, 0x4D]), ('\u{6C0B}', [0xEF, 0xEA]), ";
"    ('\u{6C0C}', [0xF2, 0x5B]), ('\u{6C0D}', [0xF6, 0xE7]), ('\u{6C0F}', [0xA4, 0xF3]), ";
"    ('\u{6C10}', [0xA5, 0xC2]), ('\u{6C11}', [0xA5, 0xC1]), ('\u{6C13}', [0xAA, 0x5D]), ";
"    ('\u{6C14}', [0xC9, 0x61]), ('\u{6C15}', [0xC9, 0x7E]), ('\u{6C16}', [0xA6, 0xBB]), ";
"    ('\u{6C18}', [0xC9, 0xF7]), ('\u{6C19}', [0xCB, 0x49]), ('\u{6C1A}', [0xCB, 0x4A]), ";
"    ('\u{6C1B}', [0xAA, 0x5E]), ('\u{6C1C}', [0x90, 0xBD]), ('\u{6C1D}', [0xCC, 0xED]), ";
"    ('\u{6C1F}', [0xAC, 0x74]), ('\u{6C20}', [0xCF, 0x6B]), ('\u{6C21}', [0xCF, 0x6C]), ";
"    ('\u{6C23}', [0xAE, 0xF0]), ('\u{6C24}', [0xAE, 0xF4]), ('\u{6C25}', [0xD2, 0x44]), ";
"    ('\u{6C26}', [0xAE, 0xF3]), ('\u{6C27}', [0xAE, 0xF1]), ('\u{6C28}', [0xAE, 0xF2]), ";
"    ('\u{6C2A}', [0xD5, 0xDF]), ('\u{6C2B}', [0xB2, 0x42]), ('\u{6C2C}', [0xB4, 0xE3]), ";
"    ('\u{6C2E}', [0xB4, 0xE1]), ('\u{6C2F}', [0xB4, 0xE2]), ('\u{6C30}', [0xD9, 0xE6]), ";
"    ('\u{6C31}', [0x9F, 0xD0]), ('\u{6C33}', [0xBA, 0x72]), ('\u{6C34}', [0xA4, 0xF4]), ";
"    ('\u{6C35}', [0x8B, 0xD0]), ('\u{6C36}', [0xC9, 0xA1]), ('\u{6C37}', [0xFD, 0x72]), ";
"    ('\u{6C38}', [0xA5, 0xC3]), ('\u{6C39}', [0x9C, 0xAE]), ('\u{6C3A}', [0x8B, 0xD1]), ";
"    ('\u{6C3B}', [0xC9, 0xA4]), ('\u{6C3D}', [0x8A, 0xDB]), ('\u{6C3E}', [0xA5, 0xC6]), ";
"    ('\u{6C3F}', [0xC9, 0xA3]), ('\u{6C40}', [0xA5, 0xC5]), ('\u{6C41}', [0xA5, 0xC4]), ";
"    ('\u{6C42}', [0xA8, 0x44]), ('\u{6C43}', [0xC9, 0xA2]), ('\u{6C46}', [0xC9, 0xF8]), ";
"    ('\u{6C49}', [0xFA, 0xE4]), ('\u{6C4A}', [0x9E, 0xFD]), ('\u{6C4B}', [0xC9, 0xFE]), ";
"    ('\u{6C4C}', [0xCA, 0x40]), ('\u{6C4D}', [0xA6, 0xC5]), ('\u{6C4E}', [0xA6, 0xC6]), ";
"    ('\u{6C4F}', [0xC9, 0xFB]), ('\u{6C50}', [0xA6, 0xC1]), ('\u{6C52}', [0xC9, 0xF9]), ";
"    ('\u{6C54}', [0xC9, 0xFD]), ('\u{6C55}', [0xA6, 0xC2]), ('\u{6C57}', [0xA6, 0xBD]), ";
"    ('\u{6C58}', [0x95, 0xCE]), ('\u{6C59}', [0xA6, 0xBE]), ('\u{6C5A}', [0xFD, 0x76]), ";
"    ('\u{6C5B}', [0xA6, 0xC4]), ('\u{6C5C}', [0xC9, 0xFA]), ('\u{6C5D}', [0xA6, 0xBC]), ";
"    ('\u{6C5E}', [0xA8, 0x45]), ('\u{6C5F}', [0xA6, 0xBF]), ('\u{6C60}', [0xA6, 0xC0]), ";
"    ('\u{6C61}', [0xA6, 0xC3]), ('\u{6C65}', [0xCB, 0x5B]), ('\u{6C66}', [0xCB, 0x59]), ";
"    ('\u{6C67}', [0xCB, 0x4C]), ('\u{6C68}', [0xA8, 0x51]), ('\u{6C69}', [0xCB, 0x53]), ";
"    ('\u{6C6A}', [0xA8, 0x4C]), ('\u{6C6B}', [0xCB, 0x4D]), ('\u{6C6D}', [0xCB, 0x55]), ";
"    ('\u{6C6E}', [0xFB, 0x62]), ('\u{6C6F}', [0xCB, 0x52]), ('\u{6C70}', [0xA8, 0x4F]), ";
"    ('\u{6C71}', [0xCB, 0x51]), ('\u{6C72}', [0xA8, 0x56]), ('\u{6C73}', [0xCB, 0x5A]), ";
"    ('\u{6C74}', [0xA8, 0x58]), ('\u{6C75}', [0x8D, 0xD4]), ('\u{6C76}', [0xA8, 0x5A]), ";
"    ('\u{6C78}', [0xCB, 0x4B]), ('\u{6C79}', [0xFD, 0x78]), ('\u{6C7A}', [0xA8, 0x4D]), ";
"    ('\u{6C7B}', [0xCB, 0x5C]), ('\u{6C7D}', [0xA8, 0x54]), ('\u{6C7E}', [0xA8, 0x57]), ";
"    ('\u{6C7F}', [0x8E, 0xE3]), ('\u{6C80}', [0xCD, 0x45]), ('\u{6C81}', [0xA8, 0x47]), ";
"    ('\u{6C82}', [0xA8, 0x5E]), ('\u{6C83}', [0xA8, 0x55]), ('\u{6C84}', [0xCB, 0x4E]), ";
"    ('\u{6C85}', [0xA8, 0x4A]), ('\u{6C86}', [0xA8, 0x59]), ('\u{6C87}', [0xCB, 0x56]), ";
"    ('\u{6C88}', [0xA8, 0x48]), ('\u{6C89}', [0xA8, 0x49]), ('\u{6C8A}', [0xCD, 0x43]), ";
"    ('\u{6C8B}', [0xCB, 0x4F]), ('\u{6C8C}', [0xA8, 0x50]), ('\u{6C8D}', [0xA8, 0x5B]), ";
"    ('\u{6C8E}', [0xCB, 0x5D]), ('\u{6C8F}', [0xCB, 0x50]), ('\u{6C90}', [0xA8, 0x4E]), ";
"    ('\u{6C92}', [0xA8, 0x53]), ('\u{6C93}', [0xCC, 0xEE]), ('\u{6C94}', [0xA8, 0x5C]), ";
"    ('\u{6C95}', [0xCB, 0x57]), ('\u{6C96}', [0xA8, 0x52]), ('\u{6C98}', [0xA8, 0x5D]), ";
"    ('\u{6C99}', [0xA8, 0x46]), ('\u{6C9A}', [0xCB, 0x54]), ('\u{6C9B}', [0xA8, 0x4B]), ";
"    ('\u{6C9C}', [0xCB, 0x58]), ('\u{6C9D}', [0xCD, 0x44]), ('\u{6C9F}', [0x90, 0x76]), ";
"    ('\u{6CA2}', [0x98, 0xC6]), ('\u{6CAA}', [0x8D, 0xD5]), ('\u{6CAB}', [0xAA, 0x6A]), ";
"    ('\u{6CAC}', [0xAA, 0x7A]), ('\u{6CAD}', [0xCC, 0xF5]), ('\u{6CAE}', [0xAA, 0x71]), ";
"    ('\u{6CAF}', [0x97, 0xD1]), ('\u{6CB0}', [0xCD, 0x4B]), ('\u{6CB1}', [0xAA, 0x62]), ";
"    ('\u{6CB2}', [0x9E, 0xB6]), ('\u{6CB3}', [0xAA, 0x65]), ('\u{6CB4}', [0xCD, 0x42]), ";
"    ('\u{6CB6}', [0xCC, 0xF3]), ('\u{6CB7}', [0xCC, 0xF7]), ('\u{6CB8}', [0xAA, 0x6D]), "
].
(* /repo/src/generated/whatwg/big5_whatwg_tables.rs.inc:4865-5120 *)
Definition big5_inc_19 : list line := [
"    ('\u{6CB9}', [0xAA, 0x6F]), ('\u{6CBA}', [0xCC, 0xFA]), ('\u{6CBB}', [0xAA, 0x76]), ";
"    ('\u{6CBC}', [0xAA, 0x68]), ('\u{6CBD}', [0xAA, 0x66]), ('\u{6CBE}', [0xAA, 0x67]), ";
"    ('\u{6CBF}', [0xAA, 0x75]), ('\u{6CC0}', [0xCD, 0x47]), ('\u{6CC1}', [0xAA, 0x70]), ";
"    ('\u{6CC2}', [0xCC, 0xF9]), ('\u{6CC3}', [0xCC, 0xFB]), ('\u{6CC4}', [0xAA, 0x6E]), ";
"    ('\u{6CC5}', [0xAA, 0x73]), ('\u{6CC6}', [0xCC, 0xFC]), ('\u{6CC7}', [0xCD, 0x4A]), ";
"    ('\u{6CC9}', [0xAC, 0x75]), ('\u{6CCA}', [0xAA, 0x79]), ('\u{6CCB}', [0xFA, 0xC7]), ";
"    ('\u{6CCC}', [0xAA, 0x63]), ('\u{6CCD}', [0xCD, 0x49]), ('\u{6CCE}', [0xA0, 0x42]), ";
"    ('\u{6CCF}', [0xCD, 0x4D]), ('\u{6CD0}', [0xCC, 0xF8]), ('\u{6CD1}', [0xCD, 0x4F]), ";
"    ('\u{6CD2}', [0xCD, 0x40]), ('\u{6CD3}', [0xAA, 0x6C]), ('\u{6CD4}', [0xCC, 0xF4]), ";
"    ('\u{6CD5}', [0xAA, 0x6B]), ('\u{6CD6}', [0xAA, 0x7D]), ('\u{6CD7}', [0xAA, 0x72]), ";
"    ('\u{6CD9}', [0xCC, 0xF2]), ('\u{6CDA}', [0xCF, 0x75]), ('\u{6CDB}', [0xAA, 0x78]), ";
"    ('\u{6CDC}', [0xAA, 0x7C]), ('\u{6CDD}', [0xCD, 0x41]), ('\u{6CDE}', [0xCD, 0x46]), ";
"    ('\u{6CDF}', [0x98, 0x73]), ('\u{6CE0}', [0xAA, 0x7E]), ('\u{6CE1}', [0xAA, 0x77]), ";
"    ('\u{6CE2}', [0xAA, 0x69]), ('\u{6CE3}', [0xAA, 0x5F]), ('\u{6CE5}', [0xAA, 0x64]), ";
"    ('\u{6CE7}', [0xCC, 0xF6]), ('\u{6CE8}', [0xAA, 0x60]), ('\u{6CE9}', [0xCD, 0x4E]), ";
"    ('\u{6CEA}', [0x9F, 0xFC]), ('\u{6CEB}', [0xCC, 0xF0]), ('\u{6CEC}', [0xCC, 0xEF]), ";
"    ('\u{6CED}', [0xCC, 0xFD]), ('\u{6CEE}', [0xCC, 0xF1]), ('\u{6CEF}', [0xAA, 0x7B]), ";
"    ('\u{6CF0}', [0xAE, 0xF5]), ('\u{6CF1}', [0xAA, 0x74]), ('\u{6CF2}', [0xCC, 0xFE]), ";
"    ('\u{6CF3}', [0xAA, 0x61]), ('\u{6CF5}', [0xAC, 0xA6]), ('\u{6CF9}', [0xCD, 0x4C]), ";
"    ('\u{6CFF}', [0x8C, 0xA5]), ('\u{6D00}', [0xCF, 0x7C]), ('\u{6D01}', [0xCF, 0xA1]), ";
"    ('\u{6D02}', [0x8D, 0xD7]), ('\u{6D03}', [0xCF, 0xA4]), ('\u{6D04}', [0xCF, 0x77]), ";
"    ('\u{6D05}', [0x92, 0xFB]), ('\u{6D06}', [0x8D, 0xD8]), ('\u{6D07}', [0xCF, 0xA7]), ";
"    ('\u{6D08}', [0xCF, 0xAA]), ('\u{6D09}', [0xCF, 0xAC]), ('\u{6D0A}', [0xCF, 0x74]), ";
"    ('\u{6D0B}', [0xAC, 0x76]), ('\u{6D0C}', [0xAC, 0x7B]), ('\u{6D0D}', [0xD2, 0x49]), ";
"    ('\u{6D0E}', [0xAC, 0xAD]), ('\u{6D0F}', [0xCF, 0xA5]), ('\u{6D10}', [0xCF, 0xAD]), ";
"    ('\u{6D11}', [0xCF, 0x7B]), ('\u{6D12}', [0xCF, 0x73]), ('\u{6D16}', [0xD2, 0x64]), ";
"    ('\u{6D17}', [0xAC, 0x7E]), ('\u{6D18}', [0xCF, 0xA2]), ('\u{6D19}', [0xCF, 0x78]), ";
"    ('\u{6D1A}', [0xCF, 0x7A]), ('\u{6D1B}', [0xAC, 0xA5]), ('\u{6D1D}', [0xCF, 0x7D]), ";
"    ('\u{6D1E}', [0xAC, 0x7D]), ('\u{6D1F}', [0xCF, 0x70]), ('\u{6D20}', [0xCF, 0xA8]), ";
"    ('\u{6D22}', [0xCF, 0xAB]), ('\u{6D24}', [0x94, 0x4F]), ('\u{6D25}', [0xAC, 0x7A]), ";
"    ('\u{6D26}', [0x8D, 0xD9]), ('\u{6D27}', [0xAC, 0xA8]), ('\u{6D28}', [0xCF, 0x6D]), ";
"    ('\u{6D29}', [0xAC, 0xAA]), ('\u{6D2A}', [0xAC, 0x78]), ('\u{6D2B}', [0xAC, 0xAE]), ";
"    ('\u{6D2C}', [0xCF, 0xA9]), ('\u{6D2D}', [0xCF, 0x6F]), ('\u{6D2E}', [0xAC, 0xAB]), ";
"    ('\u{6D2F}', [0xD2, 0x5E]), ('\u{6D30}', [0xCD, 0x48]), ('\u{6D31}', [0xAC, 0x7C]), ";
"    ('\u{6D32}', [0xAC, 0x77]), ('\u{6D33}', [0xCF, 0x76]), ('\u{6D34}', [0xCF, 0x6E]), ";
"    ('\u{6D35}', [0xAC, 0xAC]), ('\u{6D36}', [0xAC, 0xA4]), ('\u{6D37}', [0xCF, 0xA3]), ";
"    ('\u{6D38}', [0xAC, 0xA9]), ('\u{6D39}', [0xAC, 0xA7]), ('\u{6D3A}', [0xCF, 0x79]), ";
"    ('\u{6D3B}', [0xAC, 0xA1]), ('\u{6D3C}', [0xCF, 0x71]), ('\u{6D3D}', [0xAC, 0xA2]), ";
"    ('\u{6D3E}', [0xAC, 0xA3]), ('\u{6D3F}', [0xCF, 0x72]), ('\u{6D40}', [0xCF, 0xA6]), ";
"    ('\u{6D41}', [0xAC, 0x79]), ('\u{6D42}', [0xCF, 0x7E]), ('\u{6D4E}', [0x89, 0x6B]), ";
"    ('\u{6D57}', [0x97, 0xCE]), ('\u{6D58}', [0xD2, 0x4C]), ('\u{6D59}', [0xAE, 0xFD]), ";
"    ('\u{6D5A}', [0xAF, 0x43]), ('\u{6D5B}', [0xFA, 0xF3]), ('\u{6D5C}', [0xFD, 0xAE]), ";
"    ('\u{6D5E}', [0xD2, 0x55]), ('\u{6D5F}', [0xD2, 0x5B]), ('\u{6D60}', [0xD2, 0x57]), ";
"    ('\u{6D61}', [0xD2, 0x4A]), ('\u{6D62}', [0xD2, 0x4D]), ('\u{6D63}', [0xD2, 0x46]), ";
"    ('\u{6D64}', [0xD2, 0x47]), ('\u{6D65}', [0xAF, 0x4A]), ('\u{6D66}', [0xAE, 0xFA]), ";
"    ('\u{6D67}', [0x94, 0x47]), ('\u{6D68}', [0xD2, 0x5F]), ('\u{6D69}', [0xAF, 0x45]), ";
"    ('\u{6D6A}', [0xAE, 0xF6]), ('\u{6D6C}', [0xAF, 0x40]), ('\u{6D6D}', [0xD2, 0x4E]), ";
"    ('\u{6D6E}', [0xAF, 0x42]), ('\u{6D6F}', [0xD2, 0x4F]), ('\u{6D70}', [0xD2, 0x59]), ";
"    ('\u{6D71}', [0xFB, 0xAF]), ('\u{6D72}', [0x92, 0xB7]), ('\u{6D74}', [0xAF, 0x44]), ";
"    ('\u{6D75}', [0xD2, 0x68]), ('\u{6D76}', [0xD2, 0x48]), ('\u{6D77}', [0xAE, 0xFC]), ";
"    ('\u{6D78}', [0xAE, 0xFB]), ('\u{6D79}', [0xAF, 0x48]), ('\u{6D7A}', [0xD2, 0x45]), ";
"    ('\u{6D7B}', [0xD2, 0x66]), ('\u{6D7C}', [0xD2, 0x5A]), ('\u{6D7D}', [0xD2, 0x67]), ";
"    ('\u{6D7E}', [0xD2, 0x61]), ('\u{6D7F}', [0xD2, 0x53]), ('\u{6D80}', [0xD2, 0x62]), ";
"    ('\u{6D81}', [0x8D, 0xDA]), ('\u{6D82}', [0xD2, 0x5C]), ('\u{6D83}', [0xD2, 0x65]), ";
"    ('\u{6D84}', [0xD2, 0x63]), ('\u{6D85}', [0xAF, 0x49]), ('\u{6D86}', [0xD2, 0x54]), ";
"    ('\u{6D87}', [0xAE, 0xF9]), ('\u{6D88}', [0xAE, 0xF8]), ('\u{6D89}', [0xAF, 0x41]), ";
"    ('\u{6D8A}', [0xAF, 0x47]), ('\u{6D8B}', [0xD2, 0x60]), ('\u{6D8C}', [0xAF, 0x46]), ";
"    ('\u{6D8D}', [0xD2, 0x51]), ('\u{6D8E}', [0xB2, 0x43]), ('\u{6D8F}', [0x9C, 0x5A]), ";
"    ('\u{6D90}', [0xD2, 0x69]), ('\u{6D91}', [0xD2, 0x50]), ('\u{6D92}', [0xD2, 0x4B]), ";
"    ('\u{6D93}', [0xAE, 0xFE]), ('\u{6D94}', [0xAF, 0x4B]), ('\u{6D95}', [0xAE, 0xF7]), ";
"    ('\u{6D96}', [0xFD, 0xAD]), ('\u{6D97}', [0xD2, 0x58]), ('\u{6D98}', [0xD2, 0x5D]), ";
"    ('\u{6DA4}', [0x8D, 0xDC]), ('\u{6DA5}', [0x94, 0x44]), ('\u{6DAA}', [0xB2, 0x65]), ";
"    ('\u{6DAB}', [0xD5, 0xE1]), ('\u{6DAC}', [0xD5, 0xE5]), ('\u{6DAE}', [0xB2, 0x52]), ";
"    ('\u{6DAF}', [0xB2, 0x50]), ('\u{6DB1}', [0x8D, 0xDD]), ('\u{6DB2}', [0xB2, 0x47]), ";
"    ('\u{6DB3}', [0xD5, 0xE3]), ('\u{6DB4}', [0xD5, 0xE2]), ('\u{6DB5}', [0xB2, 0x5B]), ";
"    ('\u{6DB7}', [0xD5, 0xE8]), ('\u{6DB8}', [0xB2, 0x55]), ('\u{6DB9}', [0xA0, 0xD6]), ";
"    ('\u{6DBA}', [0xD5, 0xFA]), ('\u{6DBB}', [0xD6, 0x47]), ('\u{6DBC}', [0xB2, 0x44]), ";
"    ('\u{6DBD}', [0xD5, 0xF7]), ('\u{6DBE}', [0xD5, 0xF0]), ('\u{6DBF}', [0xB2, 0x67]), ";
"    ('\u{6DC0}', [0xD5, 0xE0]), ('\u{6DC2}', [0xD5, 0xFC]), ('\u{6DC4}', [0xB2, 0x64]), ";
"    ('\u{6DC5}', [0xB2, 0x58]), ('\u{6DC6}', [0xB2, 0x63]), ('\u{6DC7}', [0xB2, 0x4E]), ";
"    ('\u{6DC8}', [0xD5, 0xEC]), ('\u{6DC9}', [0xD5, 0xFE]), ('\u{6DCA}', [0xD5, 0xF6]), ";
"    ('\u{6DCB}', [0xB2, 0x4F]), ('\u{6DCC}', [0xB2, 0x49]), ('\u{6DCD}', [0xD6, 0x45]), ";
"    ('\u{6DCF}', [0xD5, 0xFD]), ('\u{6DD0}', [0xD6, 0x40]), ('\u{6DD1}', [0xB2, 0x51]), ";
"    ('\u{6DD2}', [0xB2, 0x59]), ('\u{6DD3}', [0xD6, 0x42]), ('\u{6DD4}', [0xD5, 0xEA]), ";
"    ('\u{6DD5}', [0xD5, 0xFB]), ('\u{6DD6}', [0xD5, 0xEF]), ('\u{6DD7}', [0xD6, 0x44]), ";
"    ('\u{6DD8}', [0xB2, 0x5E]), ('\u{6DD9}', [0xB2, 0x46]), ('\u{6DDA}', [0xB2, 0x5C]), ";
"    ('\u{6DDB}', [0xD5, 0xF4]), ('\u{6DDC}', [0xD5, 0xF2]), ('\u{6DDD}', [0xD5, 0xF3]), ";
"    ('\u{6DDE}', [0xB2, 0x53]), ('\u{6DDF}', [0xD5, 0xEE]), ('\u{6DE0}', [0xD5, 0xED]), ";
"    ('\u{6DE1}', [0xB2, 0x48]), ('\u{6DE2}', [0xD5, 0xE7]), ('\u{6DE3}', [0xD6, 0x46]), ";
"    ('\u{6DE4}', [0xB2, 0x4A]), ('\u{6DE5}', [0xD5, 0xF1]), ('\u{6DE6}', [0xB2, 0x68]), ";
"    ('\u{6DE8}', [0xB2, 0x62]), ('\u{6DE9}', [0xD5, 0xE6]), ('\u{6DEA}', [0xB2, 0x5F]), ";
"    ('\u{6DEB}', [0xB2, 0x5D]), ('\u{6DEC}', [0xB2, 0x66]), ('\u{6DED}', [0xD5, 0xF8]), ";
"    ('\u{6DEE}', [0xB2, 0x61]), ('\u{6DEF}', [0xD2, 0x52]), ('\u{6DF0}', [0xD5, 0xF9]), ";
"    ('\u{6DF1}', [0xB2, 0x60]), ('\u{6DF2}', [0xD6, 0x41]), ('\u{6DF3}', [0xB2, 0x45]), ";
"    ('\u{6DF4}', [0xD5, 0xF5]), ('\u{6DF5}', [0xB2, 0x57]), ('\u{6DF6}', [0xD5, 0xE9]), ";
"    ('\u{6DF7}', [0xB2, 0x56]), ('\u{6DF9}', [0xB2, 0x54]), ('\u{6DFA}', [0xB2, 0x4C]), ";
"    ('\u{6DFB}', [0xB2, 0x4B]), ('\u{6DFC}', [0xD9, 0xE7]), ('\u{6DFD}', [0xD6, 0x43]), ";
"    ('\u{6DFE}', [0x8C, 0x41]), ('\u{6E00}', [0xD5, 0xEB]), ('\u{6E02}', [0x97, 0xD5]), ";
"    ('\u{6E03}', [0xD9, 0xFC]), ('\u{6E04}', [0x94, 0x4A]), ('\u{6E05}', [0xB2, 0x4D]), ";
"    ('\u{6E0A}', [0x94, 0x4D]), ('\u{6E0F}', [0x97, 0xCB]), ('\u{6E15}', [0x8D, 0xDE]), ";
"    ('\u{6E18}', [0x8D, 0xDF]), ('\u{6E19}', [0xB5, 0x41]), ('\u{6E1A}', [0xB2, 0x5A]), ";
"    ('\u{6E1B}', [0xB4, 0xEE]), ('\u{6E1C}', [0xD9, 0xF6]), ('\u{6E1D}', [0xB4, 0xFC]), ";
"    ('\u{6E1F}', [0xD9, 0xEA]), ('\u{6E20}', [0xB4, 0xEB]), ('\u{6E21}', [0xB4, 0xE7]), ";
"    ('\u{6E22}', [0xDA, 0x49]), ('\u{6E23}', [0xB4, 0xED]), ('\u{6E24}', [0xB4, 0xF1]), ";
"    ('\u{6E25}', [0xB4, 0xEC]), ('\u{6E26}', [0xB4, 0xF5]), ('\u{6E27}', [0xDA, 0x4D]), ";
"    ('\u{6E28}', [0xDA, 0x44]), ('\u{6E29}', [0x8D, 0xE0]), ('\u{6E2A}', [0xFE, 0xF9]), ";
"    ('\u{6E2B}', [0xD9, 0xF1]), ('\u{6E2C}', [0xB4, 0xFA]), ('\u{6E2D}', [0xB4, 0xF4]), ";
"    ('\u{6E2E}', [0xD9, 0xFD]), ('\u{6E2F}', [0xB4, 0xE4]), ('\u{6E30}', [0xDA, 0x4A]), ";
"    ('\u{6E31}', [0xDA, 0x43]), ('\u{6E32}', [0xB4, 0xE8]), ('\u{6E33}', [0xD9, 0xF7]), ";
"    ('\u{6E34}', [0xB4, 0xF7]), ('\u{6E35}', [0xDA, 0x55]), ('\u{6E36}', [0xDA, 0x56]), ";
"    ('\u{6E38}', [0xB4, 0xE5]), ('\u{6E39}', [0xDA, 0x48]), ('\u{6E3A}', [0xB4, 0xF9]), ";
"    ('\u{6E3B}', [0xD9, 0xFB]), ('\u{6E3C}', [0xD9, 0xED]), ('\u{6E3D}', [0xD9, 0xEE]), ";
"    ('\u{6E3E}', [0xB4, 0xFD]), ('\u{6E3F}', [0xD9, 0xF2]), ('\u{6E40}', [0xD9, 0xF9]), ";
"    ('\u{6E41}', [0xD9, 0xF3]), ('\u{6E43}', [0xB4, 0xFB]), ('\u{6E44}', [0xB5, 0x44]), ";
"    ('\u{6E45}', [0xD9, 0xEF]), ('\u{6E46}', [0xD9, 0xE8]), ('\u{6E47}', [0xD9, 0xE9]), ";
"    ('\u{6E49}', [0xD9, 0xEB]), ('\u{6E4A}', [0xB4, 0xEA]), ('\u{6E4B}', [0xD9, 0xF8]), ";
"    ('\u{6E4D}', [0xB4, 0xF8]), ('\u{6E4E}', [0xB5, 0x42]), ('\u{6E4F}', [0xFD, 0xC0]), ";
"    ('\u{6E50}', [0xFC, 0xF9]), ('\u{6E51}', [0xD9, 0xFA]), ('\u{6E52}', [0xDA, 0x53]), ";
"    ('\u{6E53}', [0xDA, 0x4B]), ('\u{6E54}', [0xB4, 0xE6]), ('\u{6E55}', [0xDA, 0x51]), ";
"    ('\u{6E56}', [0xB4, 0xF2]), ('\u{6E57}', [0x8C, 0xDD]), ('\u{6E58}', [0xB4, 0xF0]), ";
"    ('\u{6E59}', [0xFB, 0x7E]), ('\u{6E5A}', [0xDA, 0x57]), ('\u{6E5B}', [0xB4, 0xEF]), ";
"    ('\u{6E5C}', [0xDA, 0x41]), ('\u{6E5D}', [0xD9, 0xF4]), ('\u{6E5E}', [0xD9, 0xFE]), ";
"    ('\u{6E5F}', [0xB5, 0x47]), ('\u{6E60}', [0xDA, 0x45]), ('\u{6E61}', [0xDA, 0x42]), ";
"    ('\u{6E62}', [0xD9, 0xF0]), ('\u{6E63}', [0xB5, 0x43]), ('\u{6E64}', [0xDA, 0x4F]), ";
"    ('\u{6E65}', [0xDA, 0x4C]), ('\u{6E66}', [0xDA, 0x54]), ('\u{6E67}', [0xB4, 0xE9]), ";
"    ('\u{6E68}', [0xDA, 0x40]), ('\u{6E69}', [0xB5, 0x46]), ('\u{6E6B}', [0xDA, 0x47]), ";
"    ('\u{6E6E}', [0xB4, 0xF3]), ('\u{6E6F}', [0xB4, 0xF6]), ('\u{6E71}', [0xDA, 0x46]), ";
"    ('\u{6E72}', [0xB5, 0x45]), ('\u{6E73}', [0xD9, 0xF5]), ('\u{6E74}', [0xD5, 0xE4]), ";
"    ('\u{6E76}', [0x92, 0xB3]), ('\u{6E77}', [0xDA, 0x50]), ('\u{6E78}', [0xDA, 0x4E]), ";
"    ('\u{6E79}', [0xDA, 0x52]), ('\u{6E7C}', [0xFD, 0xAF]), ('\u{6E86}', [0x8D, 0xE1]), ";
"    ('\u{6E88}', [0xD9, 0xEC]), ('\u{6E89}', [0xB5, 0x40]), ('\u{6E8B}', [0x95, 0xD3]), ";
"    ('\u{6E8D}', [0xDE, 0x61]), ('\u{6E8E}', [0xDE, 0x60]), ('\u{6E8F}', [0xDE, 0x46]), ";
"    ('\u{6E90}', [0xB7, 0xBD]), ('\u{6E92}', [0xDE, 0x5F]), ('\u{6E93}', [0xDE, 0x49]), ";
"    ('\u{6E94}', [0xDE, 0x4A]), ('\u{6E96}', [0xB7, 0xC7]), ('\u{6E97}', [0xDE, 0x68]), ";
"    ('\u{6E98}', [0xB7, 0xC2]), ('\u{6E99}', [0xDE, 0x5E]), ('\u{6E9A}', [0x89, 0xC1]), ";
"    ('\u{6E9B}', [0xDE, 0x43]), ('\u{6E9C}', [0xB7, 0xC8]), ('\u{6E9D}', [0xB7, 0xBE]), ";
"    ('\u{6E9E}', [0xDE, 0x52]), ('\u{6E9F}', [0xDE, 0x48]), ('\u{6EA0}', [0xDE, 0x4B]), ";
"    ('\u{6EA1}', [0xDE, 0x63]), ('\u{6EA2}', [0xB7, 0xB8]), ('\u{6EA3}', [0xDE, 0x6A]), ";
"    ('\u{6EA4}', [0xDE, 0x62]), ('\u{6EA5}', [0xB7, 0xC1]), ('\u{6EA6}', [0xDE, 0x57]), ";
"    ('\u{6EA7}', [0xB7, 0xCC]), ('\u{6EAA}', [0xB7, 0xCB]), ('\u{6EAB}', [0xB7, 0xC5]), ";
"    ('\u{6EAE}', [0xDE, 0x69]), ('\u{6EAF}', [0xB7, 0xB9]), ('\u{6EB0}', [0xDE, 0x55]), ";
"    ('\u{6EB1}', [0xDE, 0x4C]), ('\u{6EB2}', [0xDE, 0x59]), ('\u{6EB3}', [0xDE, 0x65]), ";
"    ('\u{6EB4}', [0xB7, 0xCD]), ('\u{6EB5}', [0xFD, 0x68]), ('\u{6EB6}', [0xB7, 0xBB]), ";
"    ('\u{6EB7}', [0xDE, 0x54]), ('\u{6EB8}', [0x9C, 0xB7]), ('\u{6EB9}', [0xDE, 0x4D]), ";
"    ('\u{6EBA}', [0xB7, 0xC4]), ('\u{6EBB}', [0x8D, 0xE3]), ('\u{6EBC}', [0xB7, 0xC3]), ";
"    ('\u{6EBD}', [0xDE, 0x50]), ('\u{6EBE}', [0xDE, 0x5A]), ('\u{6EBF}', [0xDE, 0x64]), ";
"    ('\u{6EC0}', [0xDE, 0x47]), ('\u{6EC1}', [0xDE, 0x51]), ('\u{6EC2}', [0xB7, 0xBC]), ";
"    ('\u{6EC3}', [0xDE, 0x5B]), ('\u{6EC4}', [0xB7, 0xC9]), ('\u{6EC5}', [0xB7, 0xC0]), ";
"    ('\u{6EC6}', [0xDE, 0x4E]), ('\u{6EC7}', [0xB7, 0xBF]), ('\u{6EC8}', [0xDE, 0x45]), ";
"    ('\u{6EC9}', [0xDE, 0x53]), ('\u{6ECA}', [0xDE, 0x67]), ('\u{6ECB}', [0xB4, 0xFE]), ";
"    ('\u{6ECC}', [0xBA, 0xB0]), ('\u{6ECD}', [0xDE, 0x56]), ('\u{6ECE}', [0xE2, 0x6C]), ";
"    ('\u{6ECF}', [0xDE, 0x58]), ('\u{6ED0}', [0xDE, 0x66]), ('\u{6ED1}', [0xB7, 0xC6]), ";
"    ('\u{6ED2}', [0xDE, 0x4F]), ('\u{6ED3}', [0xB7, 0xBA]), ('\u{6ED4}', [0xB7, 0xCA]), ";
"    ('\u{6ED5}', [0xBC, 0xF0]), ('\u{6ED6}', [0xDE, 0x44]), ('\u{6ED8}', [0xDE, 0x5D]), ";
"    ('\u{6ED9}', [0xFA, 0xC0]), ('\u{6EDA}', [0x8D, 0xE5]), ('\u{6EDB}', [0xFA, 0x64]), ";
"    ('\u{6EDC}', [0xDE, 0x5C]), ('\u{6EDD}', [0x89, 0x47]), ('\u{6EE2}', [0x8D, 0xE4]), ";
"    ('\u{6EE8}', [0x8D, 0xE7]), ('\u{6EE9}', [0x8D, 0xE8]), ('\u{6EEB}', [0xE2, 0xAA]), ";
"    ('\u{6EEC}', [0xBA, 0xAD]), ('\u{6EED}', [0xE2, 0x7D]), ('\u{6EEE}', [0xE2, 0xA4]), ";
"    ('\u{6EEF}', [0xBA, 0xA2]), ('\u{6EF1}', [0xE2, 0x6E]), ('\u{6EF2}', [0xBA, 0xAF]), ";
"    ('\u{6EF4}', [0xBA, 0x77]), ('\u{6EF5}', [0xE2, 0x6D]), ('\u{6EF6}', [0xE2, 0xB0]), ";
"    ('\u{6EF7}', [0xBA, 0xB1]), ('\u{6EF8}', [0xE2, 0x71]), ('\u{6EF9}', [0xE2, 0xA3]), ";
"    ('\u{6EFA}', [0xFD, 0xC7]), ('\u{6EFB}', [0xE2, 0x73]), ('\u{6EFC}', [0xE2, 0xB3]), ";
"    ('\u{6EFD}', [0xE2, 0xAF]), ('\u{6EFE}', [0xBA, 0x75]), ('\u{6EFF}', [0xBA, 0xA1]), ";
"    ('\u{6F00}', [0xE6, 0x53]), ('\u{6F01}', [0xBA, 0xAE]), ('\u{6F02}', [0xBA, 0x7D]), ";
"    ('\u{6F03}', [0xE2, 0x6F]), ('\u{6F04}', [0xFD, 0xB0]), ('\u{6F05}', [0xE2, 0xAE]), ";
"    ('\u{6F06}', [0xBA, 0xA3]), ('\u{6F07}', [0xE2, 0xAB]), ('\u{6F08}', [0xE2, 0xB8]), ";
"    ('\u{6F09}', [0xE2, 0x75]), ('\u{6F0A}', [0xE2, 0x7E]), ('\u{6F0B}', [0x94, 0x45]), ";
"    ('\u{6F0C}', [0x97, 0xD6]), ('\u{6F0D}', [0xE2, 0xB6]), ('\u{6F0E}', [0xE2, 0xAC]), ";
"    ('\u{6F0F}', [0xBA, 0x7C]), ('\u{6F12}', [0xE2, 0x7C]), ('\u{6F13}', [0xBA, 0x76]), ";
"    ('\u{6F14}', [0xBA, 0x74]), ('\u{6F15}', [0xBA, 0xA8]), ('\u{6F16}', [0xFC, 0xC6]), ";
"    ('\u{6F17}', [0x98, 0x44]), ('\u{6F18}', [0xE2, 0x7A]), ('\u{6F19}', [0xE2, 0x77]), ";
"    ('\u{6F1A}', [0xE2, 0x78]), ('\u{6F1C}', [0xE2, 0xB2]), ('\u{6F1E}', [0xE2, 0xB7]), ";
"    ('\u{6F1F}', [0xE2, 0xB5]), ('\u{6F20}', [0xBA, 0x7A]), ('\u{6F21}', [0xE2, 0xB9]), ";
"    ('\u{6F22}', [0xBA, 0x7E]), ('\u{6F23}', [0xBA, 0xA7]), ('\u{6F24}', [0x8D, 0xE9]), ";
"    ('\u{6F25}', [0xE2, 0x70]), ('\u{6F26}', [0xE5, 0xFA]), ('\u{6F27}', [0xE2, 0x79]), ";
"    ('\u{6F29}', [0xBA, 0x78]), ('\u{6F2A}', [0xBA, 0xAC]), ('\u{6F2B}', [0xBA, 0xA9]), ";
"    ('\u{6F2C}', [0xBA, 0x7B]), ('\u{6F2D}', [0xE2, 0xA5]), ('\u{6F2E}', [0xE2, 0x74]), ";
"    ('\u{6F2F}', [0xBA, 0xAA]), ('\u{6F30}', [0xE2, 0xA7]), ('\u{6F31}', [0xBA, 0xA4]), ";
"    ('\u{6F32}', [0xBA, 0xA6]), ('\u{6F33}', [0xBA, 0x73]), ('\u{6F34}', [0x8D, 0xEA]), ";
"    ('\u{6F35}', [0xE2, 0xA9]), ('\u{6F36}', [0xE2, 0xA1]), ('\u{6F37}', [0xE2, 0x72]), ";
"    ('\u{6F38}', [0xBA, 0xA5]), ('\u{6F39}', [0xE2, 0xB1]), ('\u{6F3A}', [0xE2, 0xB4]), ";
"    ('\u{6F3B}', [0xE2, 0x7B]), ('\u{6F3C}', [0xE2, 0xA8]), ('\u{6F3D}', [0xFE, 0x50]), ";
"    ('\u{6F3E}', [0xBA, 0x79]), ('\u{6F3F}', [0xBC, 0xDF]), ('\u{6F40}', [0xE2, 0xA6]), ";
"    ('\u{6F41}', [0xE5, 0xF9]), ('\u{6F43}', [0xE2, 0xAD]), ('\u{6F44}', [0xFD, 0xCC]), ";
"    ('\u{6F4E}', [0xE2, 0x76]), ('\u{6F4F}', [0xE6, 0x44]), ('\u{6F50}', [0xE6, 0x4E]), ";
"    ('\u{6F51}', [0xBC, 0xE2]), ('\u{6F52}', [0xE6, 0x4D]), ('\u{6F53}', [0xE6, 0x59]), ";
"    ('\u{6F54}', [0xBC, 0xE4]), ('\u{6F55}', [0xE6, 0x4B]), ('\u{6F56}', [0x9D, 0xA7]), ";
"    ('\u{6F57}', [0xE6, 0x4F]), ('\u{6F58}', [0xBC, 0xEF]), ('\u{6F5A}', [0xE6, 0x46]), ";
"    ('\u{6F5B}', [0xBC, 0xE7]), ('\u{6F5C}', [0xFD, 0xCD]), ('\u{6F5D}', [0xE6, 0x52]), ";
"    ('\u{6F5E}', [0xE9, 0xF0]), ('\u{6F5F}', [0xBC, 0xF3]), ('\u{6F60}', [0xBC, 0xF2]), ";
"    ('\u{6F61}', [0xE6, 0x54]), ('\u{6F62}', [0xE6, 0x43]), ('\u{6F63}', [0xE6, 0x5E]), ";
"    ('\u{6F64}', [0xBC, 0xED]), ('\u{6F66}', [0xBC, 0xE3]), ('\u{6F67}', [0xE6, 0x57]), ";
"    ('\u{6F69}', [0xE6, 0x5B]), ('\u{6F6A}', [0xE6, 0x60]), ('\u{6F6B}', [0xE6, 0x55]), ";
"    ('\u{6F6C}', [0xE6, 0x49]), ('\u{6F6D}', [0xBC, 0xE6]), ('\u{6F6E}', [0xBC, 0xE9]), ";
"    ('\u{6F6F}', [0xBC, 0xF1]), ('\u{6F70}', [0xBC, 0xEC]), ('\u{6F72}', [0xE6, 0x4C]), ";
"    ('\u{6F73}', [0xE2, 0xA2]), ('\u{6F74}', [0xFD, 0xCF]), ('\u{6F76}', [0xE6, 0x48]), ";
"    ('\u{6F77}', [0xE6, 0x5F]), ('\u{6F78}', [0xBC, 0xE8]), ('\u{6F79}', [0x95, 0xD2]), ";
"    ('\u{6F7A}', [0xBC, 0xEB]), ('\u{6F7B}', [0xE6, 0x61]), ('\u{6F7C}', [0xBC, 0xE0]), ";
"    ('\u{6F7D}', [0xE6, 0x56]), ('\u{6F7E}', [0xE5, 0xFB]), ('\u{6F7F}', [0xE6, 0x5C]), ";
"    ('\u{6F80}', [0xC0, 0xDF]), ('\u{6F81}', [0x8D, 0xED]), ('\u{6F82}', [0xE6, 0x4A]), ";
"    ('\u{6F84}', [0xBC, 0xE1]), ('\u{6F85}', [0xE6, 0x45]), ('\u{6F86}', [0xBC, 0xE5]), ";
"    ('\u{6F87}', [0xE5, 0xFC]), ('\u{6F88}', [0xBA, 0xAB]), ('\u{6F89}', [0xE6, 0x41]), ";
"    ('\u{6F8A}', [0xFC, 0xBA]), ('\u{6F8B}', [0xE6, 0x5A]), ('\u{6F8C}', [0xE6, 0x42]), ";
"    ('\u{6F8D}', [0xE6, 0x40]), ('\u{6F8E}', [0xBC, 0xEA]), ('\u{6F90}', [0xE6, 0x58]), ";
"    ('\u{6F92}', [0xE5, 0xFE]), ('\u{6F93}', [0xE6, 0x51]), ('\u{6F94}', [0xE6, 0x50]), ";
"    ('\u{6F95}', [0xE6, 0x5D]), ('\u{6F96}', [0xE6, 0x47]), ('\u{6F97}', [0xBC, 0xEE]), ";
"    ('\u{6F9D}', [0xFD, 0xC5]), ('\u{6F9E}', [0xE9, 0xF3]), ('\u{6F9F}', [0xFD, 0xD2]), ";
"    ('\u{6FA0}', [0xBF, 0x49]), ('\u{6FA1}', [0xBE, 0xFE]), ('\u{6FA2}', [0xEA, 0x40]), ";
"    ('\u{6FA3}', [0xE9, 0xEB]), ('\u{6FA4}', [0xBF, 0x41]), ('\u{6FA5}', [0xE9, 0xF7]), ";
"    ('\u{6FA6}', [0xBF, 0x48]), ('\u{6FA7}', [0xBF, 0x43]), ('\u{6FA8}', [0xE9, 0xF5]), ";
"    ('\u{6FA9}', [0xED, 0x4F]), ('\u{6FAA}', [0xE9, 0xFB]), ('\u{6FAB}', [0xEA, 0x42]), ";
"    ('\u{6FAC}', [0xE9, 0xFA]), ('\u{6FAD}', [0xE9, 0xE9]), ('\u{6FAE}', [0xE9, 0xF8]), ";
"    ('\u{6FAF}', [0xEA, 0x44]), ('\u{6FB0}', [0xEA, 0x46]), ('\u{6FB1}', [0xBE, 0xFD]), ";
"    ('\u{6FB2}', [0xEA, 0x45]), ('\u{6FB3}', [0xBF, 0x44]), ('\u{6FB4}', [0xBF, 0x4A]), ";
"    ('\u{6FB5}', [0x9C, 0xDC]), ('\u{6FB6}', [0x9B, 0xF6]), ('\u{6FB8}', [0xE9, 0xFE]), ";
"    ('\u{6FB9}', [0xBF, 0x46]), ('\u{6FBA}', [0xE9, 0xF9]), ('\u{6FBB}', [0x95, 0xCF]), ";
"    ('\u{6FBC}', [0xE9, 0xED]), ('\u{6FBD}', [0xE9, 0xF2]), ('\u{6FBE}', [0x8D, 0xEE]), ";
"    ('\u{6FBF}', [0xE9, 0xFD]), ('\u{6FC0}', [0xBF, 0x45]), ('\u{6FC1}', [0xBF, 0x42]), ";
"    ('\u{6FC2}', [0xBE, 0xFC]), ('\u{6FC3}', [0xBF, 0x40]), ('\u{6FC4}', [0xE9, 0xF1]), ";
"    ('\u{6FC6}', [0xE5, 0xFD]), ('\u{6FC7}', [0xE9, 0xEC]), ('\u{6FC8}', [0xE9, 0xEF]), ";
"    ('\u{6FC9}', [0xEA, 0x41]), ('\u{6FCA}', [0xE9, 0xF4]), ('\u{6FCB}', [0xE9, 0xEA]), ";
"    ('\u{6FCC}', [0xED, 0x4E]), ('\u{6FCD}', [0xEA, 0x43]), ('\u{6FCE}', [0xE9, 0xEE]), ";
"    ('\u{6FCF}', [0xE9, 0xFC]), ('\u{6FD3}', [0xFD, 0xD4]), ('\u{6FD4}', [0xED, 0x51]), ";
"    ('\u{6FD5}', [0xC0, 0xE3]), ('\u{6FD8}', [0xC0, 0xD7]), ('\u{6FD9}', [0x96, 0xEC]), ";
"    ('\u{6FDA}', [0x96, 0xEB]), ('\u{6FDB}', [0xC0, 0xDB]), ('\u{6FDC}', [0xED, 0x53]), ";
"    ('\u{6FDD}', [0xED, 0x59]), ('\u{6FDE}', [0xED, 0x57]), ('\u{6FDF}', [0xC0, 0xD9]), ";
"    ('\u{6FE0}', [0xC0, 0xDA]), ('\u{6FE1}', [0xC0, 0xE1]), ('\u{6FE2}', [0xED, 0x5A]), ";
"    ('\u{6FE3}', [0xED, 0x52]), ('\u{6FE4}', [0xC0, 0xDC]), ('\u{6FE6}', [0xED, 0x56]), ";
"    ('\u{6FE7}', [0xED, 0x55]), ('\u{6FE8}', [0xED, 0x5B]), ('\u{6FE9}', [0xC0, 0xE2]), ";
"    ('\u{6FEB}', [0xC0, 0xDD]), ('\u{6FEC}', [0xC0, 0xE0]), ('\u{6FED}', [0xED, 0x54]), ";
"    ('\u{6FEE}', [0xC0, 0xE4]), ('\u{6FEF}', [0xC0, 0xDE]), ('\u{6FF0}', [0xC0, 0xE5]), ";
"    ('\u{6FF1}', [0xC0, 0xD8]), ('\u{6FF2}', [0xED, 0x58]), ('\u{6FF4}', [0xED, 0x50]), ";
"    ('\u{6FF6}', [0x90, 0xB6]), ('\u{6FF7}', [0xEF, 0xF7]), ('\u{6FF8}', [0xFD, 0xC3]), ";
"    ('\u{6FFA}', [0xC2, 0x71]), ('\u{6FFB}', [0xEF, 0xF4]), ('\u{6FFC}', [0xEF, 0xF6]), ";
"    ('\u{6FFE}', [0xC2, 0x6F]), ('\u{6FFF}', [0xEF, 0xF2]), ('\u{7000}', [0xEF, 0xF3]), ";
"    ('\u{7001}', [0xEF, 0xEE]), ('\u{7003}', [0x98, 0xAB]), ('\u{7004}', [0xE9, 0xF6]), ";
"    ('\u{7005}', [0xEF, 0xEF]), ('\u{7006}', [0xC2, 0x70]), ('\u{7007}', [0xEF, 0xEB]), ";
"    ('\u{7009}', [0xC2, 0x6D]), ('\u{700A}', [0xEF, 0xF8]), ('\u{700B}', [0xC2, 0x6E]), ";
"    ('\u{700C}', [0xEF, 0xEC]), ('\u{700D}', [0xEF, 0xED]), ('\u{700E}', [0xEF, 0xF1]), ";
"    ('\u{700F}', [0xC2, 0x73]), ('\u{7011}', [0xC2, 0x72]), ('\u{7014}', [0xEF, 0xF0]), ";
"    ('\u{7015}', [0xC3, 0x78]), ('\u{7016}', [0xF2, 0x5F]), ('\u{7017}', [0xF2, 0x65]), ";
"    ('\u{7018}', [0xC3, 0x79]), ('\u{7019}', [0xF2, 0x5C]), ('\u{701A}', [0xC3, 0x76]), ";
"    ('\u{701B}', [0xC3, 0x73]), ('\u{701C}', [0xF2, 0x67]), ('\u{701D}', [0xC3, 0x77]), ";
"    ('\u{701E}', [0x96, 0xED]), ('\u{701F}', [0xC3, 0x74]), ('\u{7020}', [0xF2, 0x5E]), ";
"    ('\u{7021}', [0xF2, 0x61]), ('\u{7022}', [0xF2, 0x62]), ('\u{7023}', [0xF2, 0x63]), ";
"    ('\u{7024}', [0xF2, 0x66]), ('\u{7026}', [0xEF, 0xF5]), ('\u{7027}', [0xF2, 0x5D]), ";
"    ('\u{7028}', [0xC3, 0x75]), ('\u{7029}', [0xF2, 0x64]), ('\u{702A}', [0xF2, 0x68]), ";
"    ('\u{702B}', [0xF2, 0x60]), ('\u{702C}', [0x8D, 0xF4]), ('\u{702F}', [0xF4, 0x5D]), ";
"    ('\u{7030}', [0xC4, 0x6A]), ('\u{7031}', [0xF4, 0x60]), ('\u{7032}', [0xC4, 0x6B]), ";
"    ('\u{7033}', [0xF4, 0x68]), ('\u{7034}', [0xF4, 0x5F]), ('\u{7035}', [0xF4, 0x5C]), ";
"    ('\u{7037}', [0xF4, 0x5E]), ('\u{7038}', [0xF4, 0x62]), ('\u{7039}', [0xF4, 0x65]), ";
"    ('\u{703A}', [0xF4, 0x64]), ('\u{703B}', [0xF4, 0x67]), ('\u{703C}', [0xF4, 0x5B]), ";
"    ('\u{703E}', [0xC4, 0x69]), ('\u{703F}', [0xF4, 0x63]), ('\u{7040}', [0xF4, 0x66]), ";
"    ('\u{7041}', [0xF4, 0x69]), ('\u{7042}', [0xF4, 0x61]), ('\u{7043}', [0xF5, 0xD3]), ";
"    ('\u{7044}', [0xF5, 0xD4]), ('\u{7045}', [0xF5, 0xD8]), ('\u{7046}', [0xF5, 0xD9]), ";
"    ('\u{7048}', [0xF5, 0xD6]), ('\u{7049}', [0xF5, 0xD7]), ('\u{704A}', [0xF5, 0xD5]), ";
"    ('\u{704B}', [0xFD, 0xE0]), ('\u{704C}', [0xC4, 0xE9]), ('\u{704D}', [0x8C, 0x67]), ";
"    ('\u{7050}', [0x8D, 0xF6]), ('\u{7051}', [0xC5, 0x78]), ('\u{7052}', [0xF6, 0xEB]), ";
"    ('\u{7054}', [0x8D, 0xF7]), ('\u{7055}', [0xF6, 0xE8]), ('\u{7056}', [0xF6, 0xE9]), ";
"    ('\u{7057}', [0xF6, 0xEA]), ('\u{7058}', [0xC5, 0x79]), ('\u{705A}', [0xF7, 0xE5]), ";
"    ('\u{705B}', [0xF7, 0xE4]), ('\u{705C}', [0x8F, 0xFA]), ('\u{705D}', [0xF8, 0xAF]), ";
"    ('\u{705E}', [0xC5, 0xF4]), ('\u{705F}', [0xF8, 0xAD]), ('\u{7060}', [0xF8, 0xB0]), ";
"    ('\u{7061}', [0xF8, 0xAE]), ('\u{7062}', [0xF8, 0xF5]), ('\u{7063}', [0xC6, 0x57]), ";
"    ('\u{7064}', [0xC6, 0x65]), ('\u{7065}', [0xF9, 0xA3]), ('\u{7066}', [0xF9, 0x6C]), ";
"    ('\u{7067}', [0x97, 0xD0]), ('\u{7068}', [0xF9, 0xA2]), ('\u{7069}', [0xF9, 0xD0]), ";
"    ('\u{706A}', [0xF9, 0xD1]), ('\u{706B}', [0xA4, 0xF5]), ('\u{706C}', [0x8B, 0xD2]), "
].
(* /repo/src/generated/whatwg/big5_whatwg_tables.rs.inc:5121-5376 *)
Definition big5_inc_20 : list line := [
"    ('\u{706E}', [0x87, 0xDE]), ('\u{706F}', [0x8D, 0xF8]), ('\u{7070}', [0xA6, 0xC7]), ";
"    ('\u{7071}', [0xCA, 0x41]), ('\u{7074}', [0xCB, 0x5E]), ('\u{7075}', [0x90, 0xD9]), ";
"    ('\u{7076}', [0xA8, 0x5F]), ('\u{7077}', [0x8C, 0x47]), ('\u{7078}', [0xA8, 0x62]), ";
"    ('\u{7079}', [0xFA, 0xF0]), ('\u{707A}', [0xCB, 0x5F]), ('\u{707C}', [0xA8, 0x60]), ";
"    ('\u{707D}', [0xA8, 0x61]), ('\u{707E}', [0xFD, 0xE1]), ('\u{707F}', [0x8D, 0xF9]), ";
"    ('\u{7081}', [0xFD, 0xE3]), ('\u{7082}', [0xCD, 0x58]), ('\u{7083}', [0xCD, 0x5A]), ";
"    ('\u{7084}', [0xCD, 0x55]), ('\u{7085}', [0xCD, 0x52]), ('\u{7086}', [0xCD, 0x54]), ";
"    ('\u{7089}', [0x8D, 0xFA]), ('\u{708A}', [0xAA, 0xA4]), ('\u{708B}', [0xFB, 0x63]), ";
"    ('\u{708E}', [0xAA, 0xA2]), ('\u{708F}', [0x90, 0xA6]), ('\u{7091}', [0xCD, 0x56]), ";
"    ('\u{7092}', [0xAA, 0xA3]), ('\u{7093}', [0xCD, 0x53]), ('\u{7094}', [0xCD, 0x50]), ";
"    ('\u{7095}', [0xAA, 0xA1]), ('\u{7096}', [0xCD, 0x57]), ('\u{7098}', [0xCD, 0x51]), ";
"    ('\u{7099}', [0xAA, 0xA5]), ('\u{709A}', [0xCD, 0x59]), ('\u{709F}', [0xCF, 0xAF]), ";
"    ('\u{70A0}', [0x99, 0x70]), ('\u{70A1}', [0xCF, 0xB3]), ('\u{70A3}', [0x91, 0xEB]), ";
"    ('\u{70A4}', [0xAC, 0xB7]), ('\u{70A5}', [0x97, 0x70]), ('\u{70A6}', [0x98, 0x6F]), ";
"    ('\u{70A7}', [0xFD, 0xE2]), ('\u{70A9}', [0xCF, 0xB6]), ('\u{70AB}', [0xAC, 0xAF]), ";
"    ('\u{70AC}', [0xAC, 0xB2]), ('\u{70AD}', [0xAC, 0xB4]), ('\u{70AE}', [0xAC, 0xB6]), ";
"    ('\u{70AF}', [0xAC, 0xB3]), ('\u{70B0}', [0xCF, 0xB2]), ('\u{70B1}', [0xCF, 0xB1]), ";
"    ('\u{70B3}', [0xAC, 0xB1]), ('\u{70B4}', [0xCF, 0xB4]), ('\u{70B5}', [0xCF, 0xB5]), ";
"    ('\u{70B7}', [0xCF, 0xAE]), ('\u{70B8}', [0xAC, 0xB5]), ('\u{70B9}', [0x98, 0xF2]), ";
"    ('\u{70BA}', [0xAC, 0xB0]), ('\u{70BB}', [0x9A, 0xFC]), ('\u{70BC}', [0x89, 0x6C]), ";
"    ('\u{70BD}', [0xFD, 0xFD]), ('\u{70BE}', [0xCF, 0xB0]), ('\u{70C0}', [0x99, 0x5E]), ";
"    ('\u{70C4}', [0x95, 0xBD]), ('\u{70C5}', [0xD2, 0x77]), ('\u{70C6}', [0xD2, 0x78]), ";
"    ('\u{70C7}', [0xD2, 0x79]), ('\u{70C8}', [0xAF, 0x50]), ('\u{70CA}', [0xAF, 0x4C]), ";
"    ('\u{70CB}', [0xD2, 0x6E]), ('\u{70CC}', [0xFD, 0xE4]), ('\u{70CD}', [0xD2, 0x76]), ";
"    ('\u{70CE}', [0xD2, 0x7B]), ('\u{70CF}', [0xAF, 0x51]), ('\u{70D0}', [0x91, 0xE6]), ";
"    ('\u{70D1}', [0xD2, 0x6C]), ('\u{70D2}', [0xD2, 0x72]), ('\u{70D3}', [0xD2, 0x6B]), ";
"    ('\u{70D4}', [0xD2, 0x75]), ('\u{70D5}', [0xFD, 0xE5]), ('\u{70D6}', [0xFD, 0xE6]), ";
"    ('\u{70D7}', [0xD2, 0x71]), ('\u{70D8}', [0xAF, 0x4D]), ('\u{70D9}', [0xAF, 0x4F]), ";
"    ('\u{70DA}', [0xD2, 0x7A]), ('\u{70DC}', [0xD2, 0x6A]), ('\u{70DD}', [0xD2, 0x6D]), ";
"    ('\u{70DE}', [0xD2, 0x73]), ('\u{70DF}', [0xFD, 0xE7]), ('\u{70E0}', [0xD2, 0x74]), ";
"    ('\u{70E1}', [0xD2, 0x7C]), ('\u{70E2}', [0xD2, 0x70]), ('\u{70E4}', [0xAF, 0x4E]), ";
"    ('\u{70EF}', [0xB2, 0x6D]), ('\u{70F0}', [0xD6, 0x4E]), ('\u{70F1}', [0x94, 0x54]), ";
"    ('\u{70F3}', [0xD6, 0x50]), ('\u{70F4}', [0xD6, 0x4C]), ('\u{70F5}', [0x99, 0xB8]), ";
"    ('\u{70F6}', [0xD6, 0x58]), ('\u{70F7}', [0xD6, 0x4A]), ('\u{70F8}', [0xD6, 0x57]), ";
"    ('\u{70F9}', [0xB2, 0x69]), ('\u{70FA}', [0xD6, 0x48]), ('\u{70FB}', [0xDA, 0x5B]), ";
"    ('\u{70FC}', [0xD6, 0x52]), ('\u{70FD}', [0xB2, 0x6C]), ('\u{70FE}', [0x97, 0xE9]), ";
"    ('\u{70FF}', [0xD6, 0x53]), ('\u{7100}', [0xD6, 0x56]), ('\u{7102}', [0xD6, 0x5A]), ";
"    ('\u{7104}', [0xD6, 0x4F]), ('\u{7105}', [0x93, 0x46]), ('\u{7106}', [0xD6, 0x54]), ";
"    ('\u{7109}', [0xB2, 0x6A]), ('\u{710A}', [0xB2, 0x6B]), ('\u{710B}', [0xD6, 0x59]), ";
"    ('\u{710C}', [0xD6, 0x4D]), ('\u{710D}', [0xD6, 0x49]), ('\u{710E}', [0xD6, 0x5B]), ";
"    ('\u{7110}', [0xD6, 0x51]), ('\u{7113}', [0xD6, 0x55]), ('\u{7117}', [0xD6, 0x4B]), ";
"    ('\u{7119}', [0xB5, 0x48]), ('\u{711A}', [0xB5, 0x49]), ('\u{711B}', [0xDA, 0x65]), ";
"    ('\u{711C}', [0xB5, 0x4F]), ('\u{711D}', [0x98, 0x63]), ('\u{711E}', [0xDA, 0x59]), ";
"    ('\u{711F}', [0xDA, 0x62]), ('\u{7120}', [0xDA, 0x58]), ('\u{7121}', [0xB5, 0x4C]), ";
"    ('\u{7122}', [0xDA, 0x60]), ('\u{7123}', [0xDA, 0x5E]), ('\u{7125}', [0xDA, 0x5F]), ";
"    ('\u{7126}', [0xB5, 0x4A]), ('\u{7128}', [0xDA, 0x63]), ('\u{7129}', [0x95, 0xBC]), ";
"    ('\u{712B}', [0xFD, 0xED]), ('\u{712C}', [0xFD, 0xF7]), ('\u{712E}', [0xDA, 0x5C]), ";
"    ('\u{712F}', [0xDA, 0x5A]), ('\u{7130}', [0xB5, 0x4B]), ('\u{7131}', [0xDA, 0x5D]), ";
"    ('\u{7132}', [0xDA, 0x61]), ('\u{7133}', [0x98, 0x70]), ('\u{7134}', [0x96, 0xF6]), ";
"    ('\u{7135}', [0x8E, 0xA9]), ('\u{7136}', [0xB5, 0x4D]), ('\u{713A}', [0xDA, 0x64]), ";
"    ('\u{713B}', [0x94, 0x51]), ('\u{713E}', [0x8E, 0x43]), ('\u{7140}', [0x8B, 0x5A]), ";
"    ('\u{7141}', [0xDE, 0x70]), ('\u{7142}', [0xDE, 0x77]), ('\u{7143}', [0xDE, 0x79]), ";
"    ('\u{7144}', [0xDE, 0xA1]), ('\u{7145}', [0xFD, 0xEE]), ('\u{7146}', [0xB7, 0xDA]), ";
"    ('\u{7147}', [0xDE, 0x6B]), ('\u{7149}', [0xB7, 0xD2]), ('\u{714A}', [0xFD, 0xF0]), ";
"    ('\u{714B}', [0xDE, 0x7A]), ('\u{714C}', [0xB7, 0xD7]), ('\u{714D}', [0xDE, 0xA2]), ";
"    ('\u{714E}', [0xB7, 0xCE]), ('\u{714F}', [0xFD, 0xF4]), ('\u{7150}', [0xDE, 0x7D]), ";
"    ('\u{7151}', [0x9B, 0xF5]), ('\u{7152}', [0xDE, 0x6D]), ('\u{7153}', [0xDE, 0x7E]), ";
"    ('\u{7154}', [0xDE, 0x6C]), ('\u{7156}', [0xB7, 0xDC]), ('\u{7157}', [0x8C, 0xEE]), ";
"    ('\u{7158}', [0xDE, 0x78]), ('\u{7159}', [0xB7, 0xCF]), ('\u{715A}', [0xDE, 0xA3]), ";
"    ('\u{715C}', [0xB7, 0xD4]), ('\u{715D}', [0xDE, 0x71]), ('\u{715E}', [0xB7, 0xD9]), ";
"    ('\u{715F}', [0xDE, 0x7C]), ('\u{7160}', [0xDE, 0x6F]), ('\u{7161}', [0xDE, 0x76]), ";
"    ('\u{7162}', [0xA0, 0xDF]), ('\u{7163}', [0xDE, 0x6E]), ('\u{7164}', [0xB7, 0xD1]), ";
"    ('\u{7165}', [0xB7, 0xD8]), ('\u{7166}', [0xB7, 0xD6]), ('\u{7167}', [0xB7, 0xD3]), ";
"    ('\u{7168}', [0xB7, 0xDB]), ('\u{7169}', [0xB7, 0xD0]), ('\u{716A}', [0xDE, 0x75]), ";
"    ('\u{716B}', [0x97, 0x7E]), ('\u{716C}', [0xB7, 0xD5]), ('\u{716E}', [0xB5, 0x4E]), ";
"    ('\u{7170}', [0xDE, 0x7B]), ('\u{7171}', [0x9B, 0xD5]), ('\u{7172}', [0xDE, 0x73]), ";
"    ('\u{7173}', [0x9A, 0xC3]), ('\u{7175}', [0x97, 0xC8]), ('\u{7176}', [0xA0, 0xDB]), ";
"    ('\u{7177}', [0x91, 0xD0]), ('\u{7178}', [0xDE, 0x74]), ('\u{717A}', [0x9F, 0xE4]), ";
"    ('\u{717B}', [0xE2, 0xC1]), ('\u{717C}', [0x8F, 0xDD]), ('\u{717D}', [0xBA, 0xB4]), ";
"    ('\u{717E}', [0x91, 0xE9]), ('\u{7180}', [0xE2, 0xBD]), ('\u{7181}', [0xE2, 0xC3]), ";
"    ('\u{7182}', [0xE2, 0xBF]), ('\u{7184}', [0xBA, 0xB6]), ('\u{7185}', [0xE2, 0xBE]), ";
"    ('\u{7186}', [0xE2, 0xC2]), ('\u{7187}', [0xE2, 0xBA]), ('\u{7188}', [0x98, 0xE0]), ";
"    ('\u{7189}', [0xE2, 0xBC]), ('\u{718A}', [0xBA, 0xB5]), ('\u{718C}', [0x92, 0xCA]), ";
"    ('\u{718E}', [0x98, 0x57]), ('\u{718F}', [0xE2, 0xC0]), ('\u{7190}', [0xE2, 0xBB]), ";
"    ('\u{7191}', [0x8C, 0x51]), ('\u{7192}', [0xBA, 0xB7]), ('\u{7194}', [0xBA, 0xB2]), ";
"    ('\u{7196}', [0xFD, 0xEB]), ('\u{7197}', [0xE2, 0xC4]), ('\u{7198}', [0x9B, 0x49]), ";
"    ('\u{7199}', [0xBA, 0xB3]), ('\u{719A}', [0xE6, 0x67]), ('\u{719B}', [0xE6, 0x64]), ";
"    ('\u{719C}', [0xE6, 0x70]), ('\u{719D}', [0xE6, 0x6A]), ('\u{719E}', [0xE6, 0x6C]), ";
"    ('\u{719F}', [0xBC, 0xF4]), ('\u{71A0}', [0xE6, 0x66]), ('\u{71A1}', [0xE6, 0x6E]), ";
"    ('\u{71A2}', [0x9D, 0x76]), ('\u{71A3}', [0x9E, 0xAF]), ('\u{71A4}', [0xE6, 0x6D]), ";
"    ('\u{71A5}', [0xE6, 0x6B]), ('\u{71A7}', [0xE6, 0x71]), ('\u{71A8}', [0xBC, 0xF7]), ";
"    ('\u{71A9}', [0xE6, 0x68]), ('\u{71AA}', [0xE6, 0x6F]), ('\u{71AC}', [0xBC, 0xF5]), ";
"    ('\u{71AD}', [0x9C, 0xCC]), ('\u{71AF}', [0xE6, 0x63]), ('\u{71B0}', [0xE6, 0x65]), ";
"    ('\u{71B1}', [0xBC, 0xF6]), ('\u{71B2}', [0xE6, 0x62]), ('\u{71B3}', [0xE6, 0x72]), ";
"    ('\u{71B4}', [0xFD, 0xEA]), ('\u{71B5}', [0xE6, 0x69]), ('\u{71B7}', [0x8D, 0xF1]), ";
"    ('\u{71B8}', [0xEA, 0x4A]), ('\u{71B9}', [0xBF, 0x51]), ('\u{71BA}', [0xFD, 0xFB]), ";
"    ('\u{71BC}', [0xEA, 0x55]), ('\u{71BD}', [0xEA, 0x53]), ('\u{71BE}', [0xBF, 0x4B]), ";
"    ('\u{71BF}', [0xEA, 0x49]), ('\u{71C0}', [0xEA, 0x4C]), ('\u{71C1}', [0xEA, 0x4D]), ";
"    ('\u{71C2}', [0xEA, 0x48]), ('\u{71C3}', [0xBF, 0x55]), ('\u{71C4}', [0xBF, 0x56]), ";
"    ('\u{71C5}', [0xEA, 0x47]), ('\u{71C6}', [0xEA, 0x56]), ('\u{71C7}', [0xEA, 0x51]), ";
"    ('\u{71C8}', [0xBF, 0x4F]), ('\u{71C9}', [0xBF, 0x4C]), ('\u{71CA}', [0xEA, 0x50]), ";
"    ('\u{71CB}', [0xEA, 0x4E]), ('\u{71CE}', [0xBF, 0x52]), ('\u{71CF}', [0xEA, 0x52]), ";
"    ('\u{71D0}', [0xBF, 0x4D]), ('\u{71D1}', [0x8E, 0x53]), ('\u{71D2}', [0xBF, 0x4E]), ";
"    ('\u{71D4}', [0xEA, 0x4F]), ('\u{71D5}', [0xBF, 0x50]), ('\u{71D6}', [0xEA, 0x4B]), ";
"    ('\u{71D8}', [0xEA, 0x54]), ('\u{71D9}', [0xBF, 0x53]), ('\u{71DA}', [0xEA, 0x57]), ";
"    ('\u{71DB}', [0xEA, 0x58]), ('\u{71DC}', [0xBF, 0x54]), ('\u{71DD}', [0xFA, 0xCF]), ";
"    ('\u{71DF}', [0x9C, 0x62]), ('\u{71E0}', [0xC0, 0xEE]), ('\u{71E1}', [0xED, 0x5C]), ";
"    ('\u{71E2}', [0xED, 0x62]), ('\u{71E4}', [0xED, 0x60]), ('\u{71E5}', [0xC0, 0xEA]), ";
"    ('\u{71E6}', [0xC0, 0xE9]), ('\u{71E7}', [0xC0, 0xE6]), ('\u{71E8}', [0xED, 0x5E]), ";
"    ('\u{71EB}', [0x96, 0xF9]), ('\u{71EC}', [0xC0, 0xEC]), ('\u{71ED}', [0xC0, 0xEB]), ";
"    ('\u{71EE}', [0xC0, 0xE8]), ('\u{71F0}', [0xED, 0x61]), ('\u{71F1}', [0xED, 0x5D]), ";
"    ('\u{71F2}', [0xED, 0x5F]), ('\u{71F4}', [0xC0, 0xED]), ('\u{71F5}', [0x98, 0xBF]), ";
"    ('\u{71F6}', [0x9E, 0x49]), ('\u{71F8}', [0xC2, 0x77]), ('\u{71F9}', [0xEF, 0xFB]), ";
"    ('\u{71FB}', [0xC2, 0x74]), ('\u{71FC}', [0xC2, 0x75]), ('\u{71FD}', [0xEF, 0xFD]), ";
"    ('\u{71FE}', [0xC2, 0x76]), ('\u{71FF}', [0xEF, 0xFA]), ('\u{7200}', [0x8C, 0xA7]), ";
"    ('\u{7201}', [0x9B, 0x76]), ('\u{7202}', [0xF2, 0x6C]), ('\u{7203}', [0xEF, 0xFC]), ";
"    ('\u{7205}', [0xF2, 0x6D]), ('\u{7206}', [0xC3, 0x7A]), ('\u{7207}', [0xF2, 0x6B]), ";
"    ('\u{7209}', [0x9B, 0xCA]), ('\u{720A}', [0xF2, 0x6A]), ('\u{720C}', [0xF2, 0x69]), ";
"    ('\u{720D}', [0xC3, 0x7B]), ('\u{720E}', [0xFD, 0xFE]), ('\u{720F}', [0x92, 0xDC]), ";
"    ('\u{7210}', [0xC4, 0x6C]), ('\u{7213}', [0xF4, 0x6A]), ('\u{7214}', [0xF4, 0x6B]), ";
"    ('\u{7215}', [0xFE, 0x41]), ('\u{7216}', [0x91, 0xCC]), ('\u{7217}', [0x91, 0xE2]), ";
"    ('\u{7219}', [0xF5, 0xDC]), ('\u{721A}', [0xF5, 0xDB]), ('\u{721B}', [0xC4, 0xEA]), ";
"    ('\u{721D}', [0xF5, 0xDA]), ('\u{721E}', [0xF6, 0xEC]), ('\u{721F}', [0xF6, 0xED]), ";
"    ('\u{7222}', [0xF7, 0xE6]), ('\u{7223}', [0xF8, 0xB1]), ('\u{7224}', [0xFE, 0x44]), ";
"    ('\u{7225}', [0x87, 0x5F]), ('\u{7226}', [0xF8, 0xF6]), ('\u{7227}', [0xF9, 0xBC]), ";
"    ('\u{7228}', [0xC6, 0x79]), ('\u{7229}', [0xF9, 0xC6]), ('\u{722A}', [0xA4, 0xF6]), ";
"    ('\u{722B}', [0x8B, 0xD3]), ('\u{722C}', [0xAA, 0xA6]), ('\u{722D}', [0xAA, 0xA7]), ";
"    ('\u{722E}', [0xFE, 0x47]), ('\u{7230}', [0xAC, 0xB8]), ('\u{7235}', [0xC0, 0xEF]), ";
"    ('\u{7236}', [0xA4, 0xF7]), ('\u{7238}', [0xAA, 0xA8]), ('\u{7239}', [0xAF, 0x52]), ";
"    ('\u{723A}', [0xB7, 0xDD]), ('\u{723B}', [0xA4, 0xF8]), ('\u{723D}', [0xB2, 0x6E]), ";
"    ('\u{723E}', [0xBA, 0xB8]), ('\u{723F}', [0xC9, 0x62]), ('\u{7240}', [0xFE, 0x48]), ";
"    ('\u{7241}', [0xCF, 0xB7]), ('\u{7242}', [0xD2, 0x7D]), ('\u{7244}', [0xE2, 0xC5]), ";
"    ('\u{7246}', [0xC0, 0xF0]), ('\u{7247}', [0xA4, 0xF9]), ('\u{7248}', [0xAA, 0xA9]), ";
"    ('\u{7249}', [0xCF, 0xB8]), ('\u{724A}', [0xCF, 0xB9]), ('\u{724B}', [0xDA, 0x66]), ";
"    ('\u{724C}', [0xB5, 0x50]), ('\u{724F}', [0xDE, 0xA4]), ('\u{7250}', [0x94, 0x55]), ";
"    ('\u{7252}', [0xB7, 0xDE]), ('\u{7253}', [0xE2, 0xC6]), ('\u{7255}', [0xFE, 0x4B]), ";
"    ('\u{7256}', [0xBC, 0xF8]), ('\u{7257}', [0xFE, 0x4C]), ('\u{7258}', [0xC3, 0x7C]), ";
"    ('\u{7259}', [0xA4, 0xFA]), ('\u{725A}', [0xDA, 0x67]), ('\u{725B}', [0xA4, 0xFB]), ";
"    ('\u{725C}', [0x8D, 0xBF]), ('\u{725D}', [0xA6, 0xC9]), ('\u{725E}', [0xCA, 0x42]), ";
"    ('\u{725F}', [0xA6, 0xC8]), ('\u{7260}', [0xA8, 0x65]), ('\u{7261}', [0xA8, 0x64]), ";
"    ('\u{7262}', [0xA8, 0x63]), ('\u{7263}', [0xCB, 0x60]), ('\u{7266}', [0x9E, 0x78]), ";
"    ('\u{7267}', [0xAA, 0xAA]), ('\u{7269}', [0xAA, 0xAB]), ('\u{726A}', [0xCD, 0x5B]), ";
"    ('\u{726C}', [0xCF, 0xBA]), ('\u{726E}', [0xCF, 0xBD]), ('\u{726F}', [0xAC, 0xBA]), ";
"    ('\u{7270}', [0xCF, 0xBB]), ('\u{7272}', [0xAC, 0xB9]), ('\u{7273}', [0xCF, 0xBC]), ";
"    ('\u{7274}', [0xAC, 0xBB]), ('\u{7276}', [0xD2, 0xA2]), ('\u{7277}', [0xD2, 0xA1]), ";
"    ('\u{7278}', [0xD2, 0x7E]), ('\u{7279}', [0xAF, 0x53]), ('\u{727B}', [0xD6, 0x5D]), ";
"    ('\u{727C}', [0xD6, 0x5E]), ('\u{727D}', [0xB2, 0x6F]), ('\u{727E}', [0xD6, 0x5C]), ";
"    ('\u{727F}', [0xD6, 0x5F]), ('\u{7280}', [0xB5, 0x52]), ('\u{7281}', [0xB2, 0x70]), ";
"    ('\u{7282}', [0xFE, 0x51]), ('\u{7284}', [0xB5, 0x51]), ('\u{7285}', [0xDA, 0x6B]), ";
"    ('\u{7286}', [0xDA, 0x6A]), ('\u{7287}', [0x94, 0x56]), ('\u{7288}', [0xDA, 0x68]), ";
"    ('\u{7289}', [0xDA, 0x69]), ('\u{728B}', [0xDA, 0x6C]), ('\u{728C}', [0xDE, 0xA6]), ";
"    ('\u{728D}', [0xDE, 0xA5]), ('\u{728E}', [0xDE, 0xA9]), ('\u{728F}', [0x9D, 0x61]), ";
"    ('\u{7290}', [0xDE, 0xA8]), ('\u{7291}', [0xDE, 0xA7]), ('\u{7292}', [0xBA, 0xB9]), ";
"    ('\u{7293}', [0xE2, 0xC9]), ('\u{7294}', [0x94, 0x57]), ('\u{7295}', [0xE2, 0xC8]), ";
"    ('\u{7296}', [0xBA, 0xBA]), ('\u{7297}', [0xE2, 0xC7]), ('\u{7298}', [0xE6, 0x73]), ";
"    ('\u{729A}', [0xE6, 0x74]), ('\u{729B}', [0xBC, 0xF9]), ('\u{729D}', [0xEA, 0x59]), ";
"    ('\u{729E}', [0xEA, 0x5A]), ('\u{729F}', [0x99, 0x66]), ('\u{72A1}', [0xF2, 0x72]), ";
"    ('\u{72A2}', [0xC3, 0x7D]), ('\u{72A3}', [0xF2, 0x71]), ('\u{72A4}', [0xF2, 0x70]), ";
"    ('\u{72A5}', [0xF2, 0x6E]), ('\u{72A6}', [0xF2, 0x6F]), ('\u{72A7}', [0xC4, 0xEB]), ";
"    ('\u{72A8}', [0xF4, 0x6C]), ('\u{72A9}', [0xF6, 0xEE]), ('\u{72AA}', [0xF8, 0xF7]), ";
"    ('\u{72AC}', [0xA4, 0xFC]), ('\u{72AD}', [0x8B, 0xD5]), ('\u{72AE}', [0xC9, 0xA5]), ";
"    ('\u{72AF}', [0xA5, 0xC7]), ('\u{72B0}', [0xC9, 0xA6]), ('\u{72B2}', [0xA0, 0x69]), ";
"    ('\u{72B4}', [0xCA, 0x43]), ('\u{72B5}', [0xCA, 0x44]), ('\u{72BA}', [0xCB, 0x66]), ";
"    ('\u{72BD}', [0xCB, 0x62]), ('\u{72BF}', [0xCB, 0x61]), ('\u{72C0}', [0xAA, 0xAC]), ";
"    ('\u{72C1}', [0xCB, 0x65]), ('\u{72C2}', [0xA8, 0x67]), ('\u{72C3}', [0xCB, 0x63]), ";
"    ('\u{72C4}', [0xA8, 0x66]), ('\u{72C5}', [0xCB, 0x67]), ('\u{72C6}', [0xCB, 0x64]), ";
"    ('\u{72C9}', [0xCD, 0x5F]), ('\u{72CA}', [0xCF, 0xBE]), ('\u{72CB}', [0xCD, 0x5D]), ";
"    ('\u{72CC}', [0xCD, 0x64]), ('\u{72CD}', [0x98, 0xB4]), ('\u{72CE}', [0xAA, 0xAD]), ";
"    ('\u{72D0}', [0xAA, 0xB0]), ('\u{72D1}', [0xCD, 0x65]), ('\u{72D2}', [0xCD, 0x61]), ";
"    ('\u{72D4}', [0xCD, 0x62]), ('\u{72D6}', [0xCD, 0x5C]), ('\u{72D7}', [0xAA, 0xAF]), ";
"    ('\u{72D8}', [0xCD, 0x5E]), ('\u{72D9}', [0xAA, 0xAE]), ('\u{72DA}', [0xCD, 0x63]), ";
"    ('\u{72DC}', [0xCD, 0x60]), ('\u{72DF}', [0xCF, 0xC2]), ('\u{72E0}', [0xAC, 0xBD]), ";
"    ('\u{72E1}', [0xAC, 0xBE]), ('\u{72E2}', [0xA0, 0x49]), ('\u{72E3}', [0xCF, 0xC5]), ";
"    ('\u{72E4}', [0xCF, 0xBF]), ('\u{72E6}', [0xCF, 0xC4]), ('\u{72E8}', [0xCF, 0xC0]), ";
"    ('\u{72E9}', [0xAC, 0xBC]), ('\u{72EA}', [0xCF, 0xC3]), ('\u{72EB}', [0xCF, 0xC1]), ";
"    ('\u{72F3}', [0xD2, 0xA8]), ('\u{72F4}', [0xD2, 0xA5]), ('\u{72F6}', [0xD2, 0xA7]), ";
"    ('\u{72F7}', [0xAF, 0x58]), ('\u{72F8}', [0xAF, 0x57]), ('\u{72F9}', [0xAF, 0x55]), ";
"    ('\u{72FA}', [0xD2, 0xA4]), ('\u{72FB}', [0xD2, 0xA9]), ('\u{72FC}', [0xAF, 0x54]), ";
"    ('\u{72FD}', [0xAF, 0x56]), ('\u{72FE}', [0xD2, 0xA6]), ('\u{72FF}', [0xD6, 0x67]), ";
"    ('\u{7300}', [0xD2, 0xA3]), ('\u{7301}', [0xD2, 0xAA]), ('\u{7302}', [0xA0, 0x4C]), ";
"    ('\u{7304}', [0x9E, 0x65]), ('\u{7307}', [0xD6, 0x62]), ('\u{7308}', [0xD6, 0x66]), ";
"    ('\u{730A}', [0xD6, 0x65]), ('\u{730B}', [0xDA, 0x6E]), ('\u{730C}', [0xDA, 0x79]), ";
"    ('\u{730F}', [0xD6, 0x68]), ('\u{7310}', [0x98, 0xB5]), ('\u{7311}', [0xD6, 0x63]), ";
"    ('\u{7312}', [0xDA, 0x6D]), ('\u{7313}', [0xB2, 0x74]), ('\u{7316}', [0xB2, 0x73]), ";
"    ('\u{7317}', [0xD6, 0x61]), ('\u{7318}', [0xD6, 0x64]), ('\u{7319}', [0xB2, 0x75]), ";
"    ('\u{731B}', [0xB2, 0x72]), ('\u{731C}', [0xB2, 0x71]), ('\u{731D}', [0xD6, 0x60]), ";
"    ('\u{731E}', [0xD6, 0x69]), ('\u{7322}', [0xDA, 0x70]), ('\u{7323}', [0xDA, 0x77]), ";
"    ('\u{7325}', [0xB5, 0x54]), ('\u{7326}', [0xDA, 0x76]), ('\u{7327}', [0xDA, 0x73]), ";
"    ('\u{7328}', [0xFE, 0x58]), ('\u{7329}', [0xB5, 0x56]), ('\u{732A}', [0x99, 0x75]), ";
"    ('\u{732B}', [0xFE, 0x53]), ('\u{732C}', [0xA0, 0x65]), ('\u{732D}', [0xDA, 0x75]), ";
"    ('\u{732E}', [0xFE, 0x59]), ('\u{7330}', [0xDA, 0x6F]), ('\u{7331}', [0xDA, 0x71]), ";
"    ('\u{7332}', [0xDA, 0x74]), ('\u{7333}', [0xDA, 0x72]), ('\u{7334}', [0xB5, 0x55]), ";
"    ('\u{7335}', [0xDA, 0x78]), ('\u{7336}', [0xB5, 0x53]), ('\u{7337}', [0xB7, 0xDF]), ";
"    ('\u{7338}', [0x98, 0xB7]), ('\u{7339}', [0x98, 0xB8]), ('\u{733A}', [0xDE, 0xAD]), ";
"    ('\u{733B}', [0xDE, 0xAC]), ('\u{733C}', [0xDE, 0xAA]), ('\u{733E}', [0xB7, 0xE2]), ";
"    ('\u{733F}', [0xB7, 0xE1]), ('\u{7340}', [0xDE, 0xAE]), ('\u{7341}', [0x98, 0xBA]), ";
"    ('\u{7342}', [0xDE, 0xAB]), ('\u{7343}', [0xE2, 0xCA]), ('\u{7344}', [0xBA, 0xBB]), ";
"    ('\u{7345}', [0xB7, 0xE0]), ('\u{7348}', [0x98, 0xBB]), ('\u{7349}', [0xDE, 0xB0]), ";
"    ('\u{734A}', [0xDE, 0xAF]), ('\u{734C}', [0xE2, 0xCD]), ('\u{734D}', [0xE2, 0xCB]), ";
"    ('\u{734E}', [0xBC, 0xFA]), ('\u{734F}', [0x9F, 0xBC]), ('\u{7350}', [0xBA, 0xBC]), ";
"    ('\u{7351}', [0xE2, 0xCC]), ('\u{7352}', [0xE6, 0x76]), ('\u{7357}', [0xBC, 0xFB]), ";
"    ('\u{7358}', [0xE6, 0x75]), ('\u{7359}', [0xE6, 0x7E]), ('\u{735A}', [0xE6, 0x7D]), ";
"    ('\u{735B}', [0xE6, 0x7B]), ('\u{735D}', [0xE6, 0x7A]), ('\u{735E}', [0xE6, 0x77]), ";
"    ('\u{735F}', [0xE6, 0x78]), ('\u{7360}', [0xE6, 0x79]), ('\u{7361}', [0xE6, 0x7C]), ";
"    ('\u{7362}', [0xE6, 0xA1]), ('\u{7365}', [0xEA, 0x5F]), ('\u{7366}', [0xEA, 0x5C]), ";
"    ('\u{7367}', [0xEA, 0x5D]), ('\u{7368}', [0xBF, 0x57]), ('\u{7369}', [0xEA, 0x5B]), ";
"    ('\u{736A}', [0xEA, 0x61]), ('\u{736B}', [0xEA, 0x60]), ('\u{736C}', [0xEA, 0x5E]), ";
"    ('\u{736E}', [0xED, 0x64]), ('\u{736F}', [0xED, 0x65]), ('\u{7370}', [0xC0, 0xF1]), ";
"    ('\u{7371}', [0xA0, 0x4A]), ('\u{7372}', [0xC0, 0xF2]), ('\u{7373}', [0xED, 0x63]), ";
"    ('\u{7374}', [0x9E, 0xC7]), ('\u{7375}', [0xC2, 0x79]), ('\u{7376}', [0xEF, 0xFE]), ";
"    ('\u{7377}', [0xC2, 0x78]), ('\u{7378}', [0xC3, 0x7E]), ('\u{737A}', [0xC3, 0xA1]), ";
"    ('\u{737B}', [0xC4, 0x6D]), ('\u{737C}', [0xF4, 0x6E]), ('\u{737D}', [0xF4, 0x6D]), ";
"    ('\u{737E}', [0xF5, 0xDD]), ('\u{737F}', [0xF6, 0xEF]), ('\u{7380}', [0xC5, 0x7A]), ";
"    ('\u{7381}', [0xF7, 0xE8]), ('\u{7382}', [0xF7, 0xE7]), ('\u{7383}', [0xF7, 0xE9]), ";
"    ('\u{7384}', [0xA5, 0xC8]), ('\u{7385}', [0xCF, 0xC6]), ('\u{7386}', [0xAF, 0x59]), ";
"    ('\u{7387}', [0xB2, 0x76]), ('\u{7388}', [0xD6, 0x6A]), ('\u{7389}', [0xA5, 0xC9]), ";
"    ('\u{738A}', [0xC9, 0xA7]), ('\u{738B}', [0xA4, 0xFD]), ('\u{738C}', [0x8C, 0xA9]), ";
"    ('\u{738E}', [0xCA, 0x45]), ('\u{738F}', [0x98, 0xAE]), ('\u{7392}', [0xCB, 0x6C]), ";
"    ('\u{7393}', [0xCB, 0x6A]), ('\u{7394}', [0xCB, 0x6B]), ('\u{7395}', [0xCB, 0x68]), ";
"    ('\u{7396}', [0xA8, 0x68]), ('\u{7397}', [0xCB, 0x69]), ('\u{7398}', [0x92, 0xD6]), ";
"    ('\u{739C}', [0xFA, 0xE1]), ('\u{739D}', [0xCD, 0x6D]), ('\u{739E}', [0x91, 0xD4]), ";
"    ('\u{739F}', [0xAA, 0xB3]), ('\u{73A0}', [0xCD, 0x6B]), ('\u{73A1}', [0xCD, 0x67]), ";
"    ('\u{73A2}', [0xCD, 0x6A]), ('\u{73A4}', [0xCD, 0x66]), ('\u{73A5}', [0xAA, 0xB5]), ";
"    ('\u{73A6}', [0xCD, 0x69]), ('\u{73A7}', [0xFA, 0xDE]), ('\u{73A8}', [0xAA, 0xB2]), ";
"    ('\u{73A9}', [0xAA, 0xB1]), ('\u{73AA}', [0xFE, 0x5B]), ('\u{73AB}', [0xAA, 0xB4]), ";
"    ('\u{73AC}', [0xCD, 0x6C]), ('\u{73AD}', [0xCD, 0x68]), ('\u{73B2}', [0xAC, 0xC2]), ";
"    ('\u{73B3}', [0xAC, 0xC5]), ('\u{73B4}', [0xCF, 0xCE]), ('\u{73B5}', [0xCF, 0xCD]), ";
"    ('\u{73B6}', [0xCF, 0xCC]), ('\u{73B7}', [0xAC, 0xBF]), ('\u{73B8}', [0xCF, 0xD5]), ";
"    ('\u{73B9}', [0xCF, 0xCB]), ('\u{73BA}', [0x8C, 0x53]), ('\u{73BB}', [0xAC, 0xC1]), ";
"    ('\u{73BC}', [0xD2, 0xAF]), ('\u{73BE}', [0xCF, 0xD2]), ('\u{73BF}', [0xCF, 0xD0]), ";
"    ('\u{73C0}', [0xAC, 0xC4]), ('\u{73C2}', [0xCF, 0xC8]), ('\u{73C3}', [0xCF, 0xD3]), ";
"    ('\u{73C4}', [0x87, 0xBF]), ('\u{73C5}', [0xCF, 0xCA]), ('\u{73C6}', [0xCF, 0xD4]), ";
"    ('\u{73C7}', [0xCF, 0xD1]), ('\u{73C8}', [0xCF, 0xC9]), ('\u{73C9}', [0xFE, 0x5E]), ";
"    ('\u{73CA}', [0xAC, 0xC0]), ('\u{73CB}', [0xCF, 0xD6]), ('\u{73CC}', [0xCF, 0xC7]), ";
"    ('\u{73CD}', [0xAC, 0xC3]), ('\u{73CE}', [0xFB, 0xD7]), ('\u{73CF}', [0xFE, 0x5A]), ";
"    ('\u{73D0}', [0x94, 0xC5]), ('\u{73D2}', [0xD2, 0xB4]), ('\u{73D3}', [0xD2, 0xAB]), ";
"    ('\u{73D4}', [0xD2, 0xB6]), ('\u{73D5}', [0xFA, 0xCA]), ('\u{73D6}', [0xD2, 0xAE]), ";
"    ('\u{73D7}', [0xD2, 0xB9]), ('\u{73D8}', [0xD2, 0xBA]), ('\u{73D9}', [0xD2, 0xAC]), ";
"    ('\u{73DA}', [0xD2, 0xB8]), ('\u{73DB}', [0xD2, 0xB5]), ('\u{73DC}', [0xD2, 0xB3]), ";
"    ('\u{73DD}', [0xD2, 0xB7]), ('\u{73DE}', [0xAF, 0x5F]), ('\u{73E0}', [0xAF, 0x5D]), ";
"    ('\u{73E1}', [0x98, 0xC1]), ('\u{73E2}', [0x97, 0x5C]), ('\u{73E3}', [0xD2, 0xB1]), ";
"    ('\u{73E4}', [0xFE, 0x74]), ('\u{73E5}', [0xD2, 0xAD]), ('\u{73E6}', [0x97, 0x73]), ";
"    ('\u{73E7}', [0xD2, 0xB0]), ('\u{73E8}', [0xD2, 0xBB]), ('\u{73E9}', [0xD2, 0xB2]), ";
"    ('\u{73EA}', [0xAF, 0x5E]), ('\u{73EB}', [0xCF, 0xCF]), ('\u{73ED}', [0xAF, 0x5A]), ";
"    ('\u{73EE}', [0xAF, 0x5C]), ('\u{73EF}', [0xFA, 0x46]), ('\u{73F3}', [0x97, 0x64]), ";
"    ('\u{73F4}', [0xD6, 0x78]), ('\u{73F5}', [0xD6, 0x6D]), ('\u{73F6}', [0xD6, 0x6B]), ";
"    ('\u{73F7}', [0xFE, 0x68]), ('\u{73F8}', [0xD6, 0x6C]), ('\u{73F9}', [0x96, 0x4E]), ";
"    ('\u{73FA}', [0xD6, 0x73]), ('\u{73FB}', [0x97, 0x65]), ('\u{73FC}', [0xD6, 0x74]), ";
"    ('\u{73FD}', [0xD6, 0x70]), ('\u{73FE}', [0xB2, 0x7B]), ('\u{73FF}', [0xD6, 0x75]), ";
"    ('\u{7400}', [0xD6, 0x72]), ('\u{7401}', [0xD6, 0x6F]), ('\u{7402}', [0x8C, 0x5A]), ";
"    ('\u{7403}', [0xB2, 0x79]), ('\u{7404}', [0xD6, 0x6E]), ('\u{7405}', [0xB2, 0x77]), ";
"    ('\u{7406}', [0xB2, 0x7A]), ('\u{7407}', [0xD6, 0x71]), ('\u{7408}', [0xD6, 0x79]), ";
"    ('\u{7409}', [0xAF, 0x5B]), ('\u{740A}', [0xB2, 0x78]), ('\u{740B}', [0xD6, 0x77]), ";
"    ('\u{740C}', [0xD6, 0x76]), ('\u{740D}', [0xB2, 0x7C]), ('\u{7411}', [0x89, 0xA1]), ";
"    ('\u{7412}', [0x95, 0xFA]), ('\u{7414}', [0x92, 0xD4]), ('\u{7415}', [0xFE, 0x69]), ";
"    ('\u{7416}', [0xDA, 0x7E]), ('\u{7417}', [0xFB, 0x45]), ('\u{7419}', [0x98, 0xC8]), ";
"    ('\u{741A}', [0xDA, 0xA1]), ('\u{741B}', [0xB5, 0x60]), ('\u{741C}', [0x90, 0xEF]), ";
"    ('\u{741D}', [0xDA, 0xA7]), ('\u{741E}', [0x98, 0xC9]), ('\u{741F}', [0x98, 0xCA]), ";
"    ('\u{7420}', [0xDA, 0xA9]), ('\u{7421}', [0xDA, 0xA2]), ('\u{7422}', [0xB5, 0x5A]), ";
"    ('\u{7423}', [0xDA, 0xA6]), ('\u{7424}', [0xDA, 0xA5]), ('\u{7425}', [0xB5, 0x5B]), ";
"    ('\u{7426}', [0xB5, 0x61]), ('\u{7428}', [0xB5, 0x62]), ('\u{7429}', [0xDA, 0xA8]), ";
"    ('\u{742A}', [0xB5, 0x58]), ('\u{742B}', [0xDA, 0x7D]), ('\u{742C}', [0xDA, 0x7B]), ";
"    ('\u{742D}', [0xDA, 0xA3]), ('\u{742E}', [0xDA, 0x7A]), ('\u{742F}', [0xB5, 0x5F]), ";
"    ('\u{7430}', [0xDA, 0x7C]), ('\u{7431}', [0xDA, 0xA4]), ('\u{7432}', [0xDA, 0xAA]), ";
"    ('\u{7433}', [0xB5, 0x59]), ('\u{7434}', [0xB5, 0x5E]), ('\u{7435}', [0xB5, 0x5C]), ";
"    ('\u{7436}', [0xB5, 0x5D]), ('\u{7437}', [0x94, 0x6D]), ('\u{7438}', [0x94, 0xB7]), "
].
(* /repo/src/generated/whatwg/big5_whatwg_tables.rs.inc:5377-5632 *)
Definition big5_inc_21 : list line := [
"    ('\u{7439}', [0xFE, 0x6C]), ('\u{743A}', [0xB5, 0x57]), ('\u{743C}', [0x94, 0x6B]), ";
"    ('\u{743F}', [0xB7, 0xE9]), ('\u{7440}', [0xDE, 0xB7]), ('\u{7441}', [0xB7, 0xE8]), ";
"    ('\u{7442}', [0xDE, 0xBB]), ('\u{7443}', [0x92, 0xFC]), ('\u{7444}', [0xDE, 0xB1]), ";
"    ('\u{7445}', [0x95, 0xEB]), ('\u{7446}', [0xDE, 0xBC]), ('\u{7447}', [0xFE, 0x73]), ";
"    ('\u{7448}', [0x97, 0x6E]), ('\u{7449}', [0xFE, 0x5F]), ('\u{744A}', [0xDE, 0xB2]), ";
"    ('\u{744B}', [0xDE, 0xB3]), ('\u{744C}', [0x87, 0xB8]), ('\u{744D}', [0xDE, 0xBD]), ";
"    ('\u{744E}', [0xDE, 0xBA]), ('\u{744F}', [0xDE, 0xB8]), ('\u{7450}', [0xDE, 0xB9]), ";
"    ('\u{7451}', [0xDE, 0xB5]), ('\u{7452}', [0xDE, 0xB4]), ('\u{7453}', [0xFD, 0xBD]), ";
"    ('\u{7454}', [0xDE, 0xBE]), ('\u{7455}', [0xB7, 0xE5]), ('\u{7456}', [0x92, 0xD5]), ";
"    ('\u{7457}', [0xDE, 0xB6]), ('\u{7459}', [0xB7, 0xEA]), ('\u{745A}', [0xB7, 0xE4]), ";
"    ('\u{745B}', [0xB7, 0xEB]), ('\u{745C}', [0xB7, 0xEC]), ('\u{745D}', [0xFE, 0xB9]), ";
"    ('\u{745E}', [0xB7, 0xE7]), ('\u{745F}', [0xB7, 0xE6]), ('\u{7460}', [0xFE, 0x71]), ";
"    ('\u{7461}', [0x87, 0x78]), ('\u{7462}', [0xE2, 0xCE]), ('\u{7463}', [0xBA, 0xBE]), ";
"    ('\u{7464}', [0xBA, 0xBD]), ('\u{7465}', [0xFB, 0xBB]), ('\u{7467}', [0xE2, 0xD3]), ";
"    ('\u{7468}', [0x94, 0x7A]), ('\u{7469}', [0xBC, 0xFC]), ('\u{746A}', [0xBA, 0xBF]), ";
"    ('\u{746B}', [0x95, 0xFB]), ('\u{746C}', [0xFE, 0x77]), ('\u{746D}', [0xBA, 0xC1]), ";
"    ('\u{746E}', [0xE2, 0xD4]), ('\u{746F}', [0xB7, 0xE3]), ('\u{7470}', [0xBA, 0xC0]), ";
"    ('\u{7471}', [0xE2, 0xD0]), ('\u{7472}', [0xE2, 0xD2]), ('\u{7473}', [0xE2, 0xCF]), ";
"    ('\u{7474}', [0xFE, 0x79]), ('\u{7475}', [0xE2, 0xD1]), ('\u{7476}', [0xFE, 0x75]), ";
"    ('\u{7479}', [0x92, 0xD1]), ('\u{747A}', [0x94, 0x5D]), ('\u{747C}', [0xE6, 0xAA]), ";
"    ('\u{747D}', [0xE6, 0xA7]), ('\u{747E}', [0xBD, 0x40]), ('\u{747F}', [0xEA, 0x62]), ";
"    ('\u{7480}', [0xBD, 0x41]), ('\u{7481}', [0xE6, 0xA6]), ('\u{7482}', [0xFE, 0x7C]), ";
"    ('\u{7483}', [0xBC, 0xFE]), ('\u{7485}', [0xE6, 0xA8]), ('\u{7486}', [0xE6, 0xA5]), ";
"    ('\u{7487}', [0xE6, 0xA2]), ('\u{7488}', [0xE6, 0xA9]), ('\u{7489}', [0xE6, 0xA3]), ";
"    ('\u{748A}', [0xE6, 0xA4]), ('\u{748B}', [0xBC, 0xFD]), ('\u{748C}', [0x93, 0x44]), ";
"    ('\u{748D}', [0x8E, 0xA6]), ('\u{7490}', [0xED, 0x69]), ('\u{7492}', [0xEA, 0x66]), ";
"    ('\u{7494}', [0xEA, 0x65]), ('\u{7495}', [0xEA, 0x67]), ('\u{7497}', [0xED, 0x66]), ";
"    ('\u{7498}', [0xBF, 0x5A]), ('\u{7499}', [0x92, 0xD3]), ('\u{749A}', [0xEA, 0x63]), ";
"    ('\u{749B}', [0x94, 0xB8]), ('\u{749C}', [0xBF, 0x58]), ('\u{749D}', [0x87, 0x79]), ";
"    ('\u{749E}', [0xBF, 0x5C]), ('\u{749F}', [0xBF, 0x5B]), ('\u{74A0}', [0xEA, 0x64]), ";
"    ('\u{74A1}', [0xEA, 0x68]), ('\u{74A3}', [0xBF, 0x59]), ('\u{74A4}', [0xFC, 0x71]), ";
"    ('\u{74A5}', [0xED, 0x6D]), ('\u{74A6}', [0xC0, 0xF5]), ('\u{74A7}', [0xC2, 0x7A]), ";
"    ('\u{74A8}', [0xC0, 0xF6]), ('\u{74A9}', [0xC0, 0xF3]), ('\u{74AA}', [0xED, 0x6A]), ";
"    ('\u{74AB}', [0xED, 0x68]), ('\u{74AD}', [0xED, 0x6B]), ('\u{74AF}', [0xED, 0x6E]), ";
"    ('\u{74B0}', [0xC0, 0xF4]), ('\u{74B1}', [0xED, 0x6C]), ('\u{74B2}', [0xED, 0x67]), ";
"    ('\u{74B4}', [0x97, 0x5E]), ('\u{74B5}', [0xF0, 0x42]), ('\u{74B6}', [0xF0, 0x45]), ";
"    ('\u{74B7}', [0xF2, 0x75]), ('\u{74B8}', [0xF0, 0x40]), ('\u{74B9}', [0x8C, 0xAD]), ";
"    ('\u{74BA}', [0xF4, 0x6F]), ('\u{74BB}', [0xF0, 0x46]), ('\u{74BD}', [0xC3, 0xA2]), ";
"    ('\u{74BE}', [0xF0, 0x44]), ('\u{74BF}', [0xC2, 0x7B]), ('\u{74C0}', [0xF0, 0x41]), ";
"    ('\u{74C1}', [0xF0, 0x43]), ('\u{74C2}', [0xF0, 0x47]), ('\u{74C3}', [0xF2, 0x76]), ";
"    ('\u{74C5}', [0xF2, 0x74]), ('\u{74C6}', [0x87, 0xC1]), ('\u{74C8}', [0xFE, 0xA7]), ";
"    ('\u{74CA}', [0xC3, 0xA3]), ('\u{74CB}', [0xF2, 0x73]), ('\u{74CC}', [0x94, 0x6A]), ";
"    ('\u{74CF}', [0xC4, 0x6E]), ('\u{74D0}', [0x93, 0xE3]), ('\u{74D3}', [0x98, 0xCF]), ";
"    ('\u{74D4}', [0xC4, 0xED]), ('\u{74D5}', [0xF6, 0xF1]), ('\u{74D6}', [0xC4, 0xEC]), ";
"    ('\u{74D7}', [0xF6, 0xF3]), ('\u{74D8}', [0xF6, 0xF0]), ('\u{74D9}', [0xF6, 0xF2]), ";
"    ('\u{74DA}', [0xC5, 0xD0]), ('\u{74DB}', [0xF8, 0xB2]), ('\u{74DC}', [0xA5, 0xCA]), ";
"    ('\u{74DD}', [0xCD, 0x6E]), ('\u{74DE}', [0xD2, 0xBC]), ('\u{74DF}', [0xD2, 0xBD]), ";
"    ('\u{74E0}', [0xB2, 0x7D]), ('\u{74E1}', [0xDE, 0xBF]), ('\u{74E2}', [0xBF, 0x5D]), ";
"    ('\u{74E3}', [0xC3, 0xA4]), ('\u{74E4}', [0xC5, 0x7B]), ('\u{74E5}', [0xF8, 0xB3]), ";
"    ('\u{74E6}', [0xA5, 0xCB]), ('\u{74E7}', [0xA0, 0xD9]), ('\u{74E8}', [0xCD, 0x6F]), ";
"    ('\u{74E9}', [0xA2, 0x60]), ('\u{74EC}', [0xCF, 0xD7]), ('\u{74EE}', [0xCF, 0xD8]), ";
"    ('\u{74F0}', [0xA0, 0xBF]), ('\u{74F1}', [0xA0, 0x4D]), ('\u{74F2}', [0xA0, 0xB8]), ";
"    ('\u{74F4}', [0xD2, 0xBE]), ('\u{74F5}', [0xD2, 0xBF]), ('\u{74F6}', [0xB2, 0x7E]), ";
"    ('\u{74F7}', [0xB2, 0xA1]), ('\u{74F8}', [0xA0, 0xCE]), ('\u{74FB}', [0xDA, 0xAB]), ";
"    ('\u{74FD}', [0xDE, 0xC2]), ('\u{74FE}', [0xDE, 0xC1]), ('\u{74FF}', [0xDE, 0xC0]), ";
"    ('\u{7500}', [0xE2, 0xD5]), ('\u{7502}', [0xE2, 0xD6]), ('\u{7503}', [0xE2, 0xD7]), ";
"    ('\u{7504}', [0xBA, 0xC2]), ('\u{7505}', [0xA0, 0xB7]), ('\u{7507}', [0xE6, 0xAD]), ";
"    ('\u{7508}', [0xE6, 0xAC]), ('\u{750B}', [0xEA, 0x69]), ('\u{750C}', [0xBF, 0x5E]), ";
"    ('\u{750D}', [0xBF, 0x5F]), ('\u{750E}', [0xFE, 0xA9]), ('\u{750F}', [0xED, 0x72]), ";
"    ('\u{7510}', [0xED, 0x6F]), ('\u{7511}', [0xED, 0x70]), ('\u{7512}', [0xED, 0x71]), ";
"    ('\u{7513}', [0xF0, 0x49]), ('\u{7514}', [0xF0, 0x48]), ('\u{7515}', [0xC2, 0x7C]), ";
"    ('\u{7516}', [0xF2, 0x77]), ('\u{7517}', [0xF5, 0xDE]), ('\u{7518}', [0xA5, 0xCC]), ";
"    ('\u{7519}', [0x89, 0xC3]), ('\u{751A}', [0xAC, 0xC6]), ('\u{751C}', [0xB2, 0xA2]), ";
"    ('\u{751D}', [0xDE, 0xC3]), ('\u{751E}', [0xFE, 0xAB]), ('\u{751F}', [0xA5, 0xCD]), ";
"    ('\u{7521}', [0xD2, 0xC0]), ('\u{7522}', [0xB2, 0xA3]), ('\u{7525}', [0xB5, 0x63]), ";
"    ('\u{7526}', [0xB5, 0x64]), ('\u{7528}', [0xA5, 0xCE]), ('\u{7529}', [0xA5, 0xCF]), ";
"    ('\u{752A}', [0xCA, 0x46]), ('\u{752B}', [0xA8, 0x6A]), ('\u{752C}', [0xA8, 0x69]), ";
"    ('\u{752D}', [0xAC, 0xC7]), ('\u{752E}', [0xCF, 0xD9]), ('\u{752F}', [0xDA, 0xAC]), ";
"    ('\u{7530}', [0xA5, 0xD0]), ('\u{7531}', [0xA5, 0xD1]), ('\u{7532}', [0xA5, 0xD2]), ";
"    ('\u{7533}', [0xA5, 0xD3]), ('\u{7534}', [0x9D, 0xF4]), ('\u{7535}', [0x89, 0x6D]), ";
"    ('\u{7537}', [0xA8, 0x6B]), ('\u{7538}', [0xA8, 0x6C]), ('\u{7539}', [0xCB, 0x6E]), ";
"    ('\u{753A}', [0xCB, 0x6D]), ('\u{753B}', [0x9C, 0x7B]), ('\u{753D}', [0xAA, 0xB6]), ";
"    ('\u{753E}', [0xCD, 0x72]), ('\u{753F}', [0xCD, 0x70]), ('\u{7540}', [0xCD, 0x71]), ";
"    ('\u{7542}', [0x98, 0xD2]), ('\u{7546}', [0x9F, 0xA9]), ('\u{7547}', [0xCF, 0xDA]), ";
"    ('\u{7548}', [0xCF, 0xDB]), ('\u{754A}', [0xFE, 0xB2]), ('\u{754B}', [0xAC, 0xCB]), ";
"    ('\u{754C}', [0xAC, 0xC9]), ('\u{754D}', [0xFE, 0xB1]), ('\u{754E}', [0xAC, 0xCA]), ";
"    ('\u{754F}', [0xAC, 0xC8]), ('\u{7551}', [0x97, 0xD9]), ('\u{7553}', [0xA0, 0xC4]), ";
"    ('\u{7554}', [0xAF, 0x60]), ('\u{7555}', [0x94, 0x76]), ('\u{7559}', [0xAF, 0x64]), ";
"    ('\u{755A}', [0xAF, 0x63]), ('\u{755B}', [0xD2, 0xC1]), ('\u{755C}', [0xAF, 0x62]), ";
"    ('\u{755D}', [0xAF, 0x61]), ('\u{755F}', [0xD2, 0xC2]), ('\u{7560}', [0x99, 0x78]), ";
"    ('\u{7562}', [0xB2, 0xA6]), ('\u{7563}', [0xD6, 0x7B]), ('\u{7564}', [0xD6, 0x7A]), ";
"    ('\u{7565}', [0xB2, 0xA4]), ('\u{7566}', [0xB2, 0xA5]), ('\u{7567}', [0xFE, 0xB3]), ";
"    ('\u{756A}', [0xB5, 0x66]), ('\u{756B}', [0xB5, 0x65]), ('\u{756C}', [0xDA, 0xAE]), ";
"    ('\u{756D}', [0x98, 0xD3]), ('\u{756E}', [0xFE, 0xB4]), ('\u{756F}', [0xDA, 0xAD]), ";
"    ('\u{7570}', [0xB2, 0xA7]), ('\u{7572}', [0x98, 0xD4]), ('\u{7576}', [0xB7, 0xED]), ";
"    ('\u{7577}', [0xDE, 0xC5]), ('\u{7578}', [0xB7, 0xEE]), ('\u{7579}', [0xDE, 0xC4]), ";
"    ('\u{757A}', [0x9F, 0xB9]), ('\u{757D}', [0xE2, 0xD8]), ('\u{757E}', [0xE6, 0xAE]), ";
"    ('\u{757F}', [0xBD, 0x42]), ('\u{7580}', [0xEA, 0x6A]), ('\u{7583}', [0x94, 0x71]), ";
"    ('\u{7584}', [0xED, 0x73]), ('\u{7586}', [0xC3, 0xA6]), ('\u{7587}', [0xC3, 0xA5]), ";
"    ('\u{758A}', [0xC5, 0x7C]), ('\u{758B}', [0xA5, 0xD4]), ('\u{758C}', [0xCD, 0x73]), ";
"    ('\u{758D}', [0x98, 0xD5]), ('\u{758E}', [0xFE, 0xB8]), ('\u{758F}', [0xB2, 0xA8]), ";
"    ('\u{7590}', [0xE2, 0xD9]), ('\u{7591}', [0xBA, 0xC3]), ('\u{7592}', [0xC6, 0xD4]), ";
"    ('\u{7594}', [0xCB, 0x6F]), ('\u{7595}', [0xCB, 0x70]), ('\u{7598}', [0xCD, 0x74]), ";
"    ('\u{7599}', [0xAA, 0xB8]), ('\u{759A}', [0xAA, 0xB9]), ('\u{759D}', [0xAA, 0xB7]), ";
"    ('\u{759E}', [0xFE, 0xBA]), ('\u{75A2}', [0xAC, 0xCF]), ('\u{75A3}', [0xAC, 0xD0]), ";
"    ('\u{75A4}', [0xAC, 0xCD]), ('\u{75A5}', [0xAC, 0xCE]), ('\u{75A7}', [0xCF, 0xDC]), ";
"    ('\u{75AA}', [0xCF, 0xDD]), ('\u{75AB}', [0xAC, 0xCC]), ('\u{75B0}', [0xD2, 0xC3]), ";
"    ('\u{75B1}', [0x9E, 0x5C]), ('\u{75B2}', [0xAF, 0x68]), ('\u{75B3}', [0xAF, 0x69]), ";
"    ('\u{75B4}', [0xFE, 0xBB]), ('\u{75B5}', [0xB2, 0xAB]), ('\u{75B6}', [0xD2, 0xC9]), ";
"    ('\u{75B8}', [0xAF, 0x6E]), ('\u{75B9}', [0xAF, 0x6C]), ('\u{75BA}', [0xD2, 0xCA]), ";
"    ('\u{75BB}', [0xD2, 0xC5]), ('\u{75BC}', [0xAF, 0x6B]), ('\u{75BD}', [0xAF, 0x6A]), ";
"    ('\u{75BE}', [0xAF, 0x65]), ('\u{75BF}', [0xD2, 0xC8]), ('\u{75C0}', [0xD2, 0xC7]), ";
"    ('\u{75C1}', [0xD2, 0xC4]), ('\u{75C2}', [0xAF, 0x6D]), ('\u{75C3}', [0xA0, 0x44]), ";
"    ('\u{75C4}', [0xD2, 0xC6]), ('\u{75C5}', [0xAF, 0x66]), ('\u{75C7}', [0xAF, 0x67]), ";
"    ('\u{75C8}', [0x98, 0xD7]), ('\u{75CA}', [0xB2, 0xAC]), ('\u{75CB}', [0xD6, 0xA1]), ";
"    ('\u{75CC}', [0xD6, 0xA2]), ('\u{75CD}', [0xB2, 0xAD]), ('\u{75CE}', [0xD6, 0x7C]), ";
"    ('\u{75CF}', [0xD6, 0x7E]), ('\u{75D0}', [0xD6, 0xA4]), ('\u{75D1}', [0xD6, 0xA3]), ";
"    ('\u{75D2}', [0xD6, 0x7D]), ('\u{75D4}', [0xB2, 0xA9]), ('\u{75D5}', [0xB2, 0xAA]), ";
"    ('\u{75D7}', [0xDA, 0xB6]), ('\u{75D8}', [0xB5, 0x6B]), ('\u{75D9}', [0xB5, 0x6A]), ";
"    ('\u{75DA}', [0xDA, 0xB0]), ('\u{75DB}', [0xB5, 0x68]), ('\u{75DC}', [0x98, 0xD8]), ";
"    ('\u{75DD}', [0xDA, 0xB3]), ('\u{75DE}', [0xB5, 0x6C]), ('\u{75DF}', [0xDA, 0xB4]), ";
"    ('\u{75E0}', [0xB5, 0x6D]), ('\u{75E1}', [0xDA, 0xB1]), ('\u{75E2}', [0xB5, 0x67]), ";
"    ('\u{75E3}', [0xB5, 0x69]), ('\u{75E4}', [0xDA, 0xB5]), ('\u{75E6}', [0xDA, 0xB2]), ";
"    ('\u{75E7}', [0xDA, 0xAF]), ('\u{75ED}', [0xDE, 0xD2]), ('\u{75EF}', [0xDE, 0xC7]), ";
"    ('\u{75F0}', [0xB7, 0xF0]), ('\u{75F1}', [0xB7, 0xF3]), ('\u{75F2}', [0xB7, 0xF2]), ";
"    ('\u{75F3}', [0xB7, 0xF7]), ('\u{75F4}', [0xB7, 0xF6]), ('\u{75F5}', [0xDE, 0xD3]), ";
"    ('\u{75F6}', [0xDE, 0xD1]), ('\u{75F7}', [0xDE, 0xCA]), ('\u{75F8}', [0xDE, 0xCE]), ";
"    ('\u{75F9}', [0x9E, 0xEF]), ('\u{75FA}', [0xB7, 0xF4]), ('\u{75FB}', [0xDE, 0xD0]), ";
"    ('\u{75FC}', [0xDE, 0xCC]), ('\u{75FD}', [0xDE, 0xD4]), ('\u{75FE}', [0xDE, 0xCB]), ";
"    ('\u{75FF}', [0xB7, 0xF5]), ('\u{7600}', [0xB7, 0xEF]), ('\u{7601}', [0xB7, 0xF1]), ";
"    ('\u{7602}', [0xFE, 0xBC]), ('\u{7603}', [0xDE, 0xC9]), ('\u{7607}', [0x9F, 0xFE]), ";
"    ('\u{7608}', [0xE2, 0xDB]), ('\u{7609}', [0xBA, 0xC7]), ('\u{760A}', [0xE2, 0xDF]), ";
"    ('\u{760B}', [0xBA, 0xC6]), ('\u{760C}', [0xE2, 0xDC]), ('\u{760D}', [0xBA, 0xC5]), ";
"    ('\u{760F}', [0xDE, 0xC8]), ('\u{7610}', [0xDE, 0xCF]), ('\u{7611}', [0xE2, 0xDE]), ";
"    ('\u{7613}', [0xBA, 0xC8]), ('\u{7614}', [0xE2, 0xE0]), ('\u{7615}', [0xE2, 0xDD]), ";
"    ('\u{7616}', [0xE2, 0xDA]), ('\u{7619}', [0xE6, 0xB1]), ('\u{761A}', [0xE6, 0xB5]), ";
"    ('\u{761B}', [0xE6, 0xB7]), ('\u{761C}', [0xE6, 0xB3]), ('\u{761D}', [0xE6, 0xB2]), ";
"    ('\u{761E}', [0xE6, 0xB0]), ('\u{761F}', [0xBD, 0x45]), ('\u{7620}', [0xBD, 0x43]), ";
"    ('\u{7621}', [0xBD, 0x48]), ('\u{7622}', [0xBD, 0x49]), ('\u{7623}', [0xE6, 0xB4]), ";
"    ('\u{7624}', [0xBD, 0x46]), ('\u{7625}', [0xE6, 0xAF]), ('\u{7626}', [0xBD, 0x47]), ";
"    ('\u{7627}', [0xBA, 0xC4]), ('\u{7628}', [0xE6, 0xB6]), ('\u{7629}', [0xBD, 0x44]), ";
"    ('\u{762C}', [0xFE, 0xBD]), ('\u{762D}', [0xEA, 0x6C]), ('\u{762F}', [0xEA, 0x6B]), ";
"    ('\u{7630}', [0xEA, 0x73]), ('\u{7631}', [0xEA, 0x6D]), ('\u{7632}', [0xEA, 0x72]), ";
"    ('\u{7633}', [0xEA, 0x6F]), ('\u{7634}', [0xBF, 0x60]), ('\u{7635}', [0xEA, 0x71]), ";
"    ('\u{7638}', [0xBF, 0x61]), ('\u{763A}', [0xBF, 0x62]), ('\u{763B}', [0x9D, 0xDD]), ";
"    ('\u{763C}', [0xEA, 0x70]), ('\u{763D}', [0xEA, 0x6E]), ('\u{7640}', [0x9E, 0xE1]), ";
"    ('\u{7642}', [0xC0, 0xF8]), ('\u{7643}', [0xED, 0x74]), ('\u{7646}', [0xC0, 0xF7]), ";
"    ('\u{7647}', [0xED, 0x77]), ('\u{7648}', [0xED, 0x75]), ('\u{7649}', [0xED, 0x76]), ";
"    ('\u{764C}', [0xC0, 0xF9]), ('\u{764D}', [0x98, 0xDA]), ('\u{764E}', [0x9D, 0xDF]), ";
"    ('\u{764F}', [0xFE, 0xBF]), ('\u{7650}', [0xF0, 0x4D]), ('\u{7651}', [0xFE, 0xBE]), ";
"    ('\u{7652}', [0xC2, 0xA1]), ('\u{7653}', [0xF0, 0x4E]), ('\u{7654}', [0x9E, 0xEB]), ";
"    ('\u{7656}', [0xC2, 0x7D]), ('\u{7657}', [0xF0, 0x4F]), ('\u{7658}', [0xC2, 0x7E]), ";
"    ('\u{7659}', [0xF0, 0x4C]), ('\u{765A}', [0xF0, 0x50]), ('\u{765C}', [0xF0, 0x4A]), ";
"    ('\u{765F}', [0xC3, 0xA7]), ('\u{7660}', [0xF2, 0x78]), ('\u{7661}', [0xC3, 0xA8]), ";
"    ('\u{7662}', [0xC4, 0x6F]), ('\u{7664}', [0xF0, 0x4B]), ('\u{7665}', [0xC4, 0x70]), ";
"    ('\u{7666}', [0x9E, 0x59]), ('\u{7667}', [0xA0, 0x5C]), ('\u{7669}', [0xC4, 0xEE]), ";
"    ('\u{766A}', [0xF5, 0xDF]), ('\u{766C}', [0xC5, 0x7E]), ('\u{766D}', [0xF6, 0xF4]), ";
"    ('\u{766E}', [0xC5, 0x7D]), ('\u{766F}', [0xFE, 0xC0]), ('\u{7670}', [0xF7, 0xEA]), ";
"    ('\u{7671}', [0xC5, 0xF5]), ('\u{7672}', [0xC5, 0xF6]), ('\u{7673}', [0x94, 0x77]), ";
"    ('\u{7674}', [0x98, 0xDC]), ('\u{7675}', [0xF9, 0xCC]), ('\u{7676}', [0xC6, 0xD5]), ";
"    ('\u{7678}', [0xAC, 0xD1]), ('\u{7679}', [0xCF, 0xDE]), ('\u{767A}', [0x98, 0xDE]), ";
"    ('\u{767B}', [0xB5, 0x6E]), ('\u{767C}', [0xB5, 0x6F]), ('\u{767D}', [0xA5, 0xD5]), ";
"    ('\u{767E}', [0xA6, 0xCA]), ('\u{767F}', [0xCA, 0x47]), ('\u{7681}', [0xCB, 0x71]), ";
"    ('\u{7682}', [0xA8, 0x6D]), ('\u{7684}', [0xAA, 0xBA]), ('\u{7686}', [0xAC, 0xD2]), ";
"    ('\u{7687}', [0xAC, 0xD3]), ('\u{7688}', [0xAC, 0xD4]), ('\u{7689}', [0xD6, 0xA6]), ";
"    ('\u{768A}', [0xD2, 0xCB]), ('\u{768B}', [0xAF, 0x6F]), ('\u{768E}', [0xB2, 0xAE]), ";
"    ('\u{768F}', [0xD6, 0xA5]), ('\u{7690}', [0xFE, 0xC3]), ('\u{7692}', [0xDA, 0xB8]), ";
"    ('\u{7693}', [0xB5, 0x71]), ('\u{7695}', [0xDA, 0xB7]), ('\u{7696}', [0xB5, 0x70]), ";
"    ('\u{7699}', [0xDE, 0xD5]), ('\u{769A}', [0xBD, 0x4A]), ('\u{769B}', [0xE6, 0xBB]), ";
"    ('\u{769C}', [0xE6, 0xB8]), ('\u{769D}', [0xE6, 0xB9]), ('\u{769E}', [0xE6, 0xBA]), ";
"    ('\u{76A1}', [0xFE, 0xC8]), ('\u{76A4}', [0xED, 0x78]), ('\u{76A5}', [0xFE, 0xC9]), ";
"    ('\u{76A6}', [0xF0, 0x51]), ('\u{76AA}', [0xF4, 0x71]), ('\u{76AB}', [0xF4, 0x70]), ";
"    ('\u{76AD}', [0xF6, 0xF5]), ('\u{76AE}', [0xA5, 0xD6]), ('\u{76AF}', [0xCD, 0x75]), ";
"    ('\u{76B0}', [0xAF, 0x70]), ('\u{76B4}', [0xB5, 0x72]), ('\u{76B5}', [0xDE, 0xD6]), ";
"    ('\u{76B7}', [0xFE, 0xCA]), ('\u{76B8}', [0xE2, 0xE1]), ('\u{76BA}', [0xBD, 0x4B]), ";
"    ('\u{76BB}', [0xEA, 0x74]), ('\u{76BD}', [0xF0, 0x52]), ('\u{76BE}', [0xF4, 0x72]), ";
"    ('\u{76BF}', [0xA5, 0xD7]), ('\u{76C2}', [0xAA, 0xBB]), ('\u{76C3}', [0xAC, 0xD7]), ";
"    ('\u{76C4}', [0xCF, 0xDF]), ('\u{76C5}', [0xAC, 0xD8]), ('\u{76C6}', [0xAC, 0xD6]), ";
"    ('\u{76C8}', [0xAC, 0xD5]), ('\u{76C9}', [0xD2, 0xCC]), ('\u{76CA}', [0xAF, 0x71]), ";
"    ('\u{76CC}', [0xFE, 0xCB]), ('\u{76CD}', [0xAF, 0x72]), ('\u{76CE}', [0xAF, 0x73]), ";
"    ('\u{76D2}', [0xB2, 0xB0]), ('\u{76D3}', [0xD6, 0xA7]), ('\u{76D4}', [0xB2, 0xAF]), ";
"    ('\u{76D6}', [0x9F, 0xC2]), ('\u{76D9}', [0x8C, 0x6B]), ('\u{76DA}', [0xDA, 0xB9]), ";
"    ('\u{76DB}', [0xB2, 0xB1]), ('\u{76DC}', [0xB5, 0x73]), ('\u{76DD}', [0xDE, 0xD7]), ";
"    ('\u{76DE}', [0xB7, 0xF8]), ('\u{76DF}', [0xB7, 0xF9]), ('\u{76E1}', [0xBA, 0xC9]), ";
"    ('\u{76E3}', [0xBA, 0xCA]), ('\u{76E4}', [0xBD, 0x4C]), ('\u{76E5}', [0xBF, 0x64]), ";
"    ('\u{76E6}', [0xEA, 0x75]), ('\u{76E7}', [0xBF, 0x63]), ('\u{76E9}', [0xED, 0x79]), ";
"    ('\u{76EA}', [0xC0, 0xFA]), ('\u{76EC}', [0xF0, 0x53]), ('\u{76ED}', [0xF4, 0x73]), ";
"    ('\u{76EE}', [0xA5, 0xD8]), ('\u{76EF}', [0xA8, 0x6E]), ('\u{76F0}', [0xCD, 0x78]), ";
"    ('\u{76F1}', [0xCD, 0x77]), ('\u{76F2}', [0xAA, 0xBC]), ('\u{76F3}', [0xCD, 0x76]), ";
"    ('\u{76F4}', [0xAA, 0xBD]), ('\u{76F5}', [0xCD, 0x79]), ('\u{76F7}', [0xCF, 0xE5]), ";
"    ('\u{76F8}', [0xAC, 0xDB]), ('\u{76F9}', [0xAC, 0xDA]), ('\u{76FA}', [0xCF, 0xE7]), ";
"    ('\u{76FB}', [0xCF, 0xE6]), ('\u{76FC}', [0xAC, 0xDF]), ('\u{76FE}', [0xAC, 0xDE]), ";
"    ('\u{7701}', [0xAC, 0xD9]), ('\u{7703}', [0xCF, 0xE1]), ('\u{7704}', [0xCF, 0xE2]), ";
"    ('\u{7705}', [0xCF, 0xE3]), ('\u{7707}', [0xAC, 0xE0]), ('\u{7708}', [0xCF, 0xE0]), ";
"    ('\u{7709}', [0xAC, 0xDC]), ('\u{770A}', [0xCF, 0xE4]), ('\u{770B}', [0xAC, 0xDD]), ";
"    ('\u{770C}', [0x98, 0xC4]), ('\u{770E}', [0x94, 0xB0]), ('\u{770F}', [0x94, 0xB1]), ";
"    ('\u{7710}', [0xD2, 0xCF]), ('\u{7711}', [0xD2, 0xD3]), ('\u{7712}', [0xD2, 0xD1]), ";
"    ('\u{7713}', [0xD2, 0xD0]), ('\u{7715}', [0xD2, 0xD4]), ('\u{7719}', [0xD2, 0xD5]), ";
"    ('\u{771A}', [0xD2, 0xD6]), ('\u{771B}', [0xD2, 0xCE]), ('\u{771D}', [0xD2, 0xCD]), ";
"    ('\u{771E}', [0xFE, 0xD1]), ('\u{771F}', [0xAF, 0x75]), ('\u{7720}', [0xAF, 0x76]), ";
"    ('\u{7722}', [0xD2, 0xD7]), ('\u{7723}', [0xD2, 0xD2]), ('\u{7724}', [0xA0, 0xC1]), ";
"    ('\u{7725}', [0xD6, 0xB0]), ('\u{7726}', [0xFE, 0xD2]), ('\u{7727}', [0xD2, 0xD8]), ";
"    ('\u{7728}', [0xAF, 0x77]), ('\u{7729}', [0xAF, 0x74]), ('\u{772B}', [0xA0, 0xCD]), ";
"    ('\u{772D}', [0xD6, 0xAA]), ('\u{772F}', [0xD6, 0xA9]), ('\u{7731}', [0xD6, 0xAB]), ";
"    ('\u{7732}', [0xD6, 0xAC]), ('\u{7733}', [0xD6, 0xAE]), ('\u{7734}', [0xD6, 0xAD]), ";
"    ('\u{7735}', [0xD6, 0xB2]), ('\u{7736}', [0xB2, 0xB5]), ('\u{7737}', [0xB2, 0xB2]), ";
"    ('\u{7738}', [0xB2, 0xB6]), ('\u{7739}', [0xD6, 0xA8]), ('\u{773A}', [0xB2, 0xB7]), ";
"    ('\u{773B}', [0xD6, 0xB1]), ('\u{773C}', [0xB2, 0xB4]), ('\u{773D}', [0xD6, 0xAF]), ";
"    ('\u{773E}', [0xB2, 0xB3]), ('\u{7740}', [0xFE, 0xD3]), ('\u{7743}', [0x98, 0xE5]), ";
"    ('\u{7744}', [0xDA, 0xBC]), ('\u{7745}', [0xDA, 0xBE]), ('\u{7746}', [0xDA, 0xBA]), ";
"    ('\u{7747}', [0xDA, 0xBB]), ('\u{774A}', [0xDA, 0xBF]), ('\u{774B}', [0xDA, 0xC1]), ";
"    ('\u{774C}', [0xDA, 0xC2]), ('\u{774D}', [0xDA, 0xBD]), ('\u{774E}', [0xDA, 0xC0]), ";
"    ('\u{774F}', [0xB5, 0x74]), ('\u{7752}', [0xDE, 0xDB]), ('\u{7754}', [0xDE, 0xE0]), ";
"    ('\u{7755}', [0xDE, 0xD8]), ('\u{7756}', [0xDE, 0xDC]), ('\u{7758}', [0xFE, 0xD6]), ";
"    ('\u{7759}', [0xDE, 0xE1]), ('\u{775A}', [0xDE, 0xDD]), ('\u{775B}', [0xB7, 0xFA]), ";
"    ('\u{775C}', [0xB8, 0x43]), ('\u{775E}', [0xB7, 0xFD]), ('\u{775F}', [0xDE, 0xD9]), ";
"    ('\u{7760}', [0xDE, 0xDA]), ('\u{7761}', [0xBA, 0xCE]), ('\u{7762}', [0xB8, 0x46]), ";
"    ('\u{7763}', [0xB7, 0xFE]), ('\u{7765}', [0xB8, 0x44]), ('\u{7766}', [0xB7, 0xFC]), ";
"    ('\u{7767}', [0xDE, 0xDF]), ('\u{7768}', [0xB8, 0x45]), ('\u{7769}', [0xDE, 0xDE]), ";
"    ('\u{776A}', [0xB8, 0x41]), ('\u{776B}', [0xB7, 0xFB]), ('\u{776C}', [0xB8, 0x42]), ";
"    ('\u{776D}', [0xDE, 0xE2]), ('\u{776E}', [0xE2, 0xE6]), ('\u{776F}', [0xE2, 0xE8]), ";
"    ('\u{7772}', [0x91, 0xE4]), ('\u{7777}', [0x8F, 0xC7]), ('\u{7778}', [0x94, 0xAE]), ";
"    ('\u{7779}', [0xB8, 0x40]), ('\u{777A}', [0x8A, 0x4F]), ('\u{777B}', [0x94, 0xB2]), ";
"    ('\u{777C}', [0xE2, 0xE3]), ('\u{777D}', [0xBA, 0xCC]), ('\u{777E}', [0xE2, 0xE9]), ";
"    ('\u{777F}', [0xBA, 0xCD]), ('\u{7780}', [0xE2, 0xE7]), ('\u{7781}', [0xE2, 0xE2]), ";
"    ('\u{7782}', [0xE2, 0xE5]), ('\u{7783}', [0xE2, 0xEA]), ('\u{7784}', [0xBA, 0xCB]), ";
"    ('\u{7785}', [0xE2, 0xE4]), ('\u{7787}', [0xBD, 0x4E]), ('\u{7788}', [0xE6, 0xBF]), ";
"    ('\u{7789}', [0xE6, 0xBE]), ('\u{778B}', [0xBD, 0x51]), ('\u{778C}', [0xBD, 0x4F]), ";
"    ('\u{778D}', [0xE6, 0xBC]), ('\u{778E}', [0xBD, 0x4D]), ('\u{778F}', [0xE6, 0xBD]), ";
"    ('\u{7791}', [0xBD, 0x50]), ('\u{7793}', [0x8F, 0xD4]), ('\u{7795}', [0xEA, 0x7D]), ";
"    ('\u{7797}', [0xEA, 0xA1]), ('\u{7798}', [0x98, 0xEA]), ('\u{7799}', [0xEA, 0x7E]), ";
"    ('\u{779A}', [0xEA, 0x76]), ('\u{779B}', [0xEA, 0x7A]), ('\u{779C}', [0xEA, 0x79]), ";
"    ('\u{779D}', [0xEA, 0x77]), ('\u{779E}', [0xBF, 0x66]), ('\u{779F}', [0xBF, 0x67]), ";
"    ('\u{77A0}', [0xBF, 0x65]), ('\u{77A1}', [0xEA, 0x78]), ('\u{77A2}', [0xEA, 0x7B]), ";
"    ('\u{77A3}', [0xEA, 0x7C]), ('\u{77A5}', [0xBF, 0x68]), ('\u{77A7}', [0xC1, 0x40]), ";
"    ('\u{77A8}', [0xED, 0xA3]), ('\u{77AA}', [0xC0, 0xFC]), ('\u{77AB}', [0xED, 0x7B]), ";
"    ('\u{77AC}', [0xC0, 0xFE]), ('\u{77AD}', [0xC1, 0x41]), ('\u{77AF}', [0xFE, 0xD8]), ";
"    ('\u{77B0}', [0xC0, 0xFD]), ('\u{77B1}', [0xED, 0xA2]), ('\u{77B2}', [0xED, 0x7C]), ";
"    ('\u{77B3}', [0xC0, 0xFB]), ('\u{77B4}', [0xED, 0xA1]), ('\u{77B5}', [0xED, 0x7A]), ";
"    ('\u{77B6}', [0xED, 0x7E]), ('\u{77B7}', [0xED, 0x7D]), ('\u{77B9}', [0x9D, 0xE0]), ";
"    ('\u{77BA}', [0xF0, 0x55]), ('\u{77BB}', [0xC2, 0xA4]), ('\u{77BC}', [0xC2, 0xA5]), ";
"    ('\u{77BD}', [0xC2, 0xA2]), ('\u{77BE}', [0x98, 0xEE]), ('\u{77BF}', [0xC2, 0xA3]), ";
"    ('\u{77C2}', [0xF0, 0x54]), ('\u{77C3}', [0x95, 0xC4]), ('\u{77C4}', [0xF2, 0x7B]), ";
"    ('\u{77C5}', [0xFC, 0xE8]), ('\u{77C7}', [0xC3, 0xA9]), ('\u{77C9}', [0xF2, 0x79]), ";
"    ('\u{77CA}', [0xF2, 0x7A]), ('\u{77CB}', [0x98, 0xEF]), ('\u{77CC}', [0xF4, 0x74]), ";
"    ('\u{77CD}', [0xF4, 0x77]), ('\u{77CE}', [0xF4, 0x75]), ('\u{77CF}', [0xF4, 0x76]), ";
"    ('\u{77D0}', [0xF5, 0xE0]), ('\u{77D3}', [0xC4, 0xEF]), ('\u{77D4}', [0xF7, 0xEB]), ";
"    ('\u{77D5}', [0xF8, 0xB4]), ('\u{77D7}', [0x9B, 0x78]), ('\u{77D8}', [0xF8, 0xF8]), ";
"    ('\u{77D9}', [0xF8, 0xF9]), ('\u{77DA}', [0xC6, 0x66]), ('\u{77DB}', [0xA5, 0xD9]), ";
"    ('\u{77DC}', [0xAC, 0xE1]), ('\u{77DD}', [0x8C, 0x6E]), ('\u{77DE}', [0xDA, 0xC3]), ";
"    ('\u{77E0}', [0xDE, 0xE3]), ('\u{77E2}', [0xA5, 0xDA]), ('\u{77E3}', [0xA8, 0x6F]), ";
"    ('\u{77E5}', [0xAA, 0xBE]), ('\u{77E6}', [0xFA, 0xD8]), ('\u{77E7}', [0xCF, 0xE8]), ";
"    ('\u{77E8}', [0xCF, 0xE9]), ('\u{77E9}', [0xAF, 0x78]), ('\u{77EC}', [0xDA, 0xC4]), ";
"    ('\u{77ED}', [0xB5, 0x75]), ('\u{77EE}', [0xB8, 0x47]), ('\u{77EF}', [0xC1, 0x42]), ";
"    ('\u{77F0}', [0xED, 0xA4]), ('\u{77F1}', [0xF2, 0x7C]), ('\u{77F2}', [0xF4, 0x78]), ";
"    ('\u{77F3}', [0xA5, 0xDB]), ('\u{77F4}', [0xFE, 0xDC]), ('\u{77F7}', [0xCD, 0xA1]), ";
"    ('\u{77F8}', [0xCD, 0x7A]), ('\u{77F9}', [0xCD, 0x7C]), ('\u{77FA}', [0xCD, 0x7E]), ";
"    ('\u{77FB}', [0xCD, 0x7D]), ('\u{77FC}', [0xCD, 0x7B]), ('\u{77FD}', [0xAA, 0xBF]), ";
"    ('\u{77FE}', [0xA0, 0xAE]), ('\u{7802}', [0xAC, 0xE2]), ('\u{7803}', [0xCF, 0xF2]), ";
"    ('\u{7805}', [0xCF, 0xED]), ('\u{7806}', [0xCF, 0xEA]), ('\u{7808}', [0x9D, 0x4C]), ";
"    ('\u{7809}', [0xCF, 0xF1]), ('\u{780C}', [0xAC, 0xE4]), ('\u{780D}', [0xAC, 0xE5]), ";
"    ('\u{780E}', [0xCF, 0xF0]), ('\u{780F}', [0xCF, 0xEF]), ('\u{7810}', [0xCF, 0xEE]), ";
"    ('\u{7811}', [0xCF, 0xEB]), ('\u{7812}', [0xCF, 0xEC]), ('\u{7813}', [0xCF, 0xF3]), ";
"    ('\u{7814}', [0xAC, 0xE3]), ('\u{7818}', [0x98, 0xF1]), ('\u{781C}', [0x98, 0xF3]), ";
"    ('\u{781D}', [0xAF, 0x7C]), ('\u{781E}', [0x94, 0xC1]), ('\u{781F}', [0xAF, 0xA4]), ";
"    ('\u{7820}', [0xAF, 0xA3]), ('\u{7821}', [0xD2, 0xE1]), ('\u{7822}', [0xD2, 0xDB]), "
].
(* /repo/src/generated/whatwg/big5_whatwg_tables.rs.inc:5633-5888 *)
Definition big5_inc_22 : list line := [
"    ('\u{7823}', [0xD2, 0xD9]), ('\u{7825}', [0xAF, 0xA1]), ('\u{7826}', [0xD6, 0xB9]), ";
"    ('\u{7827}', [0xAF, 0x7A]), ('\u{7828}', [0xD2, 0xDE]), ('\u{7829}', [0xD2, 0xE2]), ";
"    ('\u{782A}', [0xD2, 0xE4]), ('\u{782B}', [0xD2, 0xE0]), ('\u{782C}', [0xD2, 0xDA]), ";
"    ('\u{782D}', [0xAF, 0xA2]), ('\u{782E}', [0xD2, 0xDF]), ('\u{782F}', [0xD2, 0xDD]), ";
"    ('\u{7830}', [0xAF, 0x79]), ('\u{7831}', [0xD2, 0xE5]), ('\u{7832}', [0xAF, 0xA5]), ";
"    ('\u{7833}', [0xD2, 0xE3]), ('\u{7834}', [0xAF, 0x7D]), ('\u{7835}', [0xD2, 0xDC]), ";
"    ('\u{7837}', [0xAF, 0x7E]), ('\u{7838}', [0xAF, 0x7B]), ('\u{7839}', [0x98, 0xF5]), ";
"    ('\u{783C}', [0xFA, 0x4F]), ('\u{783D}', [0x96, 0xE2]), ('\u{7842}', [0x94, 0x50]), ";
"    ('\u{7843}', [0xB2, 0xB9]), ('\u{7844}', [0x96, 0xA2]), ('\u{7845}', [0xD6, 0xBA]), ";
"    ('\u{7847}', [0x98, 0xF6]), ('\u{7848}', [0xD6, 0xB3]), ('\u{7849}', [0xD6, 0xB5]), ";
"    ('\u{784A}', [0xD6, 0xB7]), ('\u{784B}', [0x96, 0xE5]), ('\u{784C}', [0xD6, 0xB8]), ";
"    ('\u{784D}', [0xD6, 0xB6]), ('\u{784E}', [0xB2, 0xBA]), ('\u{7850}', [0xD6, 0xBB]), ";
"    ('\u{7851}', [0x98, 0xF7]), ('\u{7852}', [0xD6, 0xB4]), ('\u{7853}', [0xA0, 0x46]), ";
"    ('\u{7854}', [0x96, 0xE3]), ('\u{785C}', [0xDA, 0xC8]), ('\u{785D}', [0xB5, 0x76]), ";
"    ('\u{785E}', [0xDA, 0xD0]), ('\u{7860}', [0xDA, 0xC5]), ('\u{7862}', [0xDA, 0xD1]), ";
"    ('\u{7864}', [0xDA, 0xC6]), ('\u{7865}', [0xDA, 0xC7]), ('\u{7866}', [0x98, 0xF8]), ";
"    ('\u{7868}', [0xDA, 0xCF]), ('\u{7869}', [0xDA, 0xCE]), ('\u{786A}', [0xDA, 0xCB]), ";
"    ('\u{786B}', [0xB2, 0xB8]), ('\u{786C}', [0xB5, 0x77]), ('\u{786D}', [0xDA, 0xC9]), ";
"    ('\u{786E}', [0xDA, 0xCC]), ('\u{786F}', [0xB5, 0x78]), ('\u{7870}', [0xDA, 0xCD]), ";
"    ('\u{7871}', [0xDA, 0xCA]), ('\u{7879}', [0xDE, 0xEE]), ('\u{787A}', [0x9E, 0xE4]), ";
"    ('\u{787B}', [0xDE, 0xF2]), ('\u{787C}', [0xB8, 0x4E]), ('\u{787E}', [0xE2, 0xF0]), ";
"    ('\u{787F}', [0xB8, 0x51]), ('\u{7880}', [0xDE, 0xF0]), ('\u{7881}', [0xF9, 0xD6]), ";
"    ('\u{7883}', [0xDE, 0xED]), ('\u{7884}', [0xDE, 0xE8]), ('\u{7885}', [0xDE, 0xEA]), ";
"    ('\u{7886}', [0xDE, 0xEB]), ('\u{7887}', [0xDE, 0xE4]), ('\u{7888}', [0x94, 0xC3]), ";
"    ('\u{7889}', [0xB8, 0x4D]), ('\u{788C}', [0xB8, 0x4C]), ('\u{788D}', [0x94, 0xC2]), ";
"    ('\u{788E}', [0xB8, 0x48]), ('\u{788F}', [0xDE, 0xE7]), ('\u{7891}', [0xB8, 0x4F]), ";
"    ('\u{7893}', [0xB8, 0x50]), ('\u{7894}', [0xDE, 0xE6]), ('\u{7895}', [0xDE, 0xE9]), ";
"    ('\u{7896}', [0xDE, 0xF1]), ('\u{7897}', [0xB8, 0x4A]), ('\u{7898}', [0xB8, 0x4B]), ";
"    ('\u{7899}', [0xDE, 0xEF]), ('\u{789A}', [0xDE, 0xE5]), ('\u{789E}', [0xE2, 0xF2]), ";
"    ('\u{789F}', [0xBA, 0xD0]), ('\u{78A0}', [0xE2, 0xF4]), ('\u{78A1}', [0xDE, 0xEC]), ";
"    ('\u{78A2}', [0xE2, 0xF6]), ('\u{78A3}', [0xBA, 0xD4]), ('\u{78A4}', [0xE2, 0xF7]), ";
"    ('\u{78A5}', [0xE2, 0xF3]), ('\u{78A7}', [0xBA, 0xD1]), ('\u{78A8}', [0xE2, 0xEF]), ";
"    ('\u{78A9}', [0xBA, 0xD3]), ('\u{78AA}', [0xE2, 0xEC]), ('\u{78AB}', [0xE2, 0xF1]), ";
"    ('\u{78AC}', [0xE2, 0xF5]), ('\u{78AD}', [0xE2, 0xEE]), ('\u{78AF}', [0xFE, 0xE1]), ";
"    ('\u{78B0}', [0xB8, 0x49]), ('\u{78B1}', [0xFE, 0xE9]), ('\u{78B2}', [0xE2, 0xEB]), ";
"    ('\u{78B3}', [0xBA, 0xD2]), ('\u{78B4}', [0xE2, 0xED]), ('\u{78B6}', [0x96, 0xE4]), ";
"    ('\u{78B8}', [0x89, 0xAC]), ('\u{78B9}', [0x96, 0xDB]), ('\u{78BA}', [0xBD, 0x54]), ";
"    ('\u{78BB}', [0xE6, 0xC1]), ('\u{78BC}', [0xBD, 0x58]), ('\u{78BE}', [0xBD, 0x56]), ";
"    ('\u{78C1}', [0xBA, 0xCF]), ('\u{78C3}', [0xE6, 0xC8]), ('\u{78C4}', [0xE6, 0xC9]), ";
"    ('\u{78C5}', [0xBD, 0x53]), ('\u{78C7}', [0xFE, 0xE2]), ('\u{78C8}', [0xE6, 0xC7]), ";
"    ('\u{78C9}', [0xE6, 0xCA]), ('\u{78CA}', [0xBD, 0x55]), ('\u{78CB}', [0xBD, 0x52]), ";
"    ('\u{78CC}', [0xE6, 0xC3]), ('\u{78CD}', [0xE6, 0xC0]), ('\u{78CE}', [0xE6, 0xC5]), ";
"    ('\u{78CF}', [0xE6, 0xC2]), ('\u{78D0}', [0xBD, 0x59]), ('\u{78D1}', [0xE6, 0xC4]), ";
"    ('\u{78D2}', [0x94, 0xC4]), ('\u{78D3}', [0xFE, 0xE3]), ('\u{78D4}', [0xE6, 0xC6]), ";
"    ('\u{78D5}', [0xBD, 0x57]), ('\u{78D7}', [0xFE, 0xE7]), ('\u{78D8}', [0x9F, 0xFB]), ";
"    ('\u{78DA}', [0xBF, 0x6A]), ('\u{78DB}', [0xEA, 0xA8]), ('\u{78DD}', [0xEA, 0xA2]), ";
"    ('\u{78DE}', [0xEA, 0xA6]), ('\u{78DF}', [0xEA, 0xAC]), ('\u{78E0}', [0xEA, 0xAD]), ";
"    ('\u{78E1}', [0xEA, 0xA9]), ('\u{78E2}', [0xEA, 0xAA]), ('\u{78E3}', [0xEA, 0xA7]), ";
"    ('\u{78E4}', [0x8C, 0x59]), ('\u{78E5}', [0xEA, 0xA4]), ('\u{78E7}', [0xBF, 0x6C]), ";
"    ('\u{78E8}', [0xBF, 0x69]), ('\u{78E9}', [0xEA, 0xA3]), ('\u{78EA}', [0xEA, 0xA5]), ";
"    ('\u{78EC}', [0xBF, 0x6B]), ('\u{78ED}', [0xEA, 0xAB]), ('\u{78EE}', [0x93, 0xC9]), ";
"    ('\u{78EF}', [0xC1, 0x46]), ('\u{78F0}', [0x94, 0xE8]), ('\u{78F1}', [0xFB, 0x56]), ";
"    ('\u{78F2}', [0xED, 0xAA]), ('\u{78F3}', [0xED, 0xA5]), ('\u{78F4}', [0xC1, 0x45]), ";
"    ('\u{78F5}', [0x90, 0xC5]), ('\u{78F7}', [0xC1, 0x43]), ('\u{78F9}', [0xED, 0xAC]), ";
"    ('\u{78FA}', [0xC1, 0x44]), ('\u{78FB}', [0xED, 0xA8]), ('\u{78FC}', [0xED, 0xA9]), ";
"    ('\u{78FD}', [0xED, 0xA6]), ('\u{78FE}', [0xED, 0xAD]), ('\u{78FF}', [0xF0, 0x56]), ";
"    ('\u{7901}', [0xC1, 0x47]), ('\u{7902}', [0xED, 0xA7]), ('\u{7904}', [0xED, 0xAE]), ";
"    ('\u{7905}', [0xED, 0xAB]), ('\u{7906}', [0xA0, 0xA8]), ('\u{7909}', [0xF0, 0x5A]), ";
"    ('\u{790C}', [0xF0, 0x57]), ('\u{790E}', [0xC2, 0xA6]), ('\u{7910}', [0xF0, 0x5B]), ";
"    ('\u{7911}', [0xF0, 0x5D]), ('\u{7912}', [0xF0, 0x5C]), ('\u{7913}', [0xF0, 0x58]), ";
"    ('\u{7914}', [0xF0, 0x59]), ('\u{7917}', [0xF2, 0xA3]), ('\u{7919}', [0xC3, 0xAA]), ";
"    ('\u{791B}', [0xF2, 0x7E]), ('\u{791C}', [0xF2, 0xA2]), ('\u{791D}', [0xF2, 0x7D]), ";
"    ('\u{791E}', [0xF2, 0xA4]), ('\u{7921}', [0xF2, 0xA1]), ('\u{7923}', [0xF4, 0x7A]), ";
"    ('\u{7924}', [0xF4, 0x7D]), ('\u{7925}', [0xF4, 0x79]), ('\u{7926}', [0xC4, 0x71]), ";
"    ('\u{7927}', [0xF4, 0x7B]), ('\u{7928}', [0xF4, 0x7C]), ('\u{7929}', [0xF4, 0x7E]), ";
"    ('\u{792A}', [0xC4, 0x72]), ('\u{792B}', [0xC4, 0x74]), ('\u{792C}', [0xC4, 0x73]), ";
"    ('\u{792D}', [0xF5, 0xE1]), ('\u{792E}', [0xFE, 0xE5]), ('\u{792F}', [0xF5, 0xE3]), ";
"    ('\u{7931}', [0xF5, 0xE2]), ('\u{7932}', [0x98, 0xFD]), ('\u{7933}', [0x98, 0xFB]), ";
"    ('\u{7934}', [0xFE, 0xE8]), ('\u{7935}', [0xF6, 0xF6]), ('\u{7936}', [0x8E, 0xBF]), ";
"    ('\u{7938}', [0xF8, 0xB5]), ('\u{7939}', [0xF8, 0xFA]), ('\u{793A}', [0xA5, 0xDC]), ";
"    ('\u{793B}', [0x8B, 0xD8]), ('\u{793C}', [0xFE, 0xF7]), ('\u{793D}', [0xCB, 0x72]), ";
"    ('\u{793E}', [0xAA, 0xC0]), ('\u{793F}', [0xCD, 0xA3]), ('\u{7940}', [0xAA, 0xC1]), ";
"    ('\u{7941}', [0xAA, 0xC2]), ('\u{7942}', [0xCD, 0xA2]), ('\u{7944}', [0xCF, 0xF8]), ";
"    ('\u{7945}', [0xCF, 0xF7]), ('\u{7946}', [0xAC, 0xE6]), ('\u{7947}', [0xAC, 0xE9]), ";
"    ('\u{7948}', [0xAC, 0xE8]), ('\u{7949}', [0xAC, 0xE7]), ('\u{794A}', [0xCF, 0xF4]), ";
"    ('\u{794B}', [0xCF, 0xF6]), ('\u{794C}', [0xCF, 0xF5]), ('\u{794F}', [0xD2, 0xE8]), ";
"    ('\u{7950}', [0xAF, 0xA7]), ('\u{7951}', [0xD2, 0xEC]), ('\u{7952}', [0xD2, 0xEB]), ";
"    ('\u{7953}', [0xD2, 0xEA]), ('\u{7954}', [0xD2, 0xE6]), ('\u{7955}', [0xAF, 0xA6]), ";
"    ('\u{7956}', [0xAF, 0xAA]), ('\u{7957}', [0xAF, 0xAD]), ('\u{7958}', [0x8F, 0x68]), ";
"    ('\u{7959}', [0x94, 0xC6]), ('\u{795A}', [0xAF, 0xAE]), ('\u{795B}', [0xD2, 0xE7]), ";
"    ('\u{795C}', [0xD2, 0xE9]), ('\u{795D}', [0xAF, 0xAC]), ('\u{795E}', [0xAF, 0xAB]), ";
"    ('\u{795F}', [0xAF, 0xA9]), ('\u{7960}', [0xAF, 0xA8]), ('\u{7961}', [0xD6, 0xC2]), ";
"    ('\u{7962}', [0x9D, 0xEA]), ('\u{7963}', [0xD6, 0xC0]), ('\u{7964}', [0xD6, 0xBC]), ";
"    ('\u{7965}', [0xB2, 0xBB]), ('\u{7967}', [0xD6, 0xBD]), ('\u{7968}', [0xB2, 0xBC]), ";
"    ('\u{7969}', [0xD6, 0xBE]), ('\u{796A}', [0xD6, 0xBF]), ('\u{796B}', [0xD6, 0xC1]), ";
"    ('\u{796D}', [0xB2, 0xBD]), ('\u{7970}', [0xDA, 0xD5]), ('\u{7971}', [0xFC, 0x69]), ";
"    ('\u{7972}', [0xDA, 0xD4]), ('\u{7973}', [0xDA, 0xD3]), ('\u{7974}', [0xDA, 0xD2]), ";
"    ('\u{7979}', [0xDE, 0xF6]), ('\u{797A}', [0xB8, 0x52]), ('\u{797C}', [0xDE, 0xF3]), ";
"    ('\u{797D}', [0xDE, 0xF5]), ('\u{797E}', [0x9C, 0xDA]), ('\u{797F}', [0xB8, 0x53]), ";
"    ('\u{7980}', [0xFE, 0xF3]), ('\u{7981}', [0xB8, 0x54]), ('\u{7982}', [0xDE, 0xF4]), ";
"    ('\u{7983}', [0x9C, 0x72]), ('\u{7986}', [0xFE, 0xF0]), ('\u{7987}', [0x89, 0xC9]), ";
"    ('\u{7988}', [0xE3, 0x41]), ('\u{798A}', [0xE2, 0xF9]), ('\u{798B}', [0xE2, 0xFA]), ";
"    ('\u{798D}', [0xBA, 0xD7]), ('\u{798E}', [0xBA, 0xD5]), ('\u{798F}', [0xBA, 0xD6]), ";
"    ('\u{7990}', [0xE3, 0x43]), ('\u{7991}', [0x99, 0x41]), ('\u{7992}', [0xE3, 0x42]), ";
"    ('\u{7993}', [0xE2, 0xFE]), ('\u{7994}', [0xE2, 0xFD]), ('\u{7995}', [0xE2, 0xFC]), ";
"    ('\u{7996}', [0xE2, 0xFB]), ('\u{7997}', [0xE3, 0x40]), ('\u{7998}', [0xE2, 0xF8]), ";
"    ('\u{7999}', [0x99, 0x42]), ('\u{799A}', [0xE6, 0xCB]), ('\u{799B}', [0x94, 0xCA]), ";
"    ('\u{799C}', [0xE6, 0xCE]), ('\u{799D}', [0xFE, 0xF5]), ('\u{799F}', [0x91, 0xD7]), ";
"    ('\u{79A0}', [0xE6, 0xCD]), ('\u{79A1}', [0xE6, 0xCC]), ('\u{79A2}', [0xE6, 0xCF]), ";
"    ('\u{79A4}', [0xEA, 0xAE]), ('\u{79A5}', [0x94, 0xCC]), ('\u{79A6}', [0xBF, 0x6D]), ";
"    ('\u{79A7}', [0xC1, 0x48]), ('\u{79A8}', [0xED, 0xB0]), ('\u{79A9}', [0xFE, 0xF8]), ";
"    ('\u{79AA}', [0xC1, 0x49]), ('\u{79AB}', [0xED, 0xAF]), ('\u{79AC}', [0xF0, 0x5F]), ";
"    ('\u{79AD}', [0xF0, 0x5E]), ('\u{79AE}', [0xC2, 0xA7]), ('\u{79B0}', [0xF2, 0xA5]), ";
"    ('\u{79B1}', [0xC3, 0xAB]), ('\u{79B2}', [0xF4, 0xA1]), ('\u{79B3}', [0xC5, 0xA1]), ";
"    ('\u{79B4}', [0xF6, 0xF7]), ('\u{79B6}', [0xF8, 0xB7]), ('\u{79B7}', [0xF8, 0xB6]), ";
"    ('\u{79B8}', [0xC9, 0xA8]), ('\u{79B9}', [0xAC, 0xEA]), ('\u{79BA}', [0xAC, 0xEB]), ";
"    ('\u{79BB}', [0xD6, 0xC3]), ('\u{79BD}', [0xB8, 0x56]), ('\u{79BE}', [0xA5, 0xDD]), ";
"    ('\u{79BF}', [0xA8, 0x72]), ('\u{79C0}', [0xA8, 0x71]), ('\u{79C1}', [0xA8, 0x70]), ";
"    ('\u{79C4}', [0x97, 0xA8]), ('\u{79C5}', [0xCD, 0xA4]), ('\u{79C6}', [0xFE, 0xFC]), ";
"    ('\u{79C8}', [0xAA, 0xC4]), ('\u{79C9}', [0xAA, 0xC3]), ('\u{79CA}', [0x8C, 0xDE]), ";
"    ('\u{79CB}', [0xAC, 0xEE]), ('\u{79CC}', [0xFD, 0xBF]), ('\u{79CD}', [0xCF, 0xFA]), ";
"    ('\u{79CE}', [0xCF, 0xFD]), ('\u{79CF}', [0xCF, 0xFB]), ('\u{79D0}', [0x87, 0xB3]), ";
"    ('\u{79D1}', [0xAC, 0xEC]), ('\u{79D2}', [0xAC, 0xED]), ('\u{79D4}', [0xFE, 0xFE]), ";
"    ('\u{79D5}', [0xCF, 0xF9]), ('\u{79D6}', [0xCF, 0xFC]), ('\u{79D8}', [0xAF, 0xB5]), ";
"    ('\u{79DC}', [0xD2, 0xF3]), ('\u{79DD}', [0xD2, 0xF5]), ('\u{79DE}', [0xD2, 0xF4]), ";
"    ('\u{79DF}', [0xAF, 0xB2]), ('\u{79E0}', [0xD2, 0xEF]), ('\u{79E2}', [0x96, 0xD1]), ";
"    ('\u{79E3}', [0x9C, 0xBD]), ('\u{79E4}', [0xAF, 0xAF]), ('\u{79E6}', [0xAF, 0xB3]), ";
"    ('\u{79E7}', [0xAF, 0xB1]), ('\u{79E9}', [0xAF, 0xB4]), ('\u{79EA}', [0xD2, 0xF2]), ";
"    ('\u{79EB}', [0xD2, 0xED]), ('\u{79EC}', [0xD2, 0xEE]), ('\u{79ED}', [0xD2, 0xF1]), ";
"    ('\u{79EE}', [0xD2, 0xF0]), ('\u{79F1}', [0x94, 0xD5]), ('\u{79F4}', [0x94, 0xD0]), ";
"    ('\u{79F6}', [0xD6, 0xC6]), ('\u{79F7}', [0xD6, 0xC7]), ('\u{79F8}', [0xD6, 0xC5]), ";
"    ('\u{79FA}', [0xD6, 0xC4]), ('\u{79FB}', [0xB2, 0xBE]), ('\u{7A00}', [0xB5, 0x7D]), ";
"    ('\u{7A02}', [0xDA, 0xD6]), ('\u{7A03}', [0xDA, 0xD8]), ('\u{7A04}', [0xDA, 0xDA]), ";
"    ('\u{7A05}', [0xB5, 0x7C]), ('\u{7A06}', [0x99, 0x44]), ('\u{7A08}', [0xB5, 0x7A]), ";
"    ('\u{7A0A}', [0xDA, 0xD7]), ('\u{7A0B}', [0xB5, 0x7B]), ('\u{7A0C}', [0xDA, 0xD9]), ";
"    ('\u{7A0D}', [0xB5, 0x79]), ('\u{7A10}', [0xDF, 0x41]), ('\u{7A11}', [0xDE, 0xF7]), ";
"    ('\u{7A12}', [0xDE, 0xFA]), ('\u{7A13}', [0xDE, 0xFE]), ('\u{7A14}', [0xB8, 0x5A]), ";
"    ('\u{7A15}', [0xDE, 0xFC]), ('\u{7A17}', [0xDE, 0xFB]), ('\u{7A18}', [0xDE, 0xF8]), ";
"    ('\u{7A19}', [0xDE, 0xF9]), ('\u{7A1A}', [0xB8, 0x58]), ('\u{7A1B}', [0xDF, 0x40]), ";
"    ('\u{7A1C}', [0xB8, 0x57]), ('\u{7A1E}', [0xB8, 0x5C]), ('\u{7A1F}', [0xB8, 0x5B]), ";
"    ('\u{7A20}', [0xB8, 0x59]), ('\u{7A22}', [0xDE, 0xFD]), ('\u{7A26}', [0xE3, 0x49]), ";
"    ('\u{7A28}', [0xE3, 0x48]), ('\u{7A2A}', [0x8C, 0x63]), ('\u{7A2B}', [0xE3, 0x44]), ";
"    ('\u{7A2C}', [0x87, 0xBB]), ('\u{7A2D}', [0xA0, 0xB3]), ('\u{7A2E}', [0xBA, 0xD8]), ";
"    ('\u{7A2F}', [0xE3, 0x47]), ('\u{7A30}', [0xE3, 0x46]), ('\u{7A31}', [0xBA, 0xD9]), ";
"    ('\u{7A32}', [0x87, 0xB4]), ('\u{7A37}', [0xBD, 0x5E]), ('\u{7A39}', [0xE6, 0xD2]), ";
"    ('\u{7A3A}', [0x94, 0xCF]), ('\u{7A3B}', [0xBD, 0x5F]), ('\u{7A3C}', [0xBD, 0x5B]), ";
"    ('\u{7A3D}', [0xBD, 0x5D]), ('\u{7A3E}', [0x9F, 0xFA]), ('\u{7A3F}', [0xBD, 0x5A]), ";
"    ('\u{7A40}', [0xBD, 0x5C]), ('\u{7A43}', [0x91, 0xE5]), ('\u{7A44}', [0xEA, 0xAF]), ";
"    ('\u{7A45}', [0x9C, 0x6A]), ('\u{7A46}', [0xBF, 0x70]), ('\u{7A47}', [0xEA, 0xB1]), ";
"    ('\u{7A48}', [0xEA, 0xB0]), ('\u{7A49}', [0x8E, 0x49]), ('\u{7A4A}', [0xE3, 0x45]), ";
"    ('\u{7A4B}', [0xBF, 0x72]), ('\u{7A4C}', [0xBF, 0x71]), ('\u{7A4D}', [0xBF, 0x6E]), ";
"    ('\u{7A4E}', [0xBF, 0x6F]), ('\u{7A54}', [0xED, 0xB5]), ('\u{7A56}', [0xED, 0xB3]), ";
"    ('\u{7A57}', [0xC1, 0x4A]), ('\u{7A58}', [0xED, 0xB4]), ('\u{7A5A}', [0xED, 0xB6]), ";
"    ('\u{7A5B}', [0xED, 0xB2]), ('\u{7A5C}', [0xED, 0xB1]), ('\u{7A5F}', [0xF0, 0x60]), ";
"    ('\u{7A60}', [0xC2, 0xAA]), ('\u{7A61}', [0xC2, 0xA8]), ('\u{7A62}', [0xC2, 0xA9]), ";
"    ('\u{7A65}', [0x8E, 0x4C]), ('\u{7A67}', [0xF2, 0xA6]), ('\u{7A68}', [0xF2, 0xA7]), ";
"    ('\u{7A69}', [0xC3, 0xAD]), ('\u{7A6B}', [0xC3, 0xAC]), ('\u{7A6C}', [0xF4, 0xA3]), ";
"    ('\u{7A6D}', [0xF4, 0xA4]), ('\u{7A6E}', [0xF4, 0xA2]), ('\u{7A70}', [0xF6, 0xF8]), ";
"    ('\u{7A71}', [0xF6, 0xF9]), ('\u{7A72}', [0x87, 0xC9]), ('\u{7A74}', [0xA5, 0xDE]), ";
"    ('\u{7A75}', [0xCA, 0x48]), ('\u{7A76}', [0xA8, 0x73]), ('\u{7A78}', [0xCD, 0xA5]), ";
"    ('\u{7A79}', [0xAA, 0xC6]), ('\u{7A7A}', [0xAA, 0xC5]), ('\u{7A7B}', [0xCD, 0xA6]), ";
"    ('\u{7A7D}', [0x8E, 0x4D]), ('\u{7A7E}', [0xD0, 0x40]), ('\u{7A7F}', [0xAC, 0xEF]), ";
"    ('\u{7A80}', [0xCF, 0xFE]), ('\u{7A81}', [0xAC, 0xF0]), ('\u{7A83}', [0x9A, 0x73]), ";
"    ('\u{7A84}', [0xAF, 0xB6]), ('\u{7A85}', [0xD2, 0xF8]), ('\u{7A86}', [0xD2, 0xF6]), ";
"    ('\u{7A87}', [0xD2, 0xFC]), ('\u{7A88}', [0xAF, 0xB7]), ('\u{7A89}', [0xD2, 0xF7]), ";
"    ('\u{7A8A}', [0xD2, 0xFB]), ('\u{7A8B}', [0xD2, 0xF9]), ('\u{7A8C}', [0xD2, 0xFA]), ";
"    ('\u{7A8F}', [0xD6, 0xC8]), ('\u{7A90}', [0xD6, 0xCA]), ('\u{7A91}', [0x99, 0x47]), ";
"    ('\u{7A92}', [0xB2, 0xBF]), ('\u{7A93}', [0x8C, 0xB1]), ('\u{7A94}', [0xD6, 0xC9]), ";
"    ('\u{7A95}', [0xB2, 0xC0]), ('\u{7A96}', [0xB5, 0xA2]), ('\u{7A97}', [0xB5, 0xA1]), ";
"    ('\u{7A98}', [0xB5, 0x7E]), ('\u{7A99}', [0xDA, 0xDB]), ('\u{7A9E}', [0xDF, 0x44]), ";
"    ('\u{7A9F}', [0xB8, 0x5D]), ('\u{7AA0}', [0xB8, 0x5E]), ('\u{7AA2}', [0xDF, 0x43]), ";
"    ('\u{7AA3}', [0xDF, 0x42]), ('\u{7AA8}', [0xE3, 0x4A]), ('\u{7AA9}', [0xBA, 0xDB]), ";
"    ('\u{7AAA}', [0xBA, 0xDA]), ('\u{7AAB}', [0xE3, 0x4B]), ('\u{7AAC}', [0xE3, 0x4C]), ";
"    ('\u{7AAE}', [0xBD, 0x61]), ('\u{7AAF}', [0xBD, 0x60]), ('\u{7AB0}', [0x8E, 0x50]), ";
"    ('\u{7AB1}', [0xEA, 0xB5]), ('\u{7AB2}', [0xE6, 0xD3]), ('\u{7AB3}', [0xE6, 0xD5]), ";
"    ('\u{7AB4}', [0xE6, 0xD4]), ('\u{7AB5}', [0xEA, 0xB4]), ('\u{7AB6}', [0xEA, 0xB2]), ";
"    ('\u{7AB7}', [0xEA, 0xB6]), ('\u{7AB8}', [0xEA, 0xB3]), ('\u{7ABA}', [0xBF, 0x73]), ";
"    ('\u{7ABB}', [0x8E, 0x4F]), ('\u{7ABC}', [0x99, 0x49]), ('\u{7ABE}', [0xED, 0xB7]), ";
"    ('\u{7ABF}', [0xC1, 0x4B]), ('\u{7AC0}', [0xED, 0xB8]), ('\u{7AC1}', [0xED, 0xB9]), ";
"    ('\u{7AC2}', [0x8E, 0x51]), ('\u{7AC3}', [0x8E, 0x52]), ('\u{7AC4}', [0xC2, 0xAB]), ";
"    ('\u{7AC5}', [0xC2, 0xAC]), ('\u{7AC7}', [0xC4, 0x75]), ('\u{7AC8}', [0x9A, 0xB2]), ";
"    ('\u{7AC9}', [0x89, 0xA5]), ('\u{7ACA}', [0xC5, 0xD1]), ('\u{7ACB}', [0xA5, 0xDF]), ";
"    ('\u{7ACF}', [0x99, 0x4C]), ('\u{7AD1}', [0xD0, 0x41]), ('\u{7AD3}', [0x9F, 0xF8]), ";
"    ('\u{7AD8}', [0xD2, 0xFD]), ('\u{7AD9}', [0xAF, 0xB8]), ('\u{7ADA}', [0x8E, 0x56]), ";
"    ('\u{7ADB}', [0x99, 0x4D]), ('\u{7ADC}', [0x91, 0xCA]), ('\u{7ADD}', [0x8E, 0x57]), ";
"    ('\u{7ADF}', [0xB3, 0xBA]), ('\u{7AE0}', [0xB3, 0xB9]), ('\u{7AE2}', [0x94, 0xE1]), ";
"    ('\u{7AE3}', [0xB5, 0xA4]), ('\u{7AE4}', [0xDA, 0xDD]), ('\u{7AE5}', [0xB5, 0xA3]), ";
"    ('\u{7AE6}', [0xDA, 0xDC]), ('\u{7AE7}', [0x90, 0x47]), ('\u{7AE9}', [0x8F, 0xD8]), ";
"    ('\u{7AEA}', [0x8E, 0x58]), ('\u{7AEB}', [0xDF, 0x45]), ('\u{7AED}', [0xBA, 0xDC]), ";
"    ('\u{7AEE}', [0xE3, 0x4D]), ('\u{7AEF}', [0xBA, 0xDD]), ('\u{7AF6}', [0xC4, 0x76]), ";
"    ('\u{7AF7}', [0xF4, 0xA5]), ('\u{7AF9}', [0xA6, 0xCB]), ('\u{7AFA}', [0xAA, 0xC7]), ";
"    ('\u{7AFB}', [0xCD, 0xA7]), ('\u{7AFC}', [0x87, 0xA3]), ('\u{7AFD}', [0xAC, 0xF2]), ";
"    ('\u{7AFE}', [0x94, 0xEB]), ('\u{7AFF}', [0xAC, 0xF1]), ('\u{7B00}', [0xD0, 0x42]), ";
"    ('\u{7B01}', [0xD0, 0x43]), ('\u{7B04}', [0xD3, 0x40]), ('\u{7B05}', [0xD3, 0x42]), ";
"    ('\u{7B06}', [0xAF, 0xB9]), ('\u{7B08}', [0xD3, 0x44]), ('\u{7B09}', [0xD3, 0x47]), ";
"    ('\u{7B0A}', [0xD3, 0x45]), ('\u{7B0B}', [0x8E, 0x5C]), ('\u{7B0C}', [0x95, 0x53]), ";
"    ('\u{7B0E}', [0xD3, 0x46]), ('\u{7B0F}', [0xD3, 0x43]), ('\u{7B10}', [0xD2, 0xFE]), ";
"    ('\u{7B11}', [0xAF, 0xBA]), ('\u{7B12}', [0xD3, 0x48]), ('\u{7B13}', [0xD3, 0x41]), ";
"    ('\u{7B14}', [0x9F, 0xE5]), ('\u{7B18}', [0xD6, 0xD3]), ('\u{7B19}', [0xB2, 0xC6]), ";
"    ('\u{7B1A}', [0xD6, 0xDC]), ('\u{7B1B}', [0xB2, 0xC3]), ('\u{7B1D}', [0xD6, 0xD5]), ";
"    ('\u{7B1E}', [0xB2, 0xC7]), ('\u{7B1F}', [0x9F, 0x56]), ('\u{7B20}', [0xB2, 0xC1]), ";
"    ('\u{7B22}', [0xD6, 0xD0]), ('\u{7B23}', [0xD6, 0xDD]), ('\u{7B24}', [0xD6, 0xD1]), ";
"    ('\u{7B25}', [0xD6, 0xCE]), ('\u{7B26}', [0xB2, 0xC5]), ('\u{7B27}', [0x95, 0x4F]), ";
"    ('\u{7B28}', [0xB2, 0xC2]), ('\u{7B29}', [0x8E, 0x5E]), ('\u{7B2A}', [0xD6, 0xD4]), ";
"    ('\u{7B2B}', [0xD6, 0xD7]), ('\u{7B2C}', [0xB2, 0xC4]), ('\u{7B2D}', [0xD6, 0xD8]), ";
"    ('\u{7B2E}', [0xB2, 0xC8]), ('\u{7B2F}', [0xD6, 0xD9]), ('\u{7B30}', [0xD6, 0xCF]), ";
"    ('\u{7B31}', [0xD6, 0xD6]), ('\u{7B32}', [0xD6, 0xDA]), ('\u{7B33}', [0xD6, 0xD2]), ";
"    ('\u{7B34}', [0xD6, 0xCD]), ('\u{7B35}', [0xD6, 0xCB]), ('\u{7B38}', [0xD6, 0xDB]), ";
"    ('\u{7B39}', [0x99, 0x6A]), ('\u{7B3B}', [0xDA, 0xDF]), ('\u{7B40}', [0xDA, 0xE4]), ";
"    ('\u{7B42}', [0x9C, 0x64]), ('\u{7B43}', [0x9C, 0xD9]), ('\u{7B44}', [0xDA, 0xE0]), ";
"    ('\u{7B45}', [0xDA, 0xE6]), ('\u{7B46}', [0xB5, 0xA7]), ('\u{7B47}', [0xD6, 0xCC]), ";
"    ('\u{7B48}', [0xDA, 0xE1]), ('\u{7B49}', [0xB5, 0xA5]), ('\u{7B4A}', [0xDA, 0xDE]), ";
"    ('\u{7B4B}', [0xB5, 0xAC]), ('\u{7B4C}', [0xDA, 0xE2]), ('\u{7B4D}', [0xB5, 0xAB]), ";
"    ('\u{7B4E}', [0xDA, 0xE3]), ('\u{7B4F}', [0xB5, 0xAD]), ('\u{7B50}', [0xB5, 0xA8]), ";
"    ('\u{7B51}', [0x9D, 0x5A]), ('\u{7B52}', [0xB5, 0xA9]), ('\u{7B54}', [0xB5, 0xAA]), ";
"    ('\u{7B55}', [0x8E, 0x5D]), ('\u{7B56}', [0xB5, 0xA6]), ('\u{7B58}', [0xDA, 0xE5]), ";
"    ('\u{7B60}', [0xB8, 0x61]), ('\u{7B61}', [0xDF, 0x50]), ('\u{7B62}', [0x99, 0x50]), ";
"    ('\u{7B63}', [0xDF, 0x53]), ('\u{7B64}', [0xDF, 0x47]), ('\u{7B65}', [0xDF, 0x4C]), ";
"    ('\u{7B66}', [0xDF, 0x46]), ('\u{7B67}', [0xB8, 0x63]), ('\u{7B69}', [0xDF, 0x4A]), ";
"    ('\u{7B6C}', [0x99, 0x51]), ('\u{7B6D}', [0xDF, 0x48]), ('\u{7B6E}', [0xB8, 0x62]), ";
"    ('\u{7B6F}', [0x8E, 0x62]), ('\u{7B70}', [0xDF, 0x4F]), ('\u{7B71}', [0xDF, 0x4E]), ";
"    ('\u{7B72}', [0xDF, 0x4B]), ('\u{7B73}', [0xDF, 0x4D]), ('\u{7B74}', [0xDF, 0x49]), ";
"    ('\u{7B75}', [0xBA, 0xE1]), ('\u{7B76}', [0xDF, 0x52]), ('\u{7B77}', [0xB8, 0x5F]), ";
"    ('\u{7B78}', [0xDF, 0x51]), ('\u{7B7B}', [0x99, 0x52]), ('\u{7B82}', [0xE3, 0x5D]), ";
"    ('\u{7B84}', [0xBA, 0xE8]), ('\u{7B85}', [0xE3, 0x58]), ('\u{7B87}', [0xBA, 0xE7]), ";
"    ('\u{7B88}', [0xE3, 0x4E]), ('\u{7B8A}', [0xE3, 0x50]), ('\u{7B8B}', [0xBA, 0xE0]), ";
"    ('\u{7B8C}', [0xE3, 0x55]), ('\u{7B8D}', [0xE3, 0x54]), ('\u{7B8E}', [0xE3, 0x57]), ";
"    ('\u{7B8F}', [0xBA, 0xE5]), ('\u{7B90}', [0xE3, 0x52]), ('\u{7B91}', [0xE3, 0x51]), ";
"    ('\u{7B92}', [0x8E, 0x68]), ('\u{7B94}', [0xBA, 0xE4]), ('\u{7B95}', [0xBA, 0xDF]), ";
"    ('\u{7B96}', [0xE3, 0x53]), ('\u{7B97}', [0xBA, 0xE2]), ('\u{7B98}', [0xE3, 0x59]), ";
"    ('\u{7B99}', [0xE3, 0x5B]), ('\u{7B9B}', [0xE3, 0x56]), ('\u{7B9C}', [0xE3, 0x4F]), ";
"    ('\u{7B9D}', [0xBA, 0xE3]), ('\u{7BA0}', [0xBD, 0x69]), ('\u{7BA1}', [0xBA, 0xDE]), ";
"    ('\u{7BA2}', [0x8E, 0x61]), ('\u{7BA3}', [0x9F, 0x59]), ('\u{7BA4}', [0xE3, 0x5C]), ";
"    ('\u{7BAC}', [0xE6, 0xD9]), ('\u{7BAD}', [0xBD, 0x62]), ('\u{7BAE}', [0x87, 0xD0]), ";
"    ('\u{7BAF}', [0xE6, 0xDB]), ('\u{7BB1}', [0xBD, 0x63]), ('\u{7BB2}', [0x8B, 0xB3]), ";
"    ('\u{7BB4}', [0xBD, 0x65]), ('\u{7BB5}', [0xE6, 0xDE]), ('\u{7BB7}', [0xE6, 0xD6]), ";
"    ('\u{7BB8}', [0x8E, 0x69]), ('\u{7BB9}', [0xE6, 0xDC]), ('\u{7BBE}', [0xE6, 0xD8]), ";
"    ('\u{7BC0}', [0xB8, 0x60]), ('\u{7BC1}', [0xBD, 0x68]), ('\u{7BC4}', [0xBD, 0x64]), ";
"    ('\u{7BC5}', [0x87, 0xB9]), ('\u{7BC6}', [0xBD, 0x66]), ('\u{7BC7}', [0xBD, 0x67]), ";
"    ('\u{7BC9}', [0xBF, 0x76]), ('\u{7BCA}', [0xE6, 0xDD]), ('\u{7BCB}', [0xE6, 0xD7]), ";
"    ('\u{7BCC}', [0xBD, 0x6A]), ('\u{7BCE}', [0xE6, 0xDA]), ('\u{7BCF}', [0x9F, 0x5D]), ";
"    ('\u{7BD0}', [0x8E, 0x66]), ('\u{7BD4}', [0xEA, 0xC0]), ('\u{7BD5}', [0xEA, 0xBB]), ";
"    ('\u{7BD8}', [0xEA, 0xC5]), ('\u{7BD9}', [0xBF, 0x74]), ('\u{7BDA}', [0xEA, 0xBD]), ";
"    ('\u{7BDB}', [0xBF, 0x78]), ('\u{7BDC}', [0xEA, 0xC3]), ('\u{7BDD}', [0xEA, 0xBA]), ";
"    ('\u{7BDE}', [0xEA, 0xB7]), ('\u{7BDF}', [0xEA, 0xC6]), ('\u{7BE0}', [0xC1, 0x51]), ";
"    ('\u{7BE1}', [0xBF, 0x79]), ('\u{7BE2}', [0xEA, 0xC2]), ('\u{7BE3}', [0xEA, 0xB8]), ";
"    ('\u{7BE4}', [0xBF, 0x77]), ('\u{7BE5}', [0xEA, 0xBC]), ('\u{7BE6}', [0xBF, 0x7B]), ";
"    ('\u{7BE7}', [0xEA, 0xB9]), ('\u{7BE8}', [0xEA, 0xBE]), ('\u{7BE9}', [0xBF, 0x7A]), ";
"    ('\u{7BEA}', [0xEA, 0xC1]), ('\u{7BEB}', [0xEA, 0xC4]), ('\u{7BEC}', [0x8C, 0xB2]), ";
"    ('\u{7BF0}', [0xED, 0xCB]), ('\u{7BF1}', [0xED, 0xCC]), ('\u{7BF2}', [0xED, 0xBC]), ";
"    ('\u{7BF3}', [0xED, 0xC3]), ('\u{7BF4}', [0xED, 0xC1]), ('\u{7BF7}', [0xC1, 0x4F]), ";
"    ('\u{7BF8}', [0xED, 0xC8]), ('\u{7BF9}', [0xEA, 0xBF]), ('\u{7BFA}', [0x8E, 0x6E]), ";
"    ('\u{7BFB}', [0xED, 0xBF]), ('\u{7BFC}', [0x9F, 0x64]), ('\u{7BFD}', [0xED, 0xC9]), ";
"    ('\u{7BFE}', [0xC1, 0x4E]), ('\u{7BFF}', [0xED, 0xBE]), ('\u{7C00}', [0xED, 0xBD]), ";
"    ('\u{7C01}', [0xED, 0xC7]), ('\u{7C02}', [0xED, 0xC4]), ('\u{7C03}', [0xED, 0xC6]), ";
"    ('\u{7C05}', [0xED, 0xBA]), ('\u{7C06}', [0x8E, 0x6F]), ('\u{7C07}', [0xC1, 0x4C]), ";
"    ('\u{7C09}', [0xED, 0xC5]), ('\u{7C0A}', [0xED, 0xCE]), ('\u{7C0B}', [0xED, 0xC2]), ";
"    ('\u{7C0C}', [0xC1, 0x50]), ('\u{7C0D}', [0xC1, 0x4D]), ('\u{7C0E}', [0xED, 0xC0]), ";
"    ('\u{7C0F}', [0xED, 0xBB]), ('\u{7C10}', [0xED, 0xCD]), ('\u{7C11}', [0xBF, 0x75]), ";
"    ('\u{7C12}', [0x99, 0x53]), ('\u{7C15}', [0xFA, 0xB8]), ('\u{7C19}', [0xF0, 0x63]), ";
"    ('\u{7C1B}', [0x99, 0x54]), ('\u{7C1C}', [0xF0, 0x61]), ('\u{7C1D}', [0xF0, 0x67]), ";
"    ('\u{7C1E}', [0xC2, 0xB0]), ('\u{7C1F}', [0xF0, 0x65]), ('\u{7C20}', [0xF0, 0x64]), ";
"    ('\u{7C21}', [0xC2, 0xB2]), ('\u{7C22}', [0xF0, 0x6A]), ('\u{7C23}', [0xC2, 0xB1]), ";
"    ('\u{7C25}', [0xF0, 0x6B]), ('\u{7C26}', [0xF0, 0x68]), ('\u{7C27}', [0xC2, 0xAE]), ";
"    ('\u{7C28}', [0xF0, 0x69]), ('\u{7C29}', [0xF0, 0x62]), ('\u{7C2A}', [0xC2, 0xAF]), ";
"    ('\u{7C2B}', [0xC2, 0xAD]), ('\u{7C2C}', [0xF2, 0xAB]), ('\u{7C2D}', [0xF0, 0x66]), "
].
(* /repo/src/generated/whatwg/big5_whatwg_tables.rs.inc:5889-6144 *)
Definition big5_inc_23 : list line := [
"    ('\u{7C30}', [0xF0, 0x6C]), ('\u{7C33}', [0xF2, 0xA8]), ('\u{7C35}', [0x8E, 0x70]), ";
"    ('\u{7C37}', [0xC3, 0xB2]), ('\u{7C38}', [0xC3, 0xB0]), ('\u{7C39}', [0xF2, 0xAA]), ";
"    ('\u{7C3B}', [0xF2, 0xAC]), ('\u{7C3C}', [0xF2, 0xA9]), ('\u{7C3D}', [0xC3, 0xB1]), ";
"    ('\u{7C3E}', [0xC3, 0xAE]), ('\u{7C3F}', [0xC3, 0xAF]), ('\u{7C40}', [0xC3, 0xB3]), ";
"    ('\u{7C42}', [0x9F, 0x61]), ('\u{7C43}', [0xC4, 0x78]), ('\u{7C44}', [0x8E, 0x72]), ";
"    ('\u{7C45}', [0xF4, 0xAA]), ('\u{7C47}', [0xF4, 0xA9]), ('\u{7C48}', [0xF4, 0xA7]), ";
"    ('\u{7C49}', [0xF4, 0xA6]), ('\u{7C4A}', [0xF4, 0xA8]), ('\u{7C4C}', [0xC4, 0x77]), ";
"    ('\u{7C4D}', [0xC4, 0x79]), ('\u{7C50}', [0xC4, 0xF0]), ('\u{7C51}', [0xA0, 0x6B]), ";
"    ('\u{7C53}', [0xF5, 0xE5]), ('\u{7C54}', [0xF5, 0xE4]), ('\u{7C56}', [0x9F, 0x40]), ";
"    ('\u{7C57}', [0xF6, 0xFA]), ('\u{7C59}', [0xF6, 0xFC]), ('\u{7C5A}', [0xF6, 0xFE]), ";
"    ('\u{7C5B}', [0xF6, 0xFD]), ('\u{7C5C}', [0xF6, 0xFB]), ('\u{7C5D}', [0x94, 0xED]), ";
"    ('\u{7C5F}', [0xC5, 0xA3]), ('\u{7C60}', [0xC5, 0xA2]), ('\u{7C63}', [0xC5, 0xD3]), ";
"    ('\u{7C64}', [0xC5, 0xD2]), ('\u{7C65}', [0xC5, 0xD4]), ('\u{7C66}', [0xF7, 0xED]), ";
"    ('\u{7C67}', [0xF7, 0xEC]), ('\u{7C69}', [0xF8, 0xFB]), ('\u{7C6A}', [0xF8, 0xB8]), ";
"    ('\u{7C6B}', [0xF8, 0xFC]), ('\u{7C6C}', [0xC6, 0x58]), ('\u{7C6D}', [0x94, 0xEE]), ";
"    ('\u{7C6E}', [0xC6, 0x59]), ('\u{7C6F}', [0xF9, 0x6D]), ('\u{7C70}', [0x9F, 0xBD]), ";
"    ('\u{7C72}', [0xC6, 0x7E]), ('\u{7C73}', [0xA6, 0xCC]), ('\u{7C74}', [0x8E, 0x7B]), ";
"    ('\u{7C75}', [0xCD, 0xA8]), ('\u{7C78}', [0xD0, 0x45]), ('\u{7C79}', [0xD0, 0x46]), ";
"    ('\u{7C7A}', [0xD0, 0x44]), ('\u{7C7B}', [0x99, 0x57]), ('\u{7C7C}', [0x94, 0xF7]), ";
"    ('\u{7C7D}', [0xAC, 0xF3]), ('\u{7C7E}', [0x9F, 0x5F]), ('\u{7C7F}', [0xD0, 0x47]), ";
"    ('\u{7C80}', [0xD0, 0x48]), ('\u{7C81}', [0xD0, 0x49]), ('\u{7C83}', [0x8E, 0x73]), ";
"    ('\u{7C84}', [0xD3, 0x49]), ('\u{7C85}', [0xD3, 0x4F]), ('\u{7C86}', [0x9F, 0x62]), ";
"    ('\u{7C88}', [0xD3, 0x4D]), ('\u{7C89}', [0xAF, 0xBB]), ('\u{7C8A}', [0xD3, 0x4B]), ";
"    ('\u{7C8C}', [0xD3, 0x4C]), ('\u{7C8D}', [0xD3, 0x4E]), ('\u{7C8E}', [0x94, 0xF6]), ";
"    ('\u{7C91}', [0xD3, 0x4A]), ('\u{7C92}', [0xB2, 0xC9]), ('\u{7C94}', [0xD6, 0xDE]), ";
"    ('\u{7C95}', [0xB2, 0xCB]), ('\u{7C96}', [0xD6, 0xE0]), ('\u{7C97}', [0xB2, 0xCA]), ";
"    ('\u{7C98}', [0xD6, 0xDF]), ('\u{7C9C}', [0x99, 0x58]), ('\u{7C9E}', [0xDA, 0xE8]), ";
"    ('\u{7C9F}', [0xB5, 0xAF]), ('\u{7CA1}', [0xDA, 0xEA]), ('\u{7CA2}', [0xDA, 0xE7]), ";
"    ('\u{7CA3}', [0xD6, 0xE1]), ('\u{7CA5}', [0xB5, 0xB0]), ('\u{7CA6}', [0x8E, 0x75]), ";
"    ('\u{7CA7}', [0xF9, 0xDB]), ('\u{7CA8}', [0xDA, 0xE9]), ('\u{7CAC}', [0x90, 0x72]), ";
"    ('\u{7CAE}', [0x94, 0xF8]), ('\u{7CAF}', [0xDF, 0x56]), ('\u{7CB1}', [0xB8, 0x64]), ";
"    ('\u{7CB2}', [0xDF, 0x54]), ('\u{7CB3}', [0xB8, 0x65]), ('\u{7CB4}', [0xDF, 0x55]), ";
"    ('\u{7CB5}', [0xB8, 0x66]), ('\u{7CB8}', [0x99, 0x5A]), ('\u{7CB9}', [0xBA, 0xE9]), ";
"    ('\u{7CBA}', [0xE3, 0x61]), ('\u{7CBB}', [0xE3, 0x5E]), ('\u{7CBC}', [0xE3, 0x60]), ";
"    ('\u{7CBD}', [0xBA, 0xEA]), ('\u{7CBE}', [0xBA, 0xEB]), ('\u{7CBF}', [0xE3, 0x5F]), ";
"    ('\u{7CC2}', [0xA0, 0xB0]), ('\u{7CC3}', [0x8C, 0xB3]), ('\u{7CC5}', [0xE6, 0xDF]), ";
"    ('\u{7CC7}', [0x8E, 0x79]), ('\u{7CC8}', [0xE6, 0xE0]), ('\u{7CC9}', [0x8E, 0x78]), ";
"    ('\u{7CCA}', [0xBD, 0x6B]), ('\u{7CCB}', [0xE6, 0xE2]), ('\u{7CCC}', [0xE6, 0xE1]), ";
"    ('\u{7CCD}', [0x94, 0xF3]), ('\u{7CCE}', [0x8E, 0x7E]), ('\u{7CD0}', [0xEA, 0xCA]), ";
"    ('\u{7CD1}', [0xEA, 0xCB]), ('\u{7CD2}', [0xEA, 0xC7]), ('\u{7CD3}', [0x98, 0xAF]), ";
"    ('\u{7CD4}', [0xEA, 0xC8]), ('\u{7CD5}', [0xBF, 0x7C]), ('\u{7CD6}', [0xBF, 0x7D]), ";
"    ('\u{7CD7}', [0xEA, 0xC9]), ('\u{7CD9}', [0xC1, 0x57]), ('\u{7CDA}', [0xA0, 0xB2]), ";
"    ('\u{7CDC}', [0xC1, 0x53]), ('\u{7CDD}', [0xC1, 0x58]), ('\u{7CDE}', [0xC1, 0x54]), ";
"    ('\u{7CDF}', [0xC1, 0x56]), ('\u{7CE0}', [0xC1, 0x52]), ('\u{7CE2}', [0xC1, 0x55]), ";
"    ('\u{7CE6}', [0x8E, 0x7A]), ('\u{7CE7}', [0xC2, 0xB3]), ('\u{7CE8}', [0xED, 0xCF]), ";
"    ('\u{7CEA}', [0xF2, 0xAE]), ('\u{7CEC}', [0xF2, 0xAD]), ('\u{7CED}', [0x99, 0x5C]), ";
"    ('\u{7CEE}', [0xF4, 0xAB]), ('\u{7CEF}', [0xC4, 0x7A]), ('\u{7CF0}', [0xC4, 0x7B]), ";
"    ('\u{7CF1}', [0xF7, 0x41]), ('\u{7CF2}', [0xF5, 0xE6]), ('\u{7CF3}', [0x8E, 0x7C]), ";
"    ('\u{7CF4}', [0xF7, 0x40]), ('\u{7CF5}', [0x8E, 0x7D]), ('\u{7CF6}', [0xF8, 0xFD]), ";
"    ('\u{7CF7}', [0xF9, 0xA4]), ('\u{7CF8}', [0xA6, 0xCD]), ('\u{7CF9}', [0x8B, 0xD9]), ";
"    ('\u{7CFB}', [0xA8, 0x74]), ('\u{7CFC}', [0x89, 0xA2]), ('\u{7CFD}', [0xCD, 0xA9]), ";
"    ('\u{7CFE}', [0xAA, 0xC8]), ('\u{7D00}', [0xAC, 0xF6]), ('\u{7D01}', [0xD0, 0x4C]), ";
"    ('\u{7D02}', [0xAC, 0xF4]), ('\u{7D03}', [0xD0, 0x4A]), ('\u{7D04}', [0xAC, 0xF9]), ";
"    ('\u{7D05}', [0xAC, 0xF5]), ('\u{7D06}', [0xAC, 0xFA]), ('\u{7D07}', [0xAC, 0xF8]), ";
"    ('\u{7D08}', [0xD0, 0x4B]), ('\u{7D09}', [0xAC, 0xF7]), ('\u{7D0A}', [0xAF, 0xBF]), ";
"    ('\u{7D0B}', [0xAF, 0xBE]), ('\u{7D0C}', [0xD3, 0x5A]), ('\u{7D0D}', [0xAF, 0xC7]), ";
"    ('\u{7D0E}', [0xD3, 0x53]), ('\u{7D0F}', [0xD3, 0x59]), ('\u{7D10}', [0xAF, 0xC3]), ";
"    ('\u{7D11}', [0xD3, 0x52]), ('\u{7D12}', [0xD3, 0x58]), ('\u{7D13}', [0xD3, 0x56]), ";
"    ('\u{7D14}', [0xAF, 0xC2]), ('\u{7D15}', [0xAF, 0xC4]), ('\u{7D16}', [0xD3, 0x55]), ";
"    ('\u{7D17}', [0xAF, 0xBD]), ('\u{7D18}', [0xD3, 0x54]), ('\u{7D19}', [0xAF, 0xC8]), ";
"    ('\u{7D1A}', [0xAF, 0xC5]), ('\u{7D1B}', [0xAF, 0xC9]), ('\u{7D1C}', [0xAF, 0xC6]), ";
"    ('\u{7D1D}', [0xD3, 0x51]), ('\u{7D1E}', [0xD3, 0x50]), ('\u{7D1F}', [0xD3, 0x57]), ";
"    ('\u{7D20}', [0xAF, 0xC0]), ('\u{7D21}', [0xAF, 0xBC]), ('\u{7D22}', [0xAF, 0xC1]), ";
"    ('\u{7D25}', [0x9E, 0xD7]), ('\u{7D28}', [0xD6, 0xF0]), ('\u{7D29}', [0xD6, 0xE9]), ";
"    ('\u{7D2B}', [0xB5, 0xB5]), ('\u{7D2C}', [0xD6, 0xE8]), ('\u{7D2E}', [0xB2, 0xCF]), ";
"    ('\u{7D2F}', [0xB2, 0xD6]), ('\u{7D30}', [0xB2, 0xD3]), ('\u{7D31}', [0xB2, 0xD9]), ";
"    ('\u{7D32}', [0xB2, 0xD8]), ('\u{7D33}', [0xB2, 0xD4]), ('\u{7D35}', [0xD6, 0xE2]), ";
"    ('\u{7D36}', [0xD6, 0xE5]), ('\u{7D38}', [0xD6, 0xE4]), ('\u{7D39}', [0xB2, 0xD0]), ";
"    ('\u{7D3A}', [0xD6, 0xE6]), ('\u{7D3B}', [0xD6, 0xEF]), ('\u{7D3C}', [0xB2, 0xD1]), ";
"    ('\u{7D3D}', [0xD6, 0xE3]), ('\u{7D3E}', [0xD6, 0xEC]), ('\u{7D3F}', [0xD6, 0xED]), ";
"    ('\u{7D40}', [0xB2, 0xD2]), ('\u{7D41}', [0xD6, 0xEA]), ('\u{7D42}', [0xB2, 0xD7]), ";
"    ('\u{7D43}', [0xB2, 0xCD]), ('\u{7D44}', [0xB2, 0xD5]), ('\u{7D45}', [0xD6, 0xE7]), ";
"    ('\u{7D46}', [0xB2, 0xCC]), ('\u{7D47}', [0xD6, 0xEB]), ('\u{7D4A}', [0xD6, 0xEE]), ";
"    ('\u{7D4D}', [0xA0, 0xB6]), ('\u{7D4E}', [0xDA, 0xFB]), ('\u{7D4F}', [0xDA, 0xF2]), ";
"    ('\u{7D50}', [0xB5, 0xB2]), ('\u{7D51}', [0xDA, 0xF9]), ('\u{7D52}', [0xDA, 0xF6]), ";
"    ('\u{7D53}', [0xDA, 0xEE]), ('\u{7D54}', [0xDA, 0xF7]), ('\u{7D55}', [0xB5, 0xB4]), ";
"    ('\u{7D56}', [0xDA, 0xEF]), ('\u{7D58}', [0xDA, 0xEB]), ('\u{7D5A}', [0x9E, 0x42]), ";
"    ('\u{7D5B}', [0xB8, 0x6C]), ('\u{7D5C}', [0xDA, 0xF4]), ('\u{7D5D}', [0x8E, 0xA4]), ";
"    ('\u{7D5E}', [0xB5, 0xB1]), ('\u{7D5F}', [0xDA, 0xFA]), ('\u{7D61}', [0xB5, 0xB8]), ";
"    ('\u{7D62}', [0xB5, 0xBA]), ('\u{7D63}', [0xDA, 0xED]), ('\u{7D66}', [0xB5, 0xB9]), ";
"    ('\u{7D67}', [0xDA, 0xF0]), ('\u{7D68}', [0xB5, 0xB3]), ('\u{7D69}', [0xDA, 0xF8]), ";
"    ('\u{7D6A}', [0xDA, 0xF1]), ('\u{7D6B}', [0xDA, 0xF5]), ('\u{7D6D}', [0xDA, 0xF3]), ";
"    ('\u{7D6E}', [0xB5, 0xB6]), ('\u{7D6F}', [0xDA, 0xEC]), ('\u{7D70}', [0xB5, 0xBB]), ";
"    ('\u{7D71}', [0xB2, 0xCE]), ('\u{7D72}', [0xB5, 0xB7]), ('\u{7D73}', [0xB5, 0xBC]), ";
"    ('\u{7D79}', [0xB8, 0x68]), ('\u{7D7A}', [0xDF, 0x5D]), ('\u{7D7B}', [0xDF, 0x5F]), ";
"    ('\u{7D7C}', [0xDF, 0x61]), ('\u{7D7D}', [0xDF, 0x65]), ('\u{7D7F}', [0xDF, 0x5B]), ";
"    ('\u{7D80}', [0xDF, 0x59]), ('\u{7D81}', [0xB8, 0x6A]), ('\u{7D83}', [0xDF, 0x60]), ";
"    ('\u{7D84}', [0xDF, 0x64]), ('\u{7D85}', [0xDF, 0x5C]), ('\u{7D86}', [0xDF, 0x58]), ";
"    ('\u{7D88}', [0xDF, 0x57]), ('\u{7D89}', [0x8E, 0xA7]), ('\u{7D8B}', [0x8C, 0x76]), ";
"    ('\u{7D8C}', [0xDF, 0x62]), ('\u{7D8D}', [0xDF, 0x5A]), ('\u{7D8E}', [0xDF, 0x5E]), ";
"    ('\u{7D8F}', [0xB8, 0x6B]), ('\u{7D91}', [0xB8, 0x69]), ('\u{7D92}', [0xDF, 0x66]), ";
"    ('\u{7D93}', [0xB8, 0x67]), ('\u{7D94}', [0xDF, 0x63]), ('\u{7D95}', [0x87, 0x67]), ";
"    ('\u{7D96}', [0xE3, 0x72]), ('\u{7D97}', [0x95, 0x42]), ('\u{7D9C}', [0xBA, 0xEE]), ";
"    ('\u{7D9D}', [0xE3, 0x6A]), ('\u{7D9E}', [0xBD, 0x78]), ('\u{7D9F}', [0xE3, 0x74]), ";
"    ('\u{7DA0}', [0xBA, 0xF1]), ('\u{7DA1}', [0xE3, 0x78]), ('\u{7DA2}', [0xBA, 0xF7]), ";
"    ('\u{7DA3}', [0xE3, 0x65]), ('\u{7DA4}', [0x98, 0x7D]), ('\u{7DA6}', [0xE3, 0x75]), ";
"    ('\u{7DA7}', [0xE3, 0x62]), ('\u{7DA8}', [0x97, 0x55]), ('\u{7DA9}', [0xE3, 0x77]), ";
"    ('\u{7DAA}', [0xE3, 0x66]), ('\u{7DAB}', [0x8E, 0xA8]), ('\u{7DAC}', [0xBA, 0xFE]), ";
"    ('\u{7DAD}', [0xBA, 0xFB]), ('\u{7DAE}', [0xE3, 0x76]), ('\u{7DAF}', [0xE3, 0x70]), ";
"    ('\u{7DB0}', [0xBA, 0xED]), ('\u{7DB1}', [0xBA, 0xF5]), ('\u{7DB2}', [0xBA, 0xF4]), ";
"    ('\u{7DB3}', [0x8E, 0xAA]), ('\u{7DB4}', [0xBA, 0xF3]), ('\u{7DB5}', [0xBA, 0xF9]), ";
"    ('\u{7DB7}', [0xE3, 0x63]), ('\u{7DB8}', [0xBA, 0xFA]), ('\u{7DB9}', [0xE3, 0x71]), ";
"    ('\u{7DBA}', [0xBA, 0xF6]), ('\u{7DBB}', [0xBA, 0xEC]), ('\u{7DBC}', [0xE3, 0x73]), ";
"    ('\u{7DBD}', [0xBA, 0xEF]), ('\u{7DBE}', [0xBA, 0xF0]), ('\u{7DBF}', [0xBA, 0xF8]), ";
"    ('\u{7DC0}', [0xE3, 0x68]), ('\u{7DC1}', [0xE3, 0x67]), ('\u{7DC2}', [0xE3, 0x64]), ";
"    ('\u{7DC4}', [0xE3, 0x6C]), ('\u{7DC5}', [0xE3, 0x69]), ('\u{7DC6}', [0xE3, 0x6D]), ";
"    ('\u{7DC7}', [0xBA, 0xFD]), ('\u{7DC9}', [0xE3, 0x79]), ('\u{7DCA}', [0xBA, 0xF2]), ";
"    ('\u{7DCB}', [0xE3, 0x6E]), ('\u{7DCC}', [0xE3, 0x6F]), ('\u{7DCD}', [0x89, 0xA3]), ";
"    ('\u{7DCE}', [0xE3, 0x6B]), ('\u{7DCF}', [0x99, 0x60]), ('\u{7DD0}', [0x99, 0x62]), ";
"    ('\u{7DD2}', [0x8E, 0xAB]), ('\u{7DD3}', [0x94, 0xFC]), ('\u{7DD4}', [0x99, 0x61]), ";
"    ('\u{7DD7}', [0xE6, 0xE7]), ('\u{7DD8}', [0xBD, 0x70]), ('\u{7DD9}', [0xBD, 0x79]), ";
"    ('\u{7DDA}', [0xBD, 0x75]), ('\u{7DDB}', [0xE6, 0xE4]), ('\u{7DDC}', [0x94, 0xFA]), ";
"    ('\u{7DDD}', [0xBD, 0x72]), ('\u{7DDE}', [0xBD, 0x76]), ('\u{7DDF}', [0xE6, 0xF0]), ";
"    ('\u{7DE0}', [0xBD, 0x6C]), ('\u{7DE1}', [0xE6, 0xE8]), ('\u{7DE3}', [0xBD, 0x74]), ";
"    ('\u{7DE4}', [0x8E, 0xAE]), ('\u{7DE5}', [0x8E, 0xB2]), ('\u{7DE6}', [0xE6, 0xEB]), ";
"    ('\u{7DE7}', [0xE6, 0xE6]), ('\u{7DE8}', [0xBD, 0x73]), ('\u{7DE9}', [0xBD, 0x77]), ";
"    ('\u{7DEA}', [0xE6, 0xE5]), ('\u{7DEC}', [0xBD, 0x71]), ('\u{7DEE}', [0xE6, 0xEF]), ";
"    ('\u{7DEF}', [0xBD, 0x6E]), ('\u{7DF0}', [0xE6, 0xEE]), ('\u{7DF1}', [0xE6, 0xED]), ";
"    ('\u{7DF2}', [0xBD, 0x7A]), ('\u{7DF3}', [0xE5, 0x72]), ('\u{7DF4}', [0xBD, 0x6D]), ";
"    ('\u{7DF5}', [0x8E, 0xB0]), ('\u{7DF6}', [0xE6, 0xEC]), ('\u{7DF7}', [0xE6, 0xE3]), ";
"    ('\u{7DF9}', [0xBD, 0x7B]), ('\u{7DFA}', [0xE6, 0xEA]), ('\u{7DFB}', [0xBD, 0x6F]), ";
"    ('\u{7DFD}', [0x99, 0x63]), ('\u{7DFE}', [0x97, 0xAA]), ('\u{7E03}', [0xE6, 0xE9]), ";
"    ('\u{7E07}', [0x94, 0xFB]), ('\u{7E08}', [0xBF, 0xA2]), ('\u{7E09}', [0xBF, 0xA7]), ";
"    ('\u{7E0A}', [0xBF, 0x7E]), ('\u{7E0B}', [0xEA, 0xD8]), ('\u{7E0C}', [0xEA, 0xCF]), ";
"    ('\u{7E0D}', [0xEA, 0xDB]), ('\u{7E0E}', [0xEA, 0xD3]), ('\u{7E0F}', [0xEA, 0xD9]), ";
"    ('\u{7E10}', [0xBF, 0xA8]), ('\u{7E11}', [0xBF, 0xA1]), ('\u{7E12}', [0xEA, 0xCC]), ";
"    ('\u{7E13}', [0xEA, 0xD2]), ('\u{7E14}', [0xEA, 0xDC]), ('\u{7E15}', [0xEA, 0xD5]), ";
"    ('\u{7E16}', [0xEA, 0xDA]), ('\u{7E17}', [0xEA, 0xCE]), ('\u{7E1A}', [0xEA, 0xD6]), ";
"    ('\u{7E1B}', [0xBF, 0xA3]), ('\u{7E1C}', [0xEA, 0xD4]), ('\u{7E1D}', [0x8E, 0xB4]), ";
"    ('\u{7E1E}', [0xBF, 0xA5]), ('\u{7E1F}', [0xEA, 0xD0]), ('\u{7E20}', [0xEA, 0xD1]), ";
"    ('\u{7E21}', [0xEA, 0xCD]), ('\u{7E22}', [0xEA, 0xD7]), ('\u{7E23}', [0xBF, 0xA4]), ";
"    ('\u{7E24}', [0xEA, 0xDE]), ('\u{7E25}', [0xEA, 0xDD]), ('\u{7E27}', [0x8E, 0xBB]), ";
"    ('\u{7E29}', [0xED, 0xDA]), ('\u{7E2A}', [0xED, 0xD6]), ('\u{7E2B}', [0xC1, 0x5F]), ";
"    ('\u{7E2D}', [0xED, 0xD0]), ('\u{7E2E}', [0xC1, 0x59]), ('\u{7E2F}', [0xC1, 0x69]), ";
"    ('\u{7E30}', [0xED, 0xDC]), ('\u{7E31}', [0xC1, 0x61]), ('\u{7E32}', [0xC1, 0x5D]), ";
"    ('\u{7E33}', [0xED, 0xD3]), ('\u{7E34}', [0xC1, 0x64]), ('\u{7E35}', [0xC1, 0x67]), ";
"    ('\u{7E36}', [0xED, 0xDE]), ('\u{7E37}', [0xC1, 0x5C]), ('\u{7E38}', [0xED, 0xD5]), ";
"    ('\u{7E39}', [0xC1, 0x65]), ('\u{7E3A}', [0xED, 0xE0]), ('\u{7E3B}', [0xED, 0xDD]), ";
"    ('\u{7E3C}', [0xED, 0xD1]), ('\u{7E3D}', [0xC1, 0x60]), ('\u{7E3E}', [0xC1, 0x5A]), ";
"    ('\u{7E3F}', [0xC1, 0x68]), ('\u{7E40}', [0xED, 0xD8]), ('\u{7E41}', [0xC1, 0x63]), ";
"    ('\u{7E42}', [0xED, 0xD2]), ('\u{7E43}', [0xC1, 0x5E]), ('\u{7E44}', [0xED, 0xDF]), ";
"    ('\u{7E45}', [0xC1, 0x62]), ('\u{7E46}', [0xC1, 0x5B]), ('\u{7E47}', [0xED, 0xD9]), ";
"    ('\u{7E48}', [0xC1, 0x66]), ('\u{7E49}', [0xED, 0xD7]), ('\u{7E4C}', [0xED, 0xDB]), ";
"    ('\u{7E50}', [0xF0, 0x6E]), ('\u{7E51}', [0xF0, 0x74]), ('\u{7E52}', [0xC2, 0xB9]), ";
"    ('\u{7E53}', [0xF0, 0x77]), ('\u{7E54}', [0xC2, 0xB4]), ('\u{7E55}', [0xC2, 0xB5]), ";
"    ('\u{7E56}', [0xF0, 0x6F]), ('\u{7E57}', [0xF0, 0x76]), ('\u{7E58}', [0xF0, 0x71]), ";
"    ('\u{7E59}', [0xC2, 0xBA]), ('\u{7E5A}', [0xC2, 0xB7]), ('\u{7E5B}', [0x8C, 0xDC]), ";
"    ('\u{7E5C}', [0xF0, 0x6D]), ('\u{7E5E}', [0xC2, 0xB6]), ('\u{7E5F}', [0xF0, 0x73]), ";
"    ('\u{7E60}', [0xF0, 0x75]), ('\u{7E61}', [0xC2, 0xB8]), ('\u{7E62}', [0xF0, 0x72]), ";
"    ('\u{7E63}', [0xF0, 0x70]), ('\u{7E65}', [0x98, 0x76]), ('\u{7E67}', [0x8E, 0xA1]), ";
"    ('\u{7E68}', [0xF2, 0xB8]), ('\u{7E69}', [0xC3, 0xB7]), ('\u{7E6A}', [0xC3, 0xB8]), ";
"    ('\u{7E6B}', [0xC3, 0xB4]), ('\u{7E6C}', [0x8C, 0xB4]), ('\u{7E6D}', [0xC3, 0xB5]), ";
"    ('\u{7E6E}', [0x8E, 0xB7]), ('\u{7E6F}', [0xF2, 0xB4]), ('\u{7E70}', [0xF2, 0xB2]), ";
"    ('\u{7E72}', [0xF2, 0xB6]), ('\u{7E73}', [0xC3, 0xBA]), ('\u{7E74}', [0xF2, 0xB7]), ";
"    ('\u{7E75}', [0xF2, 0xB0]), ('\u{7E76}', [0xF2, 0xAF]), ('\u{7E77}', [0xF2, 0xB3]), ";
"    ('\u{7E78}', [0xF2, 0xB1]), ('\u{7E79}', [0xC3, 0xB6]), ('\u{7E7A}', [0xF2, 0xB5]), ";
"    ('\u{7E7B}', [0xF4, 0xAC]), ('\u{7E7C}', [0xC4, 0x7E]), ('\u{7E7D}', [0xC4, 0x7D]), ";
"    ('\u{7E7E}', [0xF4, 0xAD]), ('\u{7E7F}', [0x9D, 0xA6]), ('\u{7E80}', [0xF4, 0xAF]), ";
"    ('\u{7E81}', [0xF4, 0xAE]), ('\u{7E82}', [0xC4, 0xA1]), ('\u{7E86}', [0xF5, 0xEB]), ";
"    ('\u{7E87}', [0x9B, 0x7B]), ('\u{7E88}', [0xF5, 0xE9]), ('\u{7E8A}', [0xF5, 0xE7]), ";
"    ('\u{7E8B}', [0xF5, 0xEA]), ('\u{7E8C}', [0xC4, 0xF2]), ('\u{7E8D}', [0xF5, 0xEC]), ";
"    ('\u{7E8E}', [0x9E, 0xB0]), ('\u{7E8F}', [0xC4, 0xF1]), ('\u{7E91}', [0xF7, 0x42]), ";
"    ('\u{7E92}', [0x8E, 0xB8]), ('\u{7E93}', [0xC5, 0xD5]), ('\u{7E94}', [0xC5, 0xD7]), ";
"    ('\u{7E95}', [0xF7, 0xEE]), ('\u{7E96}', [0xC5, 0xD6]), ('\u{7E97}', [0xF8, 0xB9]), ";
"    ('\u{7E98}', [0xF9, 0x40]), ('\u{7E99}', [0xF9, 0x42]), ('\u{7E9A}', [0xF8, 0xFE]), ";
"    ('\u{7E9B}', [0xF9, 0x41]), ('\u{7E9C}', [0xC6, 0x6C]), ('\u{7E9F}', [0x9D, 0x70]), ";
"    ('\u{7EA4}', [0x89, 0x6E]), ('\u{7EAC}', [0x89, 0x6F]), ('\u{7EBA}', [0x89, 0x70]), ";
"    ('\u{7EC7}', [0x89, 0x71]), ('\u{7ECF}', [0x89, 0x72]), ('\u{7EDF}', [0x89, 0x73]), ";
"    ('\u{7F06}', [0x89, 0x74]), ('\u{7F36}', [0xA6, 0xCE]), ('\u{7F37}', [0x89, 0x75]), ";
"    ('\u{7F38}', [0xAC, 0xFB]), ('\u{7F39}', [0xD2, 0x6F]), ('\u{7F3A}', [0xAF, 0xCA]), ";
"    ('\u{7F3D}', [0xB2, 0xDA]), ('\u{7F3E}', [0xDA, 0xFC]), ('\u{7F3F}', [0xDA, 0xFD]), ";
"    ('\u{7F40}', [0x8E, 0xBC]), ('\u{7F41}', [0x8E, 0xBD]), ('\u{7F43}', [0xEA, 0xDF]), ";
"    ('\u{7F44}', [0xC1, 0x6A]), ('\u{7F45}', [0xED, 0xE1]), ('\u{7F47}', [0x8E, 0xBE]), ";
"    ('\u{7F48}', [0xC2, 0xBB]), ('\u{7F49}', [0x9D, 0xD1]), ('\u{7F4A}', [0xF2, 0xBA]), ";
"    ('\u{7F4B}', [0xF2, 0xB9]), ('\u{7F4C}', [0xC4, 0xA2]), ('\u{7F4D}', [0xF5, 0xED]), ";
"    ('\u{7F4E}', [0x94, 0xFD]), ('\u{7F4F}', [0xF7, 0x43]), ('\u{7F50}', [0xC5, 0xF8]), ";
"    ('\u{7F51}', [0xCA, 0x49]), ('\u{7F52}', [0x8B, 0xD7]), ('\u{7F53}', [0x8B, 0xDA]), ";
"    ('\u{7F54}', [0xAA, 0xC9]), ('\u{7F55}', [0xA8, 0x75]), ('\u{7F58}', [0xD0, 0x4D]), ";
"    ('\u{7F5B}', [0xD3, 0x60]), ('\u{7F5C}', [0xD3, 0x5B]), ('\u{7F5D}', [0xD3, 0x5F]), ";
"    ('\u{7F5E}', [0xD3, 0x5D]), ('\u{7F5F}', [0xAF, 0xCB]), ('\u{7F60}', [0xD3, 0x5E]), ";
"    ('\u{7F61}', [0xD3, 0x5C]), ('\u{7F63}', [0xD6, 0xF1]), ('\u{7F65}', [0xDA, 0xFE]), ";
"    ('\u{7F66}', [0xDB, 0x40]), ('\u{7F67}', [0xDF, 0x69]), ('\u{7F68}', [0xDF, 0x6A]), ";
"    ('\u{7F69}', [0xB8, 0x6E]), ('\u{7F6A}', [0xB8, 0x6F]), ('\u{7F6B}', [0xDF, 0x68]), ";
"    ('\u{7F6C}', [0xDF, 0x6B]), ('\u{7F6D}', [0xDF, 0x67]), ('\u{7F6E}', [0xB8, 0x6D]), ";
"    ('\u{7F70}', [0xBB, 0x40]), ('\u{7F71}', [0xA0, 0xE2]), ('\u{7F72}', [0xB8, 0x70]), ";
"    ('\u{7F73}', [0xE3, 0x7A]), ('\u{7F75}', [0xBD, 0x7C]), ('\u{7F76}', [0xE6, 0xF1]), ";
"    ('\u{7F77}', [0xBD, 0x7D]), ('\u{7F78}', [0x9F, 0xE9]), ('\u{7F79}', [0xBF, 0xA9]), ";
"    ('\u{7F7A}', [0xEA, 0xE2]), ('\u{7F7B}', [0xEA, 0xE0]), ('\u{7F7C}', [0xEA, 0xE1]), ";
"    ('\u{7F7D}', [0xED, 0xE4]), ('\u{7F7E}', [0xED, 0xE3]), ('\u{7F7F}', [0xED, 0xE2]), ";
"    ('\u{7F83}', [0xF2, 0xBB]), ('\u{7F85}', [0xC3, 0xB9]), ('\u{7F86}', [0xF2, 0xBC]), ";
"    ('\u{7F87}', [0xF7, 0x44]), ('\u{7F88}', [0xC5, 0xF9]), ('\u{7F89}', [0xF8, 0xBA]), ";
"    ('\u{7F8A}', [0xA6, 0xCF]), ('\u{7F8B}', [0xAA, 0xCB]), ('\u{7F8C}', [0xAA, 0xCA]), ";
"    ('\u{7F8D}', [0xD0, 0x4F]), ('\u{7F8E}', [0xAC, 0xFC]), ('\u{7F8F}', [0xFD, 0xA8]), ";
"    ('\u{7F91}', [0xD0, 0x4E]), ('\u{7F92}', [0xD3, 0x62]), ('\u{7F93}', [0x8A, 0xE7]), ";
"    ('\u{7F94}', [0xAF, 0xCC]), ('\u{7F95}', [0xD6, 0xF2]), ('\u{7F96}', [0xD3, 0x61]), ";
"    ('\u{7F97}', [0x8E, 0xC2]), ('\u{7F9A}', [0xB2, 0xDC]), ('\u{7F9B}', [0xD6, 0xF5]), ";
"    ('\u{7F9C}', [0xD6, 0xF3]), ('\u{7F9D}', [0xD6, 0xF4]), ('\u{7F9E}', [0xB2, 0xDB]), ";
"    ('\u{7FA0}', [0xDB, 0x42]), ('\u{7FA1}', [0xDB, 0x43]), ('\u{7FA2}', [0xDB, 0x41]), ";
"    ('\u{7FA3}', [0x8E, 0xC4]), ('\u{7FA4}', [0xB8, 0x73]), ('\u{7FA5}', [0xDF, 0x6D]), ";
"    ('\u{7FA6}', [0xDF, 0x6C]), ('\u{7FA7}', [0xDF, 0x6E]), ('\u{7FA8}', [0xB8, 0x72]), ";
"    ('\u{7FA9}', [0xB8, 0x71]), ('\u{7FAC}', [0xE6, 0xF2]), ('\u{7FAD}', [0xE6, 0xF4]), ";
"    ('\u{7FAE}', [0x99, 0x64]), ('\u{7FAF}', [0xBD, 0x7E]), ('\u{7FB0}', [0xE6, 0xF3]), ";
"    ('\u{7FB1}', [0xEA, 0xE3]), ('\u{7FB2}', [0xBF, 0xAA]), ('\u{7FB3}', [0xF0, 0x79]), ";
"    ('\u{7FB4}', [0x99, 0x65]), ('\u{7FB5}', [0xF0, 0x78]), ('\u{7FB6}', [0xC3, 0xBB]), ";
"    ('\u{7FB7}', [0xF2, 0xBD]), ('\u{7FB8}', [0xC3, 0xBD]), ('\u{7FB9}', [0xC3, 0xBC]), ";
"    ('\u{7FBA}', [0xF4, 0xB0]), ('\u{7FBB}', [0xF5, 0xEE]), ('\u{7FBC}', [0xC4, 0xF3]), ";
"    ('\u{7FBD}', [0xA6, 0xD0]), ('\u{7FBE}', [0xD0, 0x50]), ('\u{7FBF}', [0xAC, 0xFD]), ";
"    ('\u{7FC0}', [0xD3, 0x65]), ('\u{7FC1}', [0xAF, 0xCE]), ('\u{7FC2}', [0xD3, 0x64]), ";
"    ('\u{7FC3}', [0xD3, 0x63]), ('\u{7FC5}', [0xAF, 0xCD]), ('\u{7FC7}', [0xD6, 0xFB]), ";
"    ('\u{7FC9}', [0xD6, 0xFD]), ('\u{7FCA}', [0xD6, 0xF6]), ('\u{7FCB}', [0xD6, 0xF7]), ";
"    ('\u{7FCC}', [0xB2, 0xDD]), ('\u{7FCD}', [0xD6, 0xF8]), ('\u{7FCE}', [0xB2, 0xDE]), ";
"    ('\u{7FCF}', [0xD6, 0xFC]), ('\u{7FD0}', [0xD6, 0xF9]), ('\u{7FD1}', [0xD6, 0xFA]), ";
"    ('\u{7FD2}', [0xB2, 0xDF]), ('\u{7FD4}', [0xB5, 0xBE]), ('\u{7FD5}', [0xB5, 0xBF]), ";
"    ('\u{7FD7}', [0xDB, 0x44]), ('\u{7FDB}', [0xDF, 0x6F]), ('\u{7FDC}', [0xDF, 0x70]), ";
"    ('\u{7FDD}', [0x95, 0x4E]), ('\u{7FDE}', [0xE3, 0x7E]), ('\u{7FDF}', [0xBB, 0x43]), ";
"    ('\u{7FE0}', [0xBB, 0x41]), ('\u{7FE1}', [0xBB, 0x42]), ('\u{7FE2}', [0xE3, 0x7B]), ";
"    ('\u{7FE3}', [0xE3, 0x7C]), ('\u{7FE5}', [0xE3, 0x7D]), ('\u{7FE6}', [0xE6, 0xF9]), ";
"    ('\u{7FE7}', [0x98, 0xB3]), ('\u{7FE8}', [0xE6, 0xFA]), ('\u{7FE9}', [0xBD, 0xA1]), ";
"    ('\u{7FEA}', [0xE6, 0xF7]), ('\u{7FEB}', [0xE6, 0xF6]), ('\u{7FEC}', [0xE6, 0xF8]), ";
"    ('\u{7FED}', [0xE6, 0xF5]), ('\u{7FEE}', [0xBF, 0xAD]), ('\u{7FEF}', [0xEA, 0xE4]), ";
"    ('\u{7FF0}', [0xBF, 0xAB]), ('\u{7FF1}', [0xBF, 0xAC]), ('\u{7FF2}', [0xED, 0xE6]), ";
"    ('\u{7FF3}', [0xC1, 0x6B]), ('\u{7FF4}', [0xED, 0xE5]), ('\u{7FF5}', [0xEF, 0xA8]), ";
"    ('\u{7FF7}', [0xF0, 0x7A]), ('\u{7FF8}', [0xF0, 0x7B]), ('\u{7FF9}', [0xC2, 0xBC]), ";
"    ('\u{7FFA}', [0x8E, 0xCB]), ('\u{7FFB}', [0xC2, 0xBD]), ('\u{7FFC}', [0xC1, 0x6C]), ";
"    ('\u{7FFD}', [0xF2, 0xBE]), ('\u{7FFE}', [0xF2, 0xBF]), ('\u{7FFF}', [0xF4, 0xB1]), ";
"    ('\u{8000}', [0xC4, 0xA3]), ('\u{8001}', [0xA6, 0xD1]), ('\u{8002}', [0x8B, 0xDF]), ";
"    ('\u{8003}', [0xA6, 0xD2]), ('\u{8004}', [0xAC, 0xFE]), ('\u{8005}', [0x8E, 0xCD]), ";
"    ('\u{8006}', [0xAF, 0xCF]), ('\u{8007}', [0xD0, 0x51]), ('\u{8008}', [0x8E, 0xCE]), ";
"    ('\u{800B}', [0xB5, 0xC0]), ('\u{800C}', [0xA6, 0xD3]), ('\u{800D}', [0xAD, 0x41]), ";
"    ('\u{800E}', [0xD0, 0x52]), ('\u{800F}', [0xD0, 0x53]), ('\u{8010}', [0xAD, 0x40]), ";
"    ('\u{8011}', [0xAD, 0x42]), ('\u{8012}', [0xA6, 0xD4]), ('\u{8014}', [0xD0, 0x54]), ";
"    ('\u{8015}', [0xAF, 0xD1]), ('\u{8016}', [0xD3, 0x66]), ('\u{8017}', [0xAF, 0xD3]), ";
"    ('\u{8018}', [0xAF, 0xD0]), ('\u{8019}', [0xAF, 0xD2]), ('\u{801B}', [0xD7, 0x41]), ";
"    ('\u{801C}', [0xB2, 0xE0]), ('\u{801D}', [0x8E, 0xCF]), ('\u{801E}', [0xD7, 0x40]), ";
"    ('\u{801F}', [0xD6, 0xFE]), ('\u{8020}', [0x99, 0x68]), ('\u{8021}', [0xDF, 0x71]), ";
"    ('\u{8024}', [0xE3, 0xA1]), ('\u{8025}', [0x99, 0x69]), ('\u{8026}', [0xBD, 0xA2]), ";
"    ('\u{8028}', [0x8E, 0xD0]), ('\u{8029}', [0xEA, 0xE6]), ('\u{802A}', [0xEA, 0xE5]), ";
"    ('\u{802C}', [0xED, 0xE7]), ('\u{802E}', [0x99, 0x6B]), ('\u{802F}', [0x8E, 0xD1]), ";
"    ('\u{8030}', [0xF5, 0xEF]), ('\u{8031}', [0x99, 0x6C]), ('\u{8033}', [0xA6, 0xD5]), ";
"    ('\u{8034}', [0xCB, 0x73]), ('\u{8035}', [0xCD, 0xAA]), ('\u{8036}', [0xAD, 0x43]), ";
"    ('\u{8037}', [0xD0, 0x55]), ('\u{8039}', [0xD3, 0x68]), ('\u{803B}', [0x8E, 0xD4]), ";
"    ('\u{803C}', [0x8E, 0xD5]), ('\u{803D}', [0xAF, 0xD4]), ('\u{803E}', [0xD3, 0x67]), ";
"    ('\u{803F}', [0xAF, 0xD5]), ('\u{8043}', [0xD7, 0x43]), ('\u{8046}', [0xB2, 0xE2]), ";
"    ('\u{8047}', [0xD7, 0x42]), ('\u{8048}', [0xD7, 0x44]), ('\u{804A}', [0xB2, 0xE1]), ";
"    ('\u{804F}', [0xDB, 0x46]), ('\u{8050}', [0xDB, 0x47]), ('\u{8051}', [0xDB, 0x45]), ";
"    ('\u{8052}', [0xB5, 0xC1]), ('\u{8054}', [0x99, 0x6D]), ('\u{8056}', [0xB8, 0x74]), ";
"    ('\u{8058}', [0xB8, 0x75]), ('\u{805A}', [0xBB, 0x45]), ('\u{805B}', [0xA0, 0xBE]), ";
"    ('\u{805C}', [0xE3, 0xA3]), ('\u{805D}', [0xE3, 0xA2]), ('\u{805E}', [0xBB, 0x44]), ";
"    ('\u{8061}', [0x8E, 0xD6]), ('\u{8062}', [0xA0, 0xBC]), ('\u{8063}', [0xA0, 0xB5]), ";
"    ('\u{8064}', [0xE6, 0xFB]), ('\u{8066}', [0xA0, 0xB4]), ('\u{8067}', [0xE6, 0xFC]), ";
"    ('\u{806C}', [0xEA, 0xE7]), ('\u{806F}', [0xC1, 0x70]), ('\u{8070}', [0xC1, 0x6F]), ";
"    ('\u{8071}', [0xC1, 0x6D]), ('\u{8072}', [0xC1, 0x6E]), ('\u{8073}', [0xC1, 0x71]), ";
"    ('\u{8075}', [0xF0, 0x7C]), ('\u{8076}', [0xC2, 0xBF]), ('\u{8077}', [0xC2, 0xBE]), ";
"    ('\u{8078}', [0xF2, 0xC0]), ('\u{8079}', [0xF4, 0xB2]), ('\u{807D}', [0xC5, 0xA5]), ";
"    ('\u{807E}', [0xC5, 0xA4]), ('\u{807F}', [0xA6, 0xD6]), ('\u{8080}', [0x8B, 0xE0]), ";
"    ('\u{8082}', [0xD1, 0xFB]), ('\u{8084}', [0xB8, 0x77]), ('\u{8085}', [0xB5, 0xC2]), "
].
(* /repo/src/generated/whatwg/big5_whatwg_tables.rs.inc:6145-6400 *)
Definition big5_inc_24 : list line := [
"    ('\u{8086}', [0xB8, 0x76]), ('\u{8087}', [0xBB, 0x46]), ('\u{8089}', [0xA6, 0xD7]), ";
"    ('\u{808A}', [0xC9, 0xA9]), ('\u{808B}', [0xA6, 0xD8]), ('\u{808C}', [0xA6, 0xD9]), ";
"    ('\u{808F}', [0xCD, 0xAB]), ('\u{8090}', [0xCB, 0x76]), ('\u{8092}', [0xCB, 0x77]), ";
"    ('\u{8093}', [0xA8, 0x77]), ('\u{8095}', [0xCB, 0x74]), ('\u{8096}', [0xA8, 0x76]), ";
"    ('\u{8098}', [0xA8, 0x79]), ('\u{8099}', [0xCB, 0x75]), ('\u{809A}', [0xA8, 0x7B]), ";
"    ('\u{809B}', [0xA8, 0x7A]), ('\u{809C}', [0xCB, 0x78]), ('\u{809D}', [0xA8, 0x78]), ";
"    ('\u{809F}', [0x89, 0xB5]), ('\u{80A1}', [0xAA, 0xD1]), ('\u{80A2}', [0xAA, 0xCF]), ";
"    ('\u{80A3}', [0xCD, 0xAD]), ('\u{80A5}', [0xAA, 0xCE]), ('\u{80A7}', [0x8E, 0xDD]), ";
"    ('\u{80A9}', [0xAA, 0xD3]), ('\u{80AA}', [0xAA, 0xD5]), ('\u{80AB}', [0xAA, 0xD2]), ";
"    ('\u{80AD}', [0xCD, 0xB0]), ('\u{80AE}', [0xCD, 0xAC]), ('\u{80AF}', [0xAA, 0xD6]), ";
"    ('\u{80B1}', [0xAA, 0xD0]), ('\u{80B2}', [0xA8, 0x7C]), ('\u{80B4}', [0xAA, 0xD4]), ";
"    ('\u{80B5}', [0xCD, 0xAF]), ('\u{80B6}', [0x9E, 0x5D]), ('\u{80B7}', [0x99, 0x71]), ";
"    ('\u{80B8}', [0xCD, 0xAE]), ('\u{80BA}', [0xAA, 0xCD]), ('\u{80BC}', [0x89, 0xAE]), ";
"    ('\u{80BD}', [0x9D, 0xE8]), ('\u{80C2}', [0xD0, 0x5B]), ('\u{80C3}', [0xAD, 0x47]), ";
"    ('\u{80C4}', [0xAD, 0x48]), ('\u{80C5}', [0xD0, 0x5D]), ('\u{80C6}', [0x95, 0x65]), ";
"    ('\u{80C7}', [0xD0, 0x57]), ('\u{80C8}', [0xD0, 0x5A]), ('\u{80C9}', [0xD0, 0x63]), ";
"    ('\u{80CA}', [0xD0, 0x61]), ('\u{80CC}', [0xAD, 0x49]), ('\u{80CD}', [0xD0, 0x67]), ";
"    ('\u{80CE}', [0xAD, 0x4C]), ('\u{80CF}', [0xD0, 0x64]), ('\u{80D0}', [0xD0, 0x5C]), ";
"    ('\u{80D1}', [0xD0, 0x59]), ('\u{80D4}', [0xDB, 0x49]), ('\u{80D5}', [0xD0, 0x62]), ";
"    ('\u{80D6}', [0xAD, 0x44]), ('\u{80D7}', [0xD0, 0x65]), ('\u{80D8}', [0xD0, 0x56]), ";
"    ('\u{80D9}', [0xD0, 0x5F]), ('\u{80DA}', [0xAD, 0x46]), ('\u{80DB}', [0xAD, 0x4B]), ";
"    ('\u{80DC}', [0xD0, 0x60]), ('\u{80DD}', [0xAD, 0x4F]), ('\u{80DE}', [0xAD, 0x4D]), ";
"    ('\u{80E0}', [0xD0, 0x58]), ('\u{80E1}', [0xAD, 0x4A]), ('\u{80E3}', [0xD0, 0x5E]), ";
"    ('\u{80E4}', [0xAD, 0x4E]), ('\u{80E5}', [0xAD, 0x45]), ('\u{80E6}', [0xD0, 0x66]), ";
"    ('\u{80E9}', [0x99, 0x72]), ('\u{80EC}', [0x8B, 0x5C]), ('\u{80ED}', [0xAF, 0xDA]), ";
"    ('\u{80EF}', [0xAF, 0xE3]), ('\u{80F0}', [0xAF, 0xD8]), ('\u{80F1}', [0xAF, 0xD6]), ";
"    ('\u{80F2}', [0xD3, 0x6A]), ('\u{80F3}', [0xAF, 0xDE]), ('\u{80F4}', [0xAF, 0xDB]), ";
"    ('\u{80F5}', [0xD3, 0x6C]), ('\u{80F6}', [0x89, 0xB1]), ('\u{80F8}', [0xAF, 0xDD]), ";
"    ('\u{80F9}', [0xD3, 0x6B]), ('\u{80FA}', [0xD3, 0x69]), ('\u{80FB}', [0xD3, 0x6E]), ";
"    ('\u{80FC}', [0xAF, 0xE2]), ('\u{80FD}', [0xAF, 0xE0]), ('\u{80FE}', [0xDB, 0x48]), ";
"    ('\u{8100}', [0xD3, 0x6F]), ('\u{8101}', [0xD3, 0x6D]), ('\u{8102}', [0xAF, 0xD7]), ";
"    ('\u{8103}', [0xA0, 0xC0]), ('\u{8105}', [0xAF, 0xD9]), ('\u{8106}', [0xAF, 0xDC]), ";
"    ('\u{8107}', [0x8E, 0xDF]), ('\u{8108}', [0xAF, 0xDF]), ('\u{8109}', [0x95, 0x66]), ";
"    ('\u{810A}', [0xAF, 0xE1]), ('\u{810C}', [0x99, 0x74]), ('\u{810E}', [0x99, 0x76]), ";
"    ('\u{8112}', [0x99, 0x77]), ('\u{8114}', [0x99, 0x79]), ('\u{8115}', [0xD7, 0x4E]), ";
"    ('\u{8116}', [0xB2, 0xE4]), ('\u{8117}', [0x9D, 0xDA]), ('\u{8118}', [0xD7, 0x45]), ";
"    ('\u{8119}', [0xD7, 0x47]), ('\u{811A}', [0x8E, 0xE0]), ('\u{811B}', [0xD7, 0x48]), ";
"    ('\u{811D}', [0xD7, 0x50]), ('\u{811E}', [0xD7, 0x4C]), ('\u{811F}', [0xD7, 0x4A]), ";
"    ('\u{8121}', [0xD7, 0x4D]), ('\u{8122}', [0xD7, 0x51]), ('\u{8123}', [0xB2, 0xE5]), ";
"    ('\u{8124}', [0xB2, 0xE9]), ('\u{8125}', [0xD7, 0x46]), ('\u{8127}', [0xD7, 0x4F]), ";
"    ('\u{8129}', [0xB2, 0xE7]), ('\u{812A}', [0x93, 0x5C]), ('\u{812B}', [0xB2, 0xE6]), ";
"    ('\u{812C}', [0xD7, 0x4B]), ('\u{812D}', [0xD7, 0x49]), ('\u{812F}', [0xB2, 0xE3]), ";
"    ('\u{8130}', [0xB2, 0xE8]), ('\u{8132}', [0x9D, 0xE6]), ('\u{8134}', [0x8B, 0x5F]), ";
"    ('\u{8137}', [0x95, 0x63]), ('\u{8139}', [0xB5, 0xC8]), ('\u{813A}', [0xDB, 0x51]), ";
"    ('\u{813D}', [0xDB, 0x4F]), ('\u{813E}', [0xB5, 0xCA]), ('\u{8142}', [0x95, 0x67]), ";
"    ('\u{8143}', [0xDB, 0x4A]), ('\u{8144}', [0xDF, 0xA1]), ('\u{8146}', [0xB5, 0xC9]), ";
"    ('\u{8147}', [0xDB, 0x4E]), ('\u{8148}', [0x9D, 0xE3]), ('\u{814A}', [0xDB, 0x4B]), ";
"    ('\u{814B}', [0xB5, 0xC5]), ('\u{814C}', [0xB5, 0xCB]), ('\u{814D}', [0xDB, 0x50]), ";
"    ('\u{814E}', [0xB5, 0xC7]), ('\u{814F}', [0xDB, 0x4D]), ('\u{8150}', [0xBB, 0x47]), ";
"    ('\u{8151}', [0xB5, 0xC6]), ('\u{8152}', [0xDB, 0x4C]), ('\u{8153}', [0xB5, 0xCC]), ";
"    ('\u{8154}', [0xB5, 0xC4]), ('\u{8155}', [0xB5, 0xC3]), ('\u{8156}', [0x99, 0x7C]), ";
"    ('\u{8159}', [0x99, 0x7D]), ('\u{815A}', [0x99, 0x7E]), ('\u{815B}', [0xDF, 0x77]), ";
"    ('\u{815C}', [0xDF, 0x75]), ('\u{815E}', [0xDF, 0x7B]), ('\u{8160}', [0xDF, 0x73]), ";
"    ('\u{8161}', [0xDF, 0xA2]), ('\u{8162}', [0xDF, 0x78]), ('\u{8164}', [0xDF, 0x72]), ";
"    ('\u{8165}', [0xB8, 0x7B]), ('\u{8166}', [0xB8, 0xA3]), ('\u{8167}', [0xDF, 0x7D]), ";
"    ('\u{8169}', [0xDF, 0x76]), ('\u{816B}', [0xB8, 0x7E]), ('\u{816C}', [0x8C, 0xFB]), ";
"    ('\u{816D}', [0x8B, 0x5B]), ('\u{816E}', [0xB8, 0x7C]), ('\u{816F}', [0xDF, 0x7E]), ";
"    ('\u{8170}', [0xB8, 0x79]), ('\u{8171}', [0xB8, 0x78]), ('\u{8172}', [0xDF, 0x79]), ";
"    ('\u{8173}', [0xB8, 0x7D]), ('\u{8174}', [0xB5, 0xCD]), ('\u{8176}', [0xDF, 0x7C]), ";
"    ('\u{8177}', [0xDF, 0x74]), ('\u{8178}', [0xB8, 0x7A]), ('\u{8179}', [0xB8, 0xA1]), ";
"    ('\u{817A}', [0xB8, 0xA2]), ('\u{817C}', [0x99, 0xA3]), ('\u{817F}', [0xBB, 0x4C]), ";
"    ('\u{8180}', [0xBB, 0x48]), ('\u{8182}', [0xBB, 0x4D]), ('\u{8183}', [0xE3, 0xA6]), ";
"    ('\u{8184}', [0x99, 0xA4]), ('\u{8186}', [0xE3, 0xA5]), ('\u{8187}', [0xE3, 0xA7]), ";
"    ('\u{8188}', [0xBB, 0x4A]), ('\u{8189}', [0xE3, 0xA4]), ('\u{818A}', [0xBB, 0x4B]), ";
"    ('\u{818B}', [0xE3, 0xAA]), ('\u{818C}', [0xE3, 0xA9]), ('\u{818D}', [0xE3, 0xA8]), ";
"    ('\u{818F}', [0xBB, 0x49]), ('\u{8193}', [0x99, 0xA6]), ('\u{8195}', [0xE7, 0x41]), ";
"    ('\u{8197}', [0xE7, 0x44]), ('\u{8198}', [0xBD, 0xA8]), ('\u{8199}', [0xE7, 0x43]), ";
"    ('\u{819A}', [0xBD, 0xA7]), ('\u{819B}', [0xBD, 0xA3]), ('\u{819C}', [0xBD, 0xA4]), ";
"    ('\u{819D}', [0xBD, 0xA5]), ('\u{819E}', [0xE7, 0x40]), ('\u{819F}', [0xE6, 0xFE]), ";
"    ('\u{81A0}', [0xBD, 0xA6]), ('\u{81A2}', [0xE7, 0x42]), ('\u{81A3}', [0xE6, 0xFD]), ";
"    ('\u{81A5}', [0x99, 0xA8]), ('\u{81A6}', [0xEA, 0xE9]), ('\u{81A7}', [0xEA, 0xF3]), ";
"    ('\u{81A8}', [0xBF, 0xB1]), ('\u{81A9}', [0xBF, 0xB0]), ('\u{81AA}', [0x8A, 0xBE]), ";
"    ('\u{81AB}', [0xEA, 0xED]), ('\u{81AC}', [0xEA, 0xEF]), ('\u{81AE}', [0xEA, 0xEA]), ";
"    ('\u{81B0}', [0xEA, 0xEE]), ('\u{81B1}', [0xEA, 0xE8]), ('\u{81B2}', [0xEA, 0xF1]), ";
"    ('\u{81B3}', [0xBF, 0xAF]), ('\u{81B4}', [0xEA, 0xF0]), ('\u{81B5}', [0xEA, 0xEC]), ";
"    ('\u{81B6}', [0x9E, 0x61]), ('\u{81B7}', [0xEA, 0xF2]), ('\u{81B9}', [0xEA, 0xEB]), ";
"    ('\u{81BA}', [0xC1, 0x74]), ('\u{81BB}', [0xED, 0xE8]), ('\u{81BC}', [0xED, 0xEE]), ";
"    ('\u{81BD}', [0xC1, 0x78]), ('\u{81BE}', [0xC1, 0x7A]), ('\u{81BF}', [0xC1, 0x77]), ";
"    ('\u{81C0}', [0xC1, 0x76]), ('\u{81C1}', [0x99, 0xAA]), ('\u{81C2}', [0xC1, 0x75]), ";
"    ('\u{81C3}', [0xC1, 0x73]), ('\u{81C4}', [0xED, 0xE9]), ('\u{81C5}', [0xED, 0xEC]), ";
"    ('\u{81C6}', [0xC1, 0x72]), ('\u{81C7}', [0xED, 0xED]), ('\u{81C8}', [0xA0, 0xC8]), ";
"    ('\u{81C9}', [0xC1, 0x79]), ('\u{81CA}', [0xED, 0xEB]), ('\u{81CC}', [0xED, 0xEA]), ";
"    ('\u{81CD}', [0xC2, 0xC0]), ('\u{81CF}', [0xC2, 0xC1]), ('\u{81D0}', [0xF0, 0xA1]), ";
"    ('\u{81D1}', [0xF0, 0x7D]), ('\u{81D2}', [0xF0, 0x7E]), ('\u{81D5}', [0xF2, 0xC2]), ";
"    ('\u{81D7}', [0xF2, 0xC1]), ('\u{81D8}', [0xC3, 0xBE]), ('\u{81D9}', [0xF4, 0xB4]), ";
"    ('\u{81DA}', [0xC4, 0xA4]), ('\u{81DB}', [0xF4, 0xB3]), ('\u{81DD}', [0xF5, 0xF0]), ";
"    ('\u{81DE}', [0xF7, 0x45]), ('\u{81DF}', [0xC5, 0xA6]), ('\u{81E0}', [0xF9, 0x43]), ";
"    ('\u{81E1}', [0xF9, 0x44]), ('\u{81E2}', [0xC5, 0xD8]), ('\u{81E3}', [0xA6, 0xDA]), ";
"    ('\u{81E4}', [0x99, 0xAB]), ('\u{81E5}', [0xAA, 0xD7]), ('\u{81E6}', [0xDB, 0x52]), ";
"    ('\u{81E7}', [0xBB, 0x4E]), ('\u{81E8}', [0xC1, 0x7B]), ('\u{81E9}', [0xED, 0xEF]), ";
"    ('\u{81EA}', [0xA6, 0xDB]), ('\u{81EC}', [0xAF, 0xE5]), ('\u{81ED}', [0xAF, 0xE4]), ";
"    ('\u{81EE}', [0xDB, 0x53]), ('\u{81EF}', [0xFE, 0xC4]), ('\u{81F2}', [0xEA, 0xF4]), ";
"    ('\u{81F3}', [0xA6, 0xDC]), ('\u{81F4}', [0xAD, 0x50]), ('\u{81F6}', [0x98, 0xC2]), ";
"    ('\u{81F7}', [0xDB, 0x54]), ('\u{81F8}', [0xDB, 0x55]), ('\u{81F9}', [0xDB, 0x56]), ";
"    ('\u{81FA}', [0xBB, 0x4F]), ('\u{81FB}', [0xBF, 0xB2]), ('\u{81FC}', [0xA6, 0xDD]), ";
"    ('\u{81FE}', [0xAA, 0xD8]), ('\u{81FF}', [0xD0, 0x68]), ('\u{8200}', [0xAF, 0xE6]), ";
"    ('\u{8201}', [0xD3, 0x70]), ('\u{8202}', [0xB2, 0xEA]), ('\u{8204}', [0xDB, 0x57]), ";
"    ('\u{8205}', [0xB8, 0xA4]), ('\u{8207}', [0xBB, 0x50]), ('\u{8208}', [0xBF, 0xB3]), ";
"    ('\u{8209}', [0xC1, 0x7C]), ('\u{820A}', [0xC2, 0xC2]), ('\u{820B}', [0xF4, 0xB5]), ";
"    ('\u{820C}', [0xA6, 0xDE]), ('\u{820D}', [0xAA, 0xD9]), ('\u{8210}', [0xAF, 0xE7]), ";
"    ('\u{8211}', [0xD7, 0x52]), ('\u{8212}', [0xB5, 0xCE]), ('\u{8214}', [0xBB, 0x51]), ";
"    ('\u{8215}', [0xE3, 0xAB]), ('\u{8216}', [0xE7, 0x45]), ('\u{8218}', [0x8E, 0xE8]), ";
"    ('\u{821A}', [0xA0, 0xBA]), ('\u{821B}', [0xA6, 0xDF]), ('\u{821C}', [0xB5, 0xCF]), ";
"    ('\u{821D}', [0xDF, 0xA3]), ('\u{821E}', [0xBB, 0x52]), ('\u{821F}', [0xA6, 0xE0]), ";
"    ('\u{8220}', [0xCD, 0xB1]), ('\u{8221}', [0xD0, 0x69]), ('\u{8222}', [0xAD, 0x51]), ";
"    ('\u{8225}', [0xD3, 0x72]), ('\u{8226}', [0xFD, 0x77]), ('\u{8228}', [0xAF, 0xEA]), ";
"    ('\u{8229}', [0x8E, 0xEE]), ('\u{822A}', [0xAF, 0xE8]), ('\u{822B}', [0xAF, 0xE9]), ";
"    ('\u{822C}', [0xAF, 0xEB]), ('\u{822D}', [0x9E, 0xBF]), ('\u{822F}', [0xD3, 0x71]), ";
"    ('\u{8232}', [0xD7, 0x57]), ('\u{8233}', [0xD7, 0x54]), ('\u{8234}', [0xD7, 0x56]), ";
"    ('\u{8235}', [0xB2, 0xEB]), ('\u{8236}', [0xB2, 0xED]), ('\u{8237}', [0xB2, 0xEC]), ";
"    ('\u{8238}', [0xD7, 0x53]), ('\u{8239}', [0xB2, 0xEE]), ('\u{823A}', [0xD7, 0x55]), ";
"    ('\u{823C}', [0xDB, 0x58]), ('\u{823D}', [0xDB, 0x59]), ('\u{823E}', [0x89, 0xC2]), ";
"    ('\u{823F}', [0xDB, 0x5A]), ('\u{8240}', [0xDF, 0xA6]), ('\u{8242}', [0xDF, 0xA7]), ";
"    ('\u{8244}', [0xDF, 0xA5]), ('\u{8245}', [0xDF, 0xA8]), ('\u{8247}', [0xB8, 0xA5]), ";
"    ('\u{8249}', [0xDF, 0xA4]), ('\u{824B}', [0xBB, 0x53]), ('\u{824E}', [0xE7, 0x4A]), ";
"    ('\u{824F}', [0xE7, 0x46]), ('\u{8250}', [0xE7, 0x49]), ('\u{8251}', [0xE7, 0x4B]), ";
"    ('\u{8252}', [0xE7, 0x48]), ('\u{8253}', [0xE7, 0x47]), ('\u{8254}', [0x99, 0xAC]), ";
"    ('\u{8255}', [0xEA, 0xF5]), ('\u{8256}', [0xEA, 0xF6]), ('\u{8257}', [0xEA, 0xF7]), ";
"    ('\u{8258}', [0xBF, 0xB4]), ('\u{8259}', [0xBF, 0xB5]), ('\u{825A}', [0xED, 0xF1]), ";
"    ('\u{825B}', [0xED, 0xF0]), ('\u{825C}', [0xED, 0xF2]), ('\u{825E}', [0xF0, 0xA3]), ";
"    ('\u{825F}', [0xF0, 0xA2]), ('\u{8261}', [0xF2, 0xC4]), ('\u{8262}', [0x95, 0x6B]), ";
"    ('\u{8263}', [0xF2, 0xC5]), ('\u{8264}', [0xF2, 0xC3]), ('\u{8265}', [0x95, 0x6C]), ";
"    ('\u{8266}', [0xC4, 0xA5]), ('\u{8268}', [0xF4, 0xB6]), ('\u{8269}', [0xF4, 0xB7]), ";
"    ('\u{826B}', [0xF7, 0x46]), ('\u{826C}', [0xF7, 0xEF]), ('\u{826D}', [0xF8, 0xBB]), ";
"    ('\u{826E}', [0xA6, 0xE1]), ('\u{826F}', [0xA8, 0x7D]), ('\u{8271}', [0xC1, 0x7D]), ";
"    ('\u{8272}', [0xA6, 0xE2]), ('\u{8274}', [0xD7, 0x58]), ('\u{8275}', [0xDB, 0x5B]), ";
"    ('\u{8276}', [0x99, 0xAF]), ('\u{8277}', [0xC6, 0x41]), ('\u{8278}', [0xCA, 0x4A]), ";
"    ('\u{8279}', [0x99, 0x4A]), ('\u{827A}', [0x89, 0x76]), ('\u{827B}', [0x8F, 0x48]), ";
"    ('\u{827C}', [0xCA, 0x4B]), ('\u{827D}', [0xCA, 0x4D]), ('\u{827E}', [0xA6, 0xE3]), ";
"    ('\u{827F}', [0xCA, 0x4E]), ('\u{8280}', [0xCA, 0x4C]), ('\u{8283}', [0xCB, 0xA2]), ";
"    ('\u{8284}', [0xCB, 0xA3]), ('\u{8285}', [0xCB, 0x7B]), ('\u{8287}', [0xFB, 0xEE]), ";
"    ('\u{828A}', [0xCB, 0xA1]), ('\u{828B}', [0xA8, 0xA1]), ('\u{828D}', [0xA8, 0xA2]), ";
"    ('\u{828E}', [0xCB, 0x7C]), ('\u{828F}', [0xCB, 0x7A]), ('\u{8290}', [0xCB, 0x79]), ";
"    ('\u{8291}', [0xCB, 0x7D]), ('\u{8292}', [0xA8, 0x7E]), ('\u{8293}', [0xCB, 0x7E]), ";
"    ('\u{8294}', [0xD0, 0x6A]), ('\u{8298}', [0xCD, 0xB6]), ('\u{8299}', [0xAA, 0xDC]), ";
"    ('\u{829A}', [0xCD, 0xB5]), ('\u{829B}', [0xCD, 0xB7]), ('\u{829D}', [0xAA, 0xDB]), ";
"    ('\u{829E}', [0xCD, 0xBC]), ('\u{829F}', [0xAA, 0xDF]), ('\u{82A0}', [0xCD, 0xB2]), ";
"    ('\u{82A1}', [0xCD, 0xC0]), ('\u{82A2}', [0xCD, 0xC6]), ('\u{82A3}', [0xAA, 0xE6]), ";
"    ('\u{82A4}', [0xCD, 0xC3]), ('\u{82A5}', [0xAA, 0xE3]), ('\u{82A6}', [0x99, 0xAE]), ";
"    ('\u{82A7}', [0xCD, 0xB9]), ('\u{82A8}', [0xCD, 0xBF]), ('\u{82A9}', [0xCD, 0xC1]), ";
"    ('\u{82AA}', [0x8E, 0xFB]), ('\u{82AB}', [0xCD, 0xB4]), ('\u{82AC}', [0xAA, 0xE2]), ";
"    ('\u{82AD}', [0xAA, 0xDD]), ('\u{82AE}', [0xCD, 0xBA]), ('\u{82AF}', [0xAA, 0xE4]), ";
"    ('\u{82B0}', [0xAA, 0xE7]), ('\u{82B1}', [0xAA, 0xE1]), ('\u{82B3}', [0xAA, 0xDA]), ";
"    ('\u{82B4}', [0xCD, 0xBE]), ('\u{82B5}', [0xCD, 0xB8]), ('\u{82B6}', [0xCD, 0xC5]), ";
"    ('\u{82B7}', [0xAA, 0xE9]), ('\u{82B8}', [0xAA, 0xE5]), ('\u{82B9}', [0xAA, 0xE0]), ";
"    ('\u{82BA}', [0xCD, 0xBD]), ('\u{82BB}', [0xAF, 0xEC]), ('\u{82BC}', [0xCD, 0xBB]), ";
"    ('\u{82BD}', [0xAA, 0xDE]), ('\u{82BE}', [0xAA, 0xE8]), ('\u{82BF}', [0x8C, 0xD0]), ";
"    ('\u{82C0}', [0xCD, 0xB3]), ('\u{82C2}', [0xCD, 0xC2]), ('\u{82C3}', [0xCD, 0xC4]), ";
"    ('\u{82C4}', [0x8B, 0x52]), ('\u{82CA}', [0x99, 0xB0]), ('\u{82CF}', [0x89, 0x77]), ";
"    ('\u{82D0}', [0x8F, 0x41]), ('\u{82D1}', [0xAD, 0x62]), ('\u{82D2}', [0xAD, 0x5C]), ";
"    ('\u{82D3}', [0xAD, 0x64]), ('\u{82D4}', [0xAD, 0x61]), ('\u{82D5}', [0xD0, 0x71]), ";
"    ('\u{82D6}', [0xD0, 0x74]), ('\u{82D7}', [0xAD, 0x5D]), ('\u{82D8}', [0x99, 0xB1]), ";
"    ('\u{82D9}', [0xD0, 0x6B]), ('\u{82DB}', [0xAD, 0x56]), ('\u{82DC}', [0xAD, 0x60]), ";
"    ('\u{82DE}', [0xAD, 0x63]), ('\u{82DF}', [0xAD, 0x65]), ('\u{82E0}', [0xD0, 0xA2]), ";
"    ('\u{82E1}', [0xD0, 0x77]), ('\u{82E2}', [0x8F, 0x49]), ('\u{82E3}', [0xAD, 0x55]), ";
"    ('\u{82E4}', [0xD0, 0xA1]), ('\u{82E5}', [0xAD, 0x59]), ('\u{82E6}', [0xAD, 0x57]), ";
"    ('\u{82E7}', [0xAD, 0x52]), ('\u{82E8}', [0xD0, 0x6F]), ('\u{82EA}', [0xD0, 0x7E]), ";
"    ('\u{82EB}', [0xD0, 0x73]), ('\u{82EC}', [0xD0, 0x76]), ('\u{82ED}', [0xD0, 0xA5]), ";
"    ('\u{82EE}', [0xFA, 0x4D]), ('\u{82EF}', [0xAD, 0x66]), ('\u{82F0}', [0xD0, 0x7D]), ";
"    ('\u{82F1}', [0xAD, 0x5E]), ('\u{82F2}', [0xD0, 0x78]), ('\u{82F3}', [0xD0, 0xA4]), ";
"    ('\u{82F4}', [0xD0, 0x75]), ('\u{82F5}', [0xD0, 0x79]), ('\u{82F6}', [0xD0, 0x7C]), ";
"    ('\u{82F7}', [0x9D, 0xE4]), ('\u{82F8}', [0x8C, 0xB5]), ('\u{82F9}', [0xD0, 0x6D]), ";
"    ('\u{82FA}', [0xD0, 0xA3]), ('\u{82FB}', [0xD0, 0x7B]), ('\u{82FC}', [0xFB, 0xE9]), ";
"    ('\u{82FD}', [0x9B, 0x54]), ('\u{82FE}', [0xD0, 0x6C]), ('\u{82FF}', [0x99, 0xB2]), ";
"    ('\u{8300}', [0xD0, 0x70]), ('\u{8301}', [0xAD, 0x5F]), ('\u{8302}', [0xAD, 0x5A]), ";
"    ('\u{8303}', [0xAD, 0x53]), ('\u{8304}', [0xAD, 0x58]), ('\u{8305}', [0xAD, 0x54]), ";
"    ('\u{8306}', [0xAD, 0x67]), ('\u{8307}', [0xD0, 0x6E]), ('\u{8308}', [0xD3, 0xA5]), ";
"    ('\u{8309}', [0xAD, 0x5B]), ('\u{830B}', [0x9E, 0x68]), ('\u{830C}', [0xD0, 0x7A]), ";
"    ('\u{830D}', [0xCE, 0x41]), ('\u{8316}', [0xD3, 0xA8]), ('\u{8317}', [0xAF, 0xFA]), ";
"    ('\u{8318}', [0x8F, 0x4A]), ('\u{8319}', [0xD3, 0x76]), ('\u{831A}', [0x8F, 0x42]), ";
"    ('\u{831B}', [0xD3, 0xA3]), ('\u{831C}', [0xD3, 0x7D]), ('\u{831D}', [0x8F, 0x51]), ";
"    ('\u{831E}', [0xD3, 0xB2]), ('\u{8320}', [0xD3, 0xAA]), ('\u{8322}', [0xD3, 0x7E]), ";
"    ('\u{8324}', [0xD3, 0xA9]), ('\u{8325}', [0xD3, 0x78]), ('\u{8326}', [0xD3, 0x7C]), ";
"    ('\u{8327}', [0xD3, 0xB5]), ('\u{8328}', [0xAF, 0xFD]), ('\u{8329}', [0xD3, 0xAD]), ";
"    ('\u{832A}', [0xD3, 0xA4]), ('\u{832B}', [0xAF, 0xED]), ('\u{832C}', [0xD3, 0xB3]), ";
"    ('\u{832D}', [0xD3, 0x74]), ('\u{832F}', [0xD3, 0xAC]), ('\u{8331}', [0xAF, 0xFC]), ";
"    ('\u{8332}', [0xAF, 0xF7]), ('\u{8333}', [0xD3, 0x73]), ('\u{8334}', [0xAF, 0xF5]), ";
"    ('\u{8335}', [0xAF, 0xF4]), ('\u{8336}', [0xAF, 0xF9]), ('\u{8337}', [0xD3, 0xAB]), ";
"    ('\u{8338}', [0xAF, 0xF1]), ('\u{8339}', [0xAF, 0xF8]), ('\u{833A}', [0xD0, 0x72]), ";
"    ('\u{833B}', [0xDB, 0x5C]), ('\u{833C}', [0xD3, 0xA6]), ('\u{833D}', [0x98, 0x46]), ";
"    ('\u{833F}', [0xD3, 0x7A]), ('\u{8340}', [0xAF, 0xFB]), ('\u{8341}', [0xD3, 0x7B]), ";
"    ('\u{8342}', [0xD3, 0xA1]), ('\u{8343}', [0xAF, 0xFE]), ('\u{8344}', [0xD3, 0x75]), ";
"    ('\u{8345}', [0xD3, 0xAF]), ('\u{8347}', [0xD3, 0xAE]), ('\u{8348}', [0xD3, 0xB6]), ";
"    ('\u{8349}', [0xAF, 0xF3]), ('\u{834A}', [0xAF, 0xF0]), ('\u{834B}', [0xD3, 0xB4]), ";
"    ('\u{834C}', [0xD3, 0xB0]), ('\u{834D}', [0xD3, 0xA7]), ('\u{834E}', [0xD3, 0xA2]), ";
"    ('\u{834F}', [0xAF, 0xF6]), ('\u{8350}', [0xAF, 0xF2]), ('\u{8351}', [0xD3, 0x77]), ";
"    ('\u{8352}', [0xAF, 0xEE]), ('\u{8353}', [0xD3, 0xB1]), ('\u{8354}', [0xAF, 0xEF]), ";
"    ('\u{8356}', [0xD3, 0x79]), ('\u{8357}', [0x99, 0xB4]), ('\u{8362}', [0x8E, 0xF5]), ";
"    ('\u{8363}', [0xFD, 0x55]), ('\u{8366}', [0x9C, 0xCD]), ('\u{836F}', [0x89, 0x78]), ";
"    ('\u{8373}', [0xD7, 0x5E]), ('\u{8374}', [0xD7, 0x60]), ('\u{8375}', [0xD7, 0x65]), ";
"    ('\u{8376}', [0xD7, 0x79]), ('\u{8377}', [0xB2, 0xFC]), ('\u{8378}', [0xB2, 0xF2]), ";
"    ('\u{837A}', [0xD7, 0x5D]), ('\u{837B}', [0xB2, 0xFD]), ('\u{837C}', [0xB2, 0xFE]), ";
"    ('\u{837D}', [0xD7, 0x68]), ('\u{837E}', [0xD7, 0x6F]), ('\u{837F}', [0xD7, 0x75]), ";
"    ('\u{8381}', [0xD7, 0x62]), ('\u{8383}', [0xD7, 0x69]), ('\u{8385}', [0x8F, 0x53]), ";
"    ('\u{8386}', [0xB3, 0x40]), ('\u{8387}', [0xD7, 0x77]), ('\u{8388}', [0xD7, 0x72]), ";
"    ('\u{8389}', [0xB2, 0xFA]), ('\u{838A}', [0xB2, 0xF8]), ('\u{838B}', [0xD7, 0x6E]), ";
"    ('\u{838C}', [0xD7, 0x6A]), ('\u{838D}', [0xD7, 0x5C]), ('\u{838E}', [0xB2, 0xEF]), ";
"    ('\u{838F}', [0xD7, 0x61]), ('\u{8390}', [0xD7, 0x59]), ('\u{8391}', [0x8F, 0x6F]), ";
"    ('\u{8392}', [0xB2, 0xF7]), ('\u{8393}', [0xB2, 0xF9]), ('\u{8394}', [0xD7, 0x66]), ";
"    ('\u{8395}', [0xD7, 0x63]), ('\u{8396}', [0xB2, 0xF4]), ('\u{8397}', [0xD7, 0x73]), ";
"    ('\u{8398}', [0xB2, 0xF1]), ('\u{8399}', [0xD7, 0x64]), ('\u{839A}', [0xD7, 0x7A]), ";
"    ('\u{839B}', [0xD7, 0x6C]), ('\u{839C}', [0x8E, 0x63]), ('\u{839D}', [0xD7, 0x6B]), ";
"    ('\u{839E}', [0xB2, 0xF0]), ('\u{83A0}', [0xB2, 0xFB]), ('\u{83A2}', [0xB2, 0xF3]), ";
"    ('\u{83A3}', [0xD7, 0x5A]), ('\u{83A4}', [0xD7, 0x5F]), ('\u{83A5}', [0xD7, 0x70]), ";
"    ('\u{83A6}', [0xD7, 0x76]), ('\u{83A7}', [0xB3, 0x41]), ('\u{83A8}', [0xD7, 0x5B]), ";
"    ('\u{83A9}', [0xD7, 0x67]), ('\u{83AA}', [0xD7, 0x6D]), ('\u{83AB}', [0xB2, 0xF6]), ";
"    ('\u{83AC}', [0x8F, 0x56]), ('\u{83AE}', [0xD7, 0x78]), ('\u{83AF}', [0xD7, 0x71]), ";
"    ('\u{83B0}', [0xD7, 0x74]), ('\u{83B9}', [0xFE, 0x76]), ('\u{83BD}', [0xB2, 0xF5]), ";
"    ('\u{83BE}', [0x9F, 0xC6]), ('\u{83BF}', [0xDB, 0x6C]), ('\u{83C0}', [0xDB, 0x60]), ";
"    ('\u{83C1}', [0x8F, 0x57]), ('\u{83C2}', [0xDB, 0x7D]), ('\u{83C3}', [0xDB, 0xA7]), ";
"    ('\u{83C4}', [0xDB, 0xAA]), ('\u{83C5}', [0xB5, 0xD5]), ('\u{83C6}', [0xDB, 0x68]), ";
"    ('\u{83C7}', [0xDB, 0xA3]), ('\u{83C8}', [0xDB, 0x69]), ('\u{83C9}', [0xDB, 0x77]), ";
"    ('\u{83CA}', [0xB5, 0xE2]), ('\u{83CB}', [0xDB, 0x73]), ('\u{83CC}', [0xB5, 0xDF]), ";
"    ('\u{83CD}', [0xFA, 0xAC]), ('\u{83CE}', [0xDB, 0x74]), ('\u{83CF}', [0x9C, 0x77]), ";
"    ('\u{83D1}', [0xDB, 0xA4]), ('\u{83D3}', [0x8F, 0x58]), ('\u{83D4}', [0xB5, 0xE8]), ";
"    ('\u{83D5}', [0xDB, 0xA1]), ('\u{83D6}', [0xDB, 0x75]), ('\u{83D7}', [0xDB, 0xAC]), ";
"    ('\u{83D8}', [0xDB, 0x70]), ('\u{83D9}', [0xDF, 0xC8]), ('\u{83DB}', [0xDB, 0xAF]), ";
"    ('\u{83DC}', [0xB5, 0xE6]), ('\u{83DD}', [0xDB, 0x6E]), ('\u{83DE}', [0xDB, 0x7A]), ";
"    ('\u{83DF}', [0xB5, 0xE9]), ('\u{83E0}', [0xB5, 0xD4]), ('\u{83E1}', [0xDB, 0x72]), ";
"    ('\u{83E2}', [0xDB, 0xAD]), ('\u{83E3}', [0xDB, 0x6B]), ('\u{83E4}', [0xDB, 0x64]), ";
"    ('\u{83E5}', [0xDB, 0x6F]), ('\u{83E7}', [0xDB, 0x63]), ('\u{83E8}', [0xDB, 0x61]), ";
"    ('\u{83E9}', [0xB5, 0xD0]), ('\u{83EA}', [0xDB, 0xA5]), ('\u{83EB}', [0xDB, 0x6A]), ";
"    ('\u{83EC}', [0xDB, 0xA8]), ('\u{83ED}', [0x98, 0x48]), ('\u{83EE}', [0xDB, 0xA9]), ";
"    ('\u{83EF}', [0xB5, 0xD8]), ('\u{83F0}', [0xB5, 0xDD]), ('\u{83F1}', [0xB5, 0xD9]), ";
"    ('\u{83F2}', [0xB5, 0xE1]), ('\u{83F3}', [0xDB, 0x7E]), ('\u{83F4}', [0xB5, 0xDA]), ";
"    ('\u{83F5}', [0xDB, 0x76]), ('\u{83F6}', [0xDB, 0x66]), ('\u{83F8}', [0xB5, 0xD2]), ";
"    ('\u{83F9}', [0xDB, 0x5E]), ('\u{83FA}', [0xDB, 0xA2]), ('\u{83FB}', [0xDB, 0xAB]), ";
"    ('\u{83FC}', [0xDB, 0x65]), ('\u{83FD}', [0xB5, 0xE0]), ('\u{83FE}', [0xDB, 0xB0]), ";
"    ('\u{83FF}', [0xDB, 0x71]), ('\u{8401}', [0xDB, 0x6D]), ('\u{8403}', [0xB5, 0xD1]), ";
"    ('\u{8404}', [0xB5, 0xE5]), ('\u{8405}', [0x99, 0xB7]), ('\u{8406}', [0xDB, 0x7C]), ";
"    ('\u{8407}', [0xB5, 0xE7]), ('\u{8409}', [0xDB, 0x78]), ('\u{840A}', [0xB5, 0xDC]), ";
"    ('\u{840B}', [0xB5, 0xD6]), ('\u{840C}', [0xB5, 0xDE]), ('\u{840D}', [0xB5, 0xD3]), ";
"    ('\u{840E}', [0xB5, 0xE4]), ('\u{840F}', [0x8F, 0x6E]), ('\u{8410}', [0xDB, 0x67]), ";
"    ('\u{8411}', [0xDB, 0x7B]), ('\u{8412}', [0xDB, 0x62]), ('\u{8413}', [0xDB, 0xA6]), ";
"    ('\u{8414}', [0x96, 0x65]), ('\u{8416}', [0xFA, 0x6C]), ('\u{8418}', [0x9D, 0xE7]), ";
"    ('\u{841B}', [0xDB, 0xAE]), ('\u{841C}', [0x9E, 0x62]), ('\u{8420}', [0x96, 0xCC]), ";
"    ('\u{8421}', [0x8E, 0x67]), ('\u{8423}', [0xDB, 0x5F]), ('\u{8424}', [0xFC, 0x75]), ";
"    ('\u{8426}', [0x98, 0x7E]), ('\u{8429}', [0xDF, 0xC7]), ('\u{842B}', [0xDF, 0xDD]), ";
"    ('\u{842C}', [0xB8, 0x55]), ('\u{842D}', [0xDF, 0xCC]), ('\u{842E}', [0xFD, 0xB9]), ";
"    ('\u{842F}', [0xDF, 0xCA]), ('\u{8430}', [0xDF, 0xB5]), ('\u{8431}', [0xB8, 0xA9]), ";
"    ('\u{8432}', [0xDF, 0xC5]), ('\u{8433}', [0xDF, 0xD9]), ('\u{8434}', [0xDF, 0xC1]), ";
"    ('\u{8435}', [0xB8, 0xB1]), ('\u{8436}', [0xDF, 0xD8]), ('\u{8437}', [0xDF, 0xBF]), ";
"    ('\u{8438}', [0xB5, 0xE3]), ('\u{8439}', [0xDF, 0xCF]), ('\u{843A}', [0xDF, 0xC0]), ";
"    ('\u{843B}', [0xDF, 0xD6]), ('\u{843C}', [0xB8, 0xB0]), ('\u{843D}', [0xB8, 0xA8]), ";
"    ('\u{843E}', [0x97, 0xFC]), ('\u{843F}', [0xDF, 0xAA]), ('\u{8440}', [0xDF, 0xB2]), ";
"    ('\u{8442}', [0xDF, 0xCB]), ('\u{8443}', [0xDF, 0xC3]), ('\u{8444}', [0xDF, 0xDC]), ";
"    ('\u{8445}', [0xDF, 0xC6]), ('\u{8446}', [0xB8, 0xB6]), ('\u{8447}', [0xDF, 0xD7]), ";
"    ('\u{8448}', [0x98, 0xF9]), ('\u{8449}', [0xB8, 0xAD]), ('\u{844A}', [0x8F, 0x66]), ";
"    ('\u{844B}', [0xDF, 0xC9]), ('\u{844C}', [0xDF, 0xD1]), ('\u{844D}', [0xDF, 0xB6]), ";
"    ('\u{844E}', [0xDF, 0xD0]), ('\u{8450}', [0xDF, 0xE1]), ('\u{8451}', [0xDF, 0xB1]), ";
"    ('\u{8452}', [0xDF, 0xD2]), ('\u{8453}', [0x95, 0x6E]), ('\u{8454}', [0xDF, 0xDF]), ";
"    ('\u{8455}', [0x92, 0x45]), ('\u{8456}', [0xDF, 0xAB]), ('\u{8457}', [0xB5, 0xDB]), ";
"    ('\u{8458}', [0x8F, 0x60]), ('\u{8459}', [0xDF, 0xB9]), ('\u{845A}', [0xDF, 0xB8]), ";
"    ('\u{845B}', [0xB8, 0xAF]), ('\u{845C}', [0x9E, 0xD1]), ('\u{845D}', [0xDF, 0xBC]), ";
"    ('\u{845E}', [0xDF, 0xBE]), ('\u{845F}', [0xDF, 0xCD]), ('\u{8460}', [0xDF, 0xDE]), ";
"    ('\u{8461}', [0xB8, 0xB2]), ('\u{8462}', [0xFE, 0xCD]), ('\u{8463}', [0xB8, 0xB3]), "
].
(* /repo/src/generated/whatwg/big5_whatwg_tables.rs.inc:6401-6656 *)
Definition big5_inc_25 : list line := [
"    ('\u{8464}', [0x99, 0xB9]), ('\u{8465}', [0xDF, 0xB0]), ('\u{8466}', [0xB8, 0xAB]), ";
"    ('\u{8467}', [0xDF, 0xB4]), ('\u{8468}', [0xDF, 0xDA]), ('\u{8469}', [0xB8, 0xB4]), ";
"    ('\u{846B}', [0xB8, 0xAC]), ('\u{846C}', [0xB8, 0xAE]), ('\u{846D}', [0xB8, 0xB5]), ";
"    ('\u{846E}', [0xDF, 0xE0]), ('\u{846F}', [0xDF, 0xD3]), ('\u{8470}', [0xDF, 0xCE]), ";
"    ('\u{8471}', [0x8F, 0x62]), ('\u{8472}', [0x97, 0x4C]), ('\u{8473}', [0xDF, 0xBB]), ";
"    ('\u{8474}', [0xDF, 0xBA]), ('\u{8475}', [0xB8, 0xAA]), ('\u{8476}', [0xDF, 0xAC]), ";
"    ('\u{8477}', [0xB8, 0xA7]), ('\u{8478}', [0xDF, 0xC4]), ('\u{8479}', [0xDF, 0xAD]), ";
"    ('\u{847A}', [0xDF, 0xC2]), ('\u{847D}', [0xDF, 0xB7]), ('\u{847E}', [0xDF, 0xDB]), ";
"    ('\u{847F}', [0x91, 0xC7]), ('\u{8480}', [0x95, 0x5F]), ('\u{8482}', [0xB8, 0xA6]), ";
"    ('\u{8484}', [0x87, 0xAB]), ('\u{8486}', [0xDF, 0xB3]), ('\u{8488}', [0x99, 0xBB]), ";
"    ('\u{848D}', [0xDF, 0xAF]), ('\u{848E}', [0xDF, 0xD5]), ('\u{848F}', [0xDF, 0xAE]), ";
"    ('\u{8490}', [0xBB, 0x60]), ('\u{8491}', [0xE3, 0xD3]), ('\u{8492}', [0x8E, 0x6D]), ";
"    ('\u{8493}', [0x8F, 0x71]), ('\u{8494}', [0xE3, 0xC2]), ('\u{8496}', [0x94, 0xCB]), ";
"    ('\u{8497}', [0xE3, 0xAC]), ('\u{8498}', [0xE3, 0xCA]), ('\u{8499}', [0xBB, 0x58]), ";
"    ('\u{849A}', [0xE3, 0xBB]), ('\u{849B}', [0xE3, 0xC5]), ('\u{849C}', [0xBB, 0x5B]), ";
"    ('\u{849D}', [0xE3, 0xBE]), ('\u{849E}', [0xBB, 0x59]), ('\u{849F}', [0xE3, 0xAF]), ";
"    ('\u{84A0}', [0xE3, 0xCD]), ('\u{84A1}', [0xE3, 0xAE]), ('\u{84A2}', [0xE3, 0xC1]), ";
"    ('\u{84A3}', [0x95, 0xB1]), ('\u{84A4}', [0xE3, 0xAD]), ('\u{84A7}', [0xE3, 0xBF]), ";
"    ('\u{84A8}', [0x8F, 0x69]), ('\u{84A9}', [0xE3, 0xC6]), ('\u{84AA}', [0xE3, 0xBA]), ";
"    ('\u{84AB}', [0xE3, 0xB5]), ('\u{84AC}', [0xE3, 0xB3]), ('\u{84AD}', [0x9A, 0xF2]), ";
"    ('\u{84AE}', [0xE3, 0xB4]), ('\u{84AF}', [0xE3, 0xC7]), ('\u{84B0}', [0xE3, 0xD2]), ";
"    ('\u{84B1}', [0xE3, 0xBC]), ('\u{84B2}', [0xBB, 0x5A]), ('\u{84B4}', [0xE3, 0xB7]), ";
"    ('\u{84B6}', [0xE3, 0xCB]), ('\u{84B8}', [0xBB, 0x5D]), ('\u{84B9}', [0xE3, 0xB6]), ";
"    ('\u{84BA}', [0xE3, 0xB0]), ('\u{84BB}', [0xE3, 0xC0]), ('\u{84BC}', [0xBB, 0x61]), ";
"    ('\u{84BD}', [0x96, 0xC3]), ('\u{84BE}', [0x99, 0xBD]), ('\u{84BF}', [0xBB, 0x55]), ";
"    ('\u{84C0}', [0xBB, 0x5E]), ('\u{84C1}', [0xE3, 0xB8]), ('\u{84C2}', [0xE3, 0xB2]), ";
"    ('\u{84C4}', [0xBB, 0x57]), ('\u{84C5}', [0xDF, 0xD4]), ('\u{84C6}', [0xBB, 0x56]), ";
"    ('\u{84C7}', [0xE3, 0xC3]), ('\u{84C9}', [0xBB, 0x54]), ('\u{84CA}', [0xBB, 0x63]), ";
"    ('\u{84CB}', [0xBB, 0x5C]), ('\u{84CC}', [0xE3, 0xC4]), ('\u{84CD}', [0xE3, 0xB9]), ";
"    ('\u{84CE}', [0xE3, 0xB1]), ('\u{84CF}', [0xE3, 0xCC]), ('\u{84D0}', [0xE3, 0xBD]), ";
"    ('\u{84D1}', [0xBB, 0x62]), ('\u{84D2}', [0xE3, 0xD0]), ('\u{84D3}', [0xBB, 0x5F]), ";
"    ('\u{84D4}', [0xE3, 0xCF]), ('\u{84D6}', [0xE3, 0xC9]), ('\u{84D7}', [0xE3, 0xCE]), ";
"    ('\u{84DA}', [0xA0, 0xCF]), ('\u{84DB}', [0xE3, 0xD1]), ('\u{84DE}', [0x8F, 0x6D]), ";
"    ('\u{84E1}', [0x99, 0xBE]), ('\u{84E2}', [0x8E, 0xF4]), ('\u{84E4}', [0x8F, 0x72]), ";
"    ('\u{84E5}', [0x95, 0xE4]), ('\u{84E7}', [0xE7, 0x73]), ('\u{84E8}', [0xE7, 0x74]), ";
"    ('\u{84E9}', [0xE7, 0x67]), ('\u{84EA}', [0xE7, 0x66]), ('\u{84EB}', [0xE7, 0x62]), ";
"    ('\u{84EC}', [0xBD, 0xB4]), ('\u{84EE}', [0xBD, 0xAC]), ('\u{84EF}', [0xE7, 0x76]), ";
"    ('\u{84F0}', [0xE7, 0x75]), ('\u{84F1}', [0xDF, 0xA9]), ('\u{84F2}', [0xE7, 0x5F]), ";
"    ('\u{84F3}', [0xE7, 0x63]), ('\u{84F4}', [0xE7, 0x5D]), ('\u{84F6}', [0xE7, 0x70]), ";
"    ('\u{84F7}', [0xE7, 0x61]), ('\u{84F8}', [0x99, 0xBF]), ('\u{84F9}', [0xE7, 0x77]), ";
"    ('\u{84FA}', [0xE7, 0x5A]), ('\u{84FB}', [0xE7, 0x58]), ('\u{84FC}', [0xE7, 0x64]), ";
"    ('\u{84FD}', [0xE7, 0x6E]), ('\u{84FE}', [0xE7, 0x69]), ('\u{84FF}', [0xBD, 0xB6]), ";
"    ('\u{8500}', [0xE7, 0x4F]), ('\u{8502}', [0xE7, 0x6D]), ('\u{8503}', [0x92, 0x42]), ";
"    ('\u{8504}', [0x87, 0xD7]), ('\u{8505}', [0xFB, 0xA5]), ('\u{8506}', [0xBD, 0xB7]), ";
"    ('\u{8507}', [0xDF, 0xBD]), ('\u{8508}', [0xE7, 0x5B]), ('\u{8509}', [0xE7, 0x52]), ";
"    ('\u{850A}', [0xE7, 0x55]), ('\u{850B}', [0xE7, 0x7B]), ('\u{850C}', [0xE7, 0x5C]), ";
"    ('\u{850D}', [0xE7, 0x53]), ('\u{850E}', [0xE7, 0x51]), ('\u{850F}', [0xE7, 0x4E]), ";
"    ('\u{8510}', [0x99, 0xC0]), ('\u{8511}', [0xBD, 0xB0]), ('\u{8512}', [0xE7, 0x65]), ";
"    ('\u{8513}', [0xBD, 0xAF]), ('\u{8514}', [0xBD, 0xB3]), ('\u{8515}', [0xE7, 0x60]), ";
"    ('\u{8516}', [0xE7, 0x68]), ('\u{8517}', [0xBD, 0xA9]), ('\u{8518}', [0xE7, 0x78]), ";
"    ('\u{8519}', [0xE7, 0x7C]), ('\u{851A}', [0xBD, 0xAB]), ('\u{851C}', [0xE7, 0x57]), ";
"    ('\u{851D}', [0xE7, 0x6B]), ('\u{851E}', [0xE7, 0x6F]), ('\u{851F}', [0xE7, 0x54]), ";
"    ('\u{8520}', [0xE7, 0x79]), ('\u{8521}', [0xBD, 0xB2]), ('\u{8523}', [0xBD, 0xB1]), ";
"    ('\u{8524}', [0xE7, 0x4C]), ('\u{8525}', [0xBD, 0xB5]), ('\u{8526}', [0xE7, 0x72]), ";
"    ('\u{8527}', [0xE7, 0x56]), ('\u{8528}', [0xE7, 0x6A]), ('\u{8529}', [0xE7, 0x50]), ";
"    ('\u{852A}', [0xE7, 0x5E]), ('\u{852B}', [0xE7, 0x59]), ('\u{852C}', [0xBD, 0xAD]), ";
"    ('\u{852D}', [0xBD, 0xAE]), ('\u{852E}', [0xE7, 0x6C]), ('\u{852F}', [0xE7, 0x7D]), ";
"    ('\u{8530}', [0xE7, 0x7A]), ('\u{8531}', [0xE7, 0x71]), ('\u{8533}', [0xFD, 0xB4]), ";
"    ('\u{8534}', [0x8F, 0x77]), ('\u{8538}', [0x99, 0xC1]), ('\u{853B}', [0xE7, 0x4D]), ";
"    ('\u{853D}', [0xBD, 0xAA]), ('\u{853E}', [0xEB, 0x49]), ('\u{8540}', [0xEB, 0x40]), ";
"    ('\u{8541}', [0xEB, 0x43]), ('\u{8542}', [0xFA, 0xB9]), ('\u{8543}', [0xBF, 0xBB]), ";
"    ('\u{8544}', [0xEB, 0x45]), ('\u{8545}', [0xEA, 0xF9]), ('\u{8546}', [0xEB, 0x41]), ";
"    ('\u{8547}', [0xEB, 0x47]), ('\u{8548}', [0xBF, 0xB8]), ('\u{8549}', [0xBF, 0xBC]), ";
"    ('\u{854A}', [0xBF, 0xB6]), ('\u{854B}', [0x8F, 0x40]), ('\u{854C}', [0xFA, 0x44]), ";
"    ('\u{854D}', [0xEA, 0xFB]), ('\u{854E}', [0xEB, 0x4C]), ('\u{8551}', [0xEB, 0x46]), ";
"    ('\u{8552}', [0x99, 0xC2]), ('\u{8553}', [0xEA, 0xFC]), ('\u{8554}', [0xEB, 0x55]), ";
"    ('\u{8555}', [0xEB, 0x4F]), ('\u{8556}', [0xEA, 0xF8]), ('\u{8557}', [0xEE, 0x46]), ";
"    ('\u{8558}', [0xEA, 0xFE]), ('\u{8559}', [0xBF, 0xB7]), ('\u{855A}', [0x8F, 0x5C]), ";
"    ('\u{855B}', [0xEB, 0x4A]), ('\u{855D}', [0xEB, 0x54]), ('\u{855E}', [0xBF, 0xBF]), ";
"    ('\u{855F}', [0x8C, 0xBD]), ('\u{8560}', [0xEB, 0x51]), ('\u{8561}', [0xEA, 0xFD]), ";
"    ('\u{8562}', [0xEB, 0x44]), ('\u{8563}', [0xEB, 0x48]), ('\u{8564}', [0xEB, 0x42]), ";
"    ('\u{8565}', [0xEB, 0x56]), ('\u{8566}', [0xEB, 0x53]), ('\u{8567}', [0xEB, 0x50]), ";
"    ('\u{8568}', [0xBF, 0xB9]), ('\u{8569}', [0xBF, 0xBA]), ('\u{856A}', [0xBF, 0xBE]), ";
"    ('\u{856B}', [0xEA, 0xFA]), ('\u{856C}', [0xEB, 0x57]), ('\u{856D}', [0xBF, 0xBD]), ";
"    ('\u{856E}', [0xEB, 0x4D]), ('\u{856F}', [0x99, 0xC4]), ('\u{8570}', [0x99, 0xC5]), ";
"    ('\u{8571}', [0xEB, 0x4B]), ('\u{8573}', [0x8F, 0x7B]), ('\u{8575}', [0xEB, 0x4E]), ";
"    ('\u{8576}', [0xEE, 0x53]), ('\u{8577}', [0xEE, 0x40]), ('\u{8578}', [0xEE, 0x45]), ";
"    ('\u{8579}', [0xEE, 0x52]), ('\u{857A}', [0xEE, 0x44]), ('\u{857B}', [0xED, 0xFB]), ";
"    ('\u{857C}', [0xEE, 0x41]), ('\u{857E}', [0xC1, 0xA2]), ('\u{8580}', [0xED, 0xF4]), ";
"    ('\u{8581}', [0xEE, 0x4D]), ('\u{8582}', [0xEE, 0x4F]), ('\u{8583}', [0xED, 0xF3]), ";
"    ('\u{8584}', [0xC1, 0xA1]), ('\u{8585}', [0xEE, 0x51]), ('\u{8586}', [0xEE, 0x49]), ";
"    ('\u{8587}', [0xC1, 0xA8]), ('\u{8588}', [0xEE, 0x50]), ('\u{8589}', [0xEE, 0x42]), ";
"    ('\u{858A}', [0xC1, 0xAA]), ('\u{858B}', [0xED, 0xF9]), ('\u{858C}', [0xEB, 0x52]), ";
"    ('\u{858D}', [0xEE, 0x4A]), ('\u{858E}', [0xEE, 0x47]), ('\u{858F}', [0xED, 0xF5]), ";
"    ('\u{8590}', [0xEE, 0x55]), ('\u{8591}', [0xC1, 0xA4]), ('\u{8593}', [0x87, 0x76]), ";
"    ('\u{8594}', [0xC1, 0xA5]), ('\u{8595}', [0xED, 0xF7]), ('\u{8596}', [0xEE, 0x48]), ";
"    ('\u{8597}', [0x8C, 0xB6]), ('\u{8598}', [0xEE, 0x54]), ('\u{8599}', [0xEE, 0x4B]), ";
"    ('\u{859A}', [0xED, 0xFD]), ('\u{859B}', [0xC1, 0xA7]), ('\u{859C}', [0xC1, 0xA3]), ";
"    ('\u{859D}', [0xEE, 0x4C]), ('\u{859E}', [0xED, 0xFE]), ('\u{859F}', [0xEE, 0x56]), ";
"    ('\u{85A0}', [0xED, 0xF8]), ('\u{85A1}', [0xEE, 0x43]), ('\u{85A2}', [0xEE, 0x4E]), ";
"    ('\u{85A3}', [0xED, 0xFA]), ('\u{85A4}', [0xED, 0xFC]), ('\u{85A6}', [0xC2, 0xCB]), ";
"    ('\u{85A7}', [0xED, 0xF6]), ('\u{85A8}', [0xC1, 0xA9]), ('\u{85A9}', [0xC2, 0xC4]), ";
"    ('\u{85AA}', [0xC1, 0x7E]), ('\u{85AF}', [0xC1, 0xA6]), ('\u{85B0}', [0xC2, 0xC8]), ";
"    ('\u{85B1}', [0xF0, 0xB3]), ('\u{85B3}', [0xF0, 0xA9]), ('\u{85B4}', [0xF0, 0xA4]), ";
"    ('\u{85B5}', [0xF0, 0xAA]), ('\u{85B6}', [0xF0, 0xB4]), ('\u{85B7}', [0xF0, 0xB8]), ";
"    ('\u{85B8}', [0xF0, 0xB7]), ('\u{85B9}', [0xC2, 0xCA]), ('\u{85BA}', [0xC2, 0xC9]), ";
"    ('\u{85BD}', [0xF0, 0xAB]), ('\u{85BE}', [0xF0, 0xB9]), ('\u{85BF}', [0xF0, 0xAE]), ";
"    ('\u{85C0}', [0xF0, 0xA6]), ('\u{85C1}', [0x8F, 0xA3]), ('\u{85C2}', [0xF0, 0xA8]), ";
"    ('\u{85C3}', [0xF0, 0xA7]), ('\u{85C4}', [0xF0, 0xAD]), ('\u{85C5}', [0xF0, 0xB2]), ";
"    ('\u{85C6}', [0xF0, 0xA5]), ('\u{85C7}', [0xF0, 0xAC]), ('\u{85C8}', [0xF0, 0xB1]), ";
"    ('\u{85C9}', [0xC2, 0xC7]), ('\u{85CB}', [0xF0, 0xAF]), ('\u{85CD}', [0xC2, 0xC5]), ";
"    ('\u{85CE}', [0xF0, 0xB0]), ('\u{85CF}', [0xC2, 0xC3]), ('\u{85D0}', [0xC2, 0xC6]), ";
"    ('\u{85D1}', [0xF2, 0xD5]), ('\u{85D2}', [0xF0, 0xB5]), ('\u{85D5}', [0xC3, 0xC2]), ";
"    ('\u{85D6}', [0x8C, 0xCE]), ('\u{85D7}', [0xF2, 0xCD]), ('\u{85D8}', [0xF2, 0xD1]), ";
"    ('\u{85D9}', [0xF2, 0xC9]), ('\u{85DA}', [0xF2, 0xCC]), ('\u{85DC}', [0xF2, 0xD4]), ";
"    ('\u{85DD}', [0xC3, 0xC0]), ('\u{85DE}', [0xF2, 0xD9]), ('\u{85DF}', [0xF2, 0xD2]), ";
"    ('\u{85E0}', [0x99, 0xC6]), ('\u{85E1}', [0xF2, 0xCA]), ('\u{85E2}', [0xF2, 0xDA]), ";
"    ('\u{85E3}', [0xF2, 0xD3]), ('\u{85E4}', [0xC3, 0xC3]), ('\u{85E5}', [0xC3, 0xC4]), ";
"    ('\u{85E6}', [0xF2, 0xD7]), ('\u{85E8}', [0xF2, 0xCB]), ('\u{85E9}', [0xC3, 0xBF]), ";
"    ('\u{85EA}', [0xC3, 0xC1]), ('\u{85EB}', [0xF2, 0xC6]), ('\u{85EC}', [0xF2, 0xCE]), ";
"    ('\u{85ED}', [0xF2, 0xC8]), ('\u{85EE}', [0x96, 0xCD]), ('\u{85EF}', [0xF2, 0xD8]), ";
"    ('\u{85F0}', [0xF2, 0xD6]), ('\u{85F1}', [0xF2, 0xC7]), ('\u{85F2}', [0xF2, 0xCF]), ";
"    ('\u{85F6}', [0xF4, 0xBE]), ('\u{85F7}', [0xC3, 0xC5]), ('\u{85F8}', [0xF2, 0xD0]), ";
"    ('\u{85F9}', [0xC4, 0xA7]), ('\u{85FA}', [0xC4, 0xA9]), ('\u{85FB}', [0xC4, 0xA6]), ";
"    ('\u{85FC}', [0x96, 0xC7]), ('\u{85FD}', [0xF4, 0xC3]), ('\u{85FE}', [0xF4, 0xBB]), ";
"    ('\u{85FF}', [0xF4, 0xB9]), ('\u{8600}', [0xF4, 0xBD]), ('\u{8601}', [0xF4, 0xBA]), ";
"    ('\u{8602}', [0x8F, 0xA5]), ('\u{8604}', [0xF4, 0xBF]), ('\u{8605}', [0xF4, 0xC1]), ";
"    ('\u{8606}', [0xC4, 0xAA]), ('\u{8607}', [0xC4, 0xAC]), ('\u{8609}', [0xF4, 0xC0]), ";
"    ('\u{860A}', [0xC4, 0xAD]), ('\u{860B}', [0xC4, 0xAB]), ('\u{860C}', [0xF4, 0xC2]), ";
"    ('\u{860D}', [0xFA, 0xBB]), ('\u{860F}', [0x8C, 0x61]), ('\u{8610}', [0x95, 0x70]), ";
"    ('\u{8611}', [0xC4, 0xA8]), ('\u{8613}', [0x87, 0xAF]), ('\u{8614}', [0x93, 0x68]), ";
"    ('\u{8616}', [0x8F, 0x7E]), ('\u{8617}', [0xC4, 0xF4]), ('\u{8618}', [0xF5, 0xF1]), ";
"    ('\u{8619}', [0xF5, 0xF7]), ('\u{861A}', [0xC4, 0xF6]), ('\u{861B}', [0xF4, 0xBC]), ";
"    ('\u{861C}', [0xF5, 0xF6]), ('\u{861E}', [0xF5, 0xFD]), ('\u{861F}', [0xF5, 0xF4]), ";
"    ('\u{8620}', [0xF5, 0xFB]), ('\u{8621}', [0xF5, 0xFA]), ('\u{8622}', [0xF4, 0xB8]), ";
"    ('\u{8623}', [0xF5, 0xF5]), ('\u{8624}', [0xF0, 0xB6]), ('\u{8625}', [0xF5, 0xFE]), ";
"    ('\u{8626}', [0xF5, 0xF3]), ('\u{8627}', [0xF5, 0xF8]), ('\u{8628}', [0x8F, 0xAA]), ";
"    ('\u{8629}', [0xF5, 0xFC]), ('\u{862A}', [0xF5, 0xF2]), ('\u{862C}', [0xF7, 0x4A]), ";
"    ('\u{862D}', [0xC4, 0xF5]), ('\u{862E}', [0xF5, 0xF9]), ('\u{862F}', [0xA0, 0x50]), ";
"    ('\u{8631}', [0xF7, 0xF4]), ('\u{8632}', [0xF7, 0x4B]), ('\u{8633}', [0xF7, 0x49]), ";
"    ('\u{8634}', [0xF7, 0x47]), ('\u{8635}', [0xF7, 0x48]), ('\u{8636}', [0xF7, 0x4C]), ";
"    ('\u{8638}', [0xC5, 0xD9]), ('\u{8639}', [0xF7, 0xF2]), ('\u{863A}', [0xF7, 0xF0]), ";
"    ('\u{863B}', [0xF7, 0xF5]), ('\u{863C}', [0xF7, 0xF3]), ('\u{863E}', [0xF7, 0xF6]), ";
"    ('\u{863F}', [0xC5, 0xDA]), ('\u{8640}', [0xF7, 0xF1]), ('\u{8642}', [0x90, 0xD3]), ";
"    ('\u{8643}', [0xF8, 0xBC]), ('\u{8645}', [0x95, 0x56]), ('\u{8646}', [0xF9, 0x45]), ";
"    ('\u{8647}', [0xF9, 0x46]), ('\u{8648}', [0xF9, 0x47]), ('\u{864B}', [0xF9, 0xC7]), ";
"    ('\u{864C}', [0xF9, 0xBD]), ('\u{864D}', [0xCA, 0x4F]), ('\u{864E}', [0xAA, 0xEA]), ";
"    ('\u{8650}', [0xAD, 0x68]), ('\u{8652}', [0xD3, 0xB8]), ('\u{8653}', [0xD3, 0xB7]), ";
"    ('\u{8654}', [0xB0, 0x40]), ('\u{8655}', [0xB3, 0x42]), ('\u{8656}', [0xD7, 0x7C]), ";
"    ('\u{8659}', [0xD7, 0x7B]), ('\u{865B}', [0xB5, 0xEA]), ('\u{865C}', [0xB8, 0xB8]), ";
"    ('\u{865E}', [0xB8, 0xB7]), ('\u{865F}', [0xB8, 0xB9]), ('\u{8661}', [0xE3, 0xD4]), ";
"    ('\u{8662}', [0xE7, 0x7E]), ('\u{8663}', [0xEB, 0x58]), ('\u{8664}', [0xEB, 0x5A]), ";
"    ('\u{8665}', [0xEB, 0x59]), ('\u{8667}', [0xC1, 0xAB]), ('\u{8668}', [0xEE, 0x57]), ";
"    ('\u{8669}', [0xF0, 0xBA]), ('\u{866A}', [0xF9, 0xA5]), ('\u{866B}', [0xA6, 0xE4]), ";
"    ('\u{866C}', [0x8F, 0xB8]), ('\u{866D}', [0xCD, 0xC9]), ('\u{866E}', [0xCD, 0xCA]), ";
"    ('\u{866F}', [0xCD, 0xC8]), ('\u{8670}', [0xCD, 0xC7]), ('\u{8671}', [0xAA, 0xEB]), ";
"    ('\u{8672}', [0x99, 0xC8]), ('\u{8673}', [0xD0, 0xA9]), ('\u{8674}', [0xD0, 0xA7]), ";
"    ('\u{8677}', [0xD0, 0xA6]), ('\u{8679}', [0xAD, 0x69]), ('\u{867A}', [0xAD, 0x6B]), ";
"    ('\u{867B}', [0xAD, 0x6A]), ('\u{867C}', [0xD0, 0xA8]), ('\u{867E}', [0x8F, 0xAF]), ";
"    ('\u{8685}', [0xD3, 0xC4]), ('\u{8686}', [0xD3, 0xC1]), ('\u{8687}', [0xD3, 0xBF]), ";
"    ('\u{868A}', [0xB0, 0x41]), ('\u{868B}', [0xD3, 0xC2]), ('\u{868C}', [0xB0, 0x46]), ";
"    ('\u{868D}', [0xD3, 0xBC]), ('\u{868E}', [0xD3, 0xCB]), ('\u{8690}', [0xD3, 0xCD]), ";
"    ('\u{8691}', [0xD3, 0xBD]), ('\u{8692}', [0x99, 0xC9]), ('\u{8693}', [0xB0, 0x43]), ";
"    ('\u{8694}', [0xD3, 0xCE]), ('\u{8695}', [0xD3, 0xC9]), ('\u{8696}', [0xD3, 0xBB]), ";
"    ('\u{8697}', [0xD3, 0xC0]), ('\u{8698}', [0xD3, 0xCA]), ('\u{8699}', [0xD3, 0xC6]), ";
"    ('\u{869A}', [0xD3, 0xC3]), ('\u{869C}', [0xB0, 0x48]), ('\u{869D}', [0xD3, 0xCC]), ";
"    ('\u{869E}', [0xD3, 0xBE]), ('\u{86A0}', [0x95, 0x79]), ('\u{86A1}', [0xD3, 0xC7]), ";
"    ('\u{86A2}', [0xD3, 0xB9]), ('\u{86A3}', [0xB0, 0x47]), ('\u{86A4}', [0xB0, 0x44]), ";
"    ('\u{86A5}', [0xD3, 0xC5]), ('\u{86A7}', [0xD3, 0xC8]), ('\u{86A8}', [0xD3, 0xBA]), ";
"    ('\u{86A9}', [0xB0, 0x45]), ('\u{86AA}', [0xB0, 0x42]), ('\u{86AD}', [0x9F, 0x49]), ";
"    ('\u{86AF}', [0xB3, 0x4C]), ('\u{86B0}', [0xD7, 0xA5]), ('\u{86B1}', [0xB3, 0x4B]), ";
"    ('\u{86B2}', [0x99, 0xCA]), ('\u{86B3}', [0xD7, 0xA8]), ('\u{86B4}', [0xD7, 0xAB]), ";
"    ('\u{86B5}', [0xB3, 0x48]), ('\u{86B6}', [0xB3, 0x46]), ('\u{86B7}', [0xD7, 0x7E]), ";
"    ('\u{86B8}', [0xD7, 0xA9]), ('\u{86B9}', [0xD7, 0xA7]), ('\u{86BA}', [0xD7, 0xA4]), ";
"    ('\u{86BB}', [0xD7, 0xAC]), ('\u{86BC}', [0xD7, 0xAD]), ('\u{86BD}', [0xD7, 0xAF]), ";
"    ('\u{86BE}', [0xD7, 0xB0]), ('\u{86BF}', [0xD7, 0x7D]), ('\u{86C0}', [0xB3, 0x45]), ";
"    ('\u{86C1}', [0xD7, 0xA2]), ('\u{86C2}', [0xD7, 0xA1]), ('\u{86C3}', [0xD7, 0xAE]), ";
"    ('\u{86C4}', [0xB3, 0x47]), ('\u{86C5}', [0xD7, 0xA3]), ('\u{86C6}', [0xB3, 0x49]), ";
"    ('\u{86C7}', [0xB3, 0x44]), ('\u{86C8}', [0xD7, 0xA6]), ('\u{86C9}', [0xB3, 0x4D]), ";
"    ('\u{86CB}', [0xB3, 0x4A]), ('\u{86CC}', [0xD7, 0xAA]), ('\u{86D0}', [0xB5, 0xF1]), ";
"    ('\u{86D1}', [0xDB, 0xBF]), ('\u{86D3}', [0xDB, 0xB4]), ('\u{86D4}', [0xB5, 0xEE]), ";
"    ('\u{86D6}', [0xDF, 0xE7]), ('\u{86D7}', [0xDB, 0xBD]), ('\u{86D8}', [0xDB, 0xB1]), ";
"    ('\u{86D9}', [0xB5, 0xEC]), ('\u{86DA}', [0xDB, 0xB6]), ('\u{86DB}', [0xB5, 0xEF]), ";
"    ('\u{86DC}', [0xDB, 0xBA]), ('\u{86DD}', [0xDB, 0xB8]), ('\u{86DE}', [0xB5, 0xF2]), ";
"    ('\u{86DF}', [0xB5, 0xEB]), ('\u{86E2}', [0xDB, 0xB2]), ('\u{86E3}', [0xDB, 0xB5]), ";
"    ('\u{86E4}', [0xB5, 0xF0]), ('\u{86E6}', [0xDB, 0xB3]), ('\u{86E8}', [0xDB, 0xBE]), ";
"    ('\u{86E9}', [0xDB, 0xBC]), ('\u{86EA}', [0xDB, 0xB7]), ('\u{86EB}', [0xDB, 0xB9]), ";
"    ('\u{86EC}', [0xDB, 0xBB]), ('\u{86ED}', [0xB5, 0xED]), ('\u{86EF}', [0x99, 0xCB]), ";
"    ('\u{86F5}', [0xDF, 0xE8]), ('\u{86F6}', [0xDF, 0xEE]), ('\u{86F7}', [0xDF, 0xE4]), ";
"    ('\u{86F8}', [0xDF, 0xEA]), ('\u{86F9}', [0xB8, 0xBA]), ('\u{86FA}', [0xDF, 0xE6]), ";
"    ('\u{86FB}', [0xB8, 0xC0]), ('\u{86FE}', [0xB8, 0xBF]), ('\u{8700}', [0xB8, 0xBE]), ";
"    ('\u{8701}', [0xDF, 0xED]), ('\u{8702}', [0xB8, 0xC1]), ('\u{8703}', [0xB8, 0xC2]), ";
"    ('\u{8704}', [0xDF, 0xE3]), ('\u{8705}', [0xDF, 0xF0]), ('\u{8706}', [0xB8, 0xC3]), ";
"    ('\u{8707}', [0xB8, 0xBD]), ('\u{8708}', [0xB8, 0xBC]), ('\u{8709}', [0xDF, 0xEC]), ";
"    ('\u{870A}', [0xB8, 0xC4]), ('\u{870B}', [0xDF, 0xE2]), ('\u{870C}', [0xDF, 0xE5]), ";
"    ('\u{870D}', [0xDF, 0xEF]), ('\u{870E}', [0xDF, 0xEB]), ('\u{8711}', [0xE3, 0xF4]), ";
"    ('\u{8712}', [0xE3, 0xE9]), ('\u{8713}', [0xB8, 0xBB]), ('\u{8718}', [0xBB, 0x6A]), ";
"    ('\u{8719}', [0xE3, 0xDD]), ('\u{871A}', [0xE3, 0xF2]), ('\u{871B}', [0xE3, 0xDE]), ";
"    ('\u{871C}', [0xBB, 0x65]), ('\u{871E}', [0xE3, 0xDB]), ('\u{8720}', [0xE3, 0xE4]), ";
"    ('\u{8721}', [0xE3, 0xDC]), ('\u{8722}', [0xBB, 0x67]), ('\u{8723}', [0xE3, 0xD6]), ";
"    ('\u{8724}', [0xE3, 0xF1]), ('\u{8725}', [0xBB, 0x68]), ('\u{8726}', [0xE3, 0xEE]), ";
"    ('\u{8727}', [0xE3, 0xEF]), ('\u{8728}', [0xE3, 0xD7]), ('\u{8729}', [0xBB, 0x6D]), ";
"    ('\u{872A}', [0xE3, 0xE6]), ('\u{872C}', [0xE3, 0xE0]), ('\u{872D}', [0xE3, 0xE7]), ";
"    ('\u{872E}', [0xE3, 0xDA]), ('\u{8730}', [0xE3, 0xF3]), ('\u{8731}', [0xE3, 0xEB]), ";
"    ('\u{8732}', [0xE3, 0xE5]), ('\u{8733}', [0xE3, 0xD5]), ('\u{8734}', [0xBB, 0x69]), ";
"    ('\u{8735}', [0xE3, 0xEC]), ('\u{8737}', [0xBB, 0x6C]), ('\u{8738}', [0xE3, 0xF0]), ";
"    ('\u{873A}', [0xE3, 0xEA]), ('\u{873B}', [0xBB, 0x66]), ('\u{873C}', [0xE3, 0xE8]), ";
"    ('\u{873E}', [0xE3, 0xE2]), ('\u{873F}', [0xBB, 0x64]), ('\u{8740}', [0xE3, 0xD9]), ";
"    ('\u{8741}', [0xE3, 0xE1]), ('\u{8742}', [0xE3, 0xED]), ('\u{8743}', [0xE3, 0xDF]), ";
"    ('\u{8746}', [0xE3, 0xE3]), ('\u{874C}', [0xBD, 0xC1]), ('\u{874D}', [0xDF, 0xE9]), ";
"    ('\u{874E}', [0xE7, 0xB2]), ('\u{874F}', [0xE7, 0xBB]), ('\u{8750}', [0xE7, 0xB1]), ";
"    ('\u{8751}', [0xE7, 0xAD]), ('\u{8752}', [0xE7, 0xAA]), ('\u{8753}', [0xBD, 0xC2]), ";
"    ('\u{8754}', [0xE7, 0xA8]), ('\u{8755}', [0xBB, 0x6B]), ('\u{8756}', [0xE7, 0xA1]), ";
"    ('\u{8757}', [0xBD, 0xC0]), ('\u{8758}', [0xE7, 0xA7]), ('\u{8759}', [0xBD, 0xBF]), ";
"    ('\u{875A}', [0xE7, 0xAC]), ('\u{875B}', [0xE7, 0xA9]), ('\u{875C}', [0xE7, 0xB9]), ";
"    ('\u{875D}', [0xE7, 0xB4]), ('\u{875E}', [0xE7, 0xAE]), ('\u{875F}', [0xE7, 0xB3]), ";
"    ('\u{8760}', [0xBD, 0xBB]), ('\u{8761}', [0xE7, 0xAB]), ('\u{8762}', [0xE7, 0xBE]), ";
"    ('\u{8763}', [0xE7, 0xA2]), ('\u{8764}', [0xE7, 0xA3]), ('\u{8765}', [0xE7, 0xBA]), ";
"    ('\u{8766}', [0xBD, 0xBC]), ('\u{8767}', [0xE7, 0xBF]), ('\u{8768}', [0xBD, 0xBE]), ";
"    ('\u{8769}', [0xE7, 0xC0]), ('\u{876A}', [0xE7, 0xB0]), ('\u{876B}', [0xE3, 0xD8]), ";
"    ('\u{876C}', [0xE7, 0xB6]), ('\u{876D}', [0xE7, 0xAF]), ('\u{876E}', [0xE7, 0xB8]), ";
"    ('\u{876F}', [0xE7, 0xB5]), ('\u{8770}', [0x9D, 0xD5]), ('\u{8771}', [0x8F, 0xB0]), ";
"    ('\u{8773}', [0xE7, 0xA6]), ('\u{8774}', [0xBD, 0xB9]), ('\u{8775}', [0xE7, 0xBD]), ";
"    ('\u{8776}', [0xBD, 0xBA]), ('\u{8777}', [0xE7, 0xA4]), ('\u{8778}', [0xBD, 0xBD]), ";
"    ('\u{8779}', [0xEB, 0x64]), ('\u{877A}', [0xE7, 0xB7]), ('\u{877B}', [0xE7, 0xBC]), ";
"    ('\u{877D}', [0xFA, 0x7A]), ('\u{8781}', [0xEB, 0x61]), ('\u{8782}', [0xBD, 0xB8]), ";
"    ('\u{8783}', [0xBF, 0xC0]), ('\u{8784}', [0xEB, 0x6B]), ('\u{8785}', [0xEB, 0x67]), ";
"    ('\u{8786}', [0x9E, 0x5F]), ('\u{8787}', [0xEB, 0x65]), ('\u{8788}', [0xEB, 0x60]), ";
"    ('\u{8789}', [0xEB, 0x6F]), ('\u{878B}', [0x99, 0xCD]), ('\u{878C}', [0xA0, 0xC9]), ";
"    ('\u{878D}', [0xBF, 0xC4]), ('\u{878F}', [0xEB, 0x5C]), ('\u{8790}', [0xEB, 0x68]), ";
"    ('\u{8791}', [0xEB, 0x69]), ('\u{8792}', [0xEB, 0x5F]), ('\u{8793}', [0xEB, 0x5E]), ";
"    ('\u{8794}', [0xEB, 0x6C]), ('\u{8796}', [0xEB, 0x62]), ('\u{8797}', [0xEB, 0x5D]), ";
"    ('\u{8798}', [0xEB, 0x63]), ('\u{879A}', [0xEB, 0x6E]), ('\u{879B}', [0xEB, 0x5B]), ";
"    ('\u{879C}', [0xEB, 0x6D]), ('\u{879D}', [0xEB, 0x6A]), ('\u{879E}', [0xBF, 0xC2]), ";
"    ('\u{879F}', [0xBF, 0xC1]), ('\u{87A2}', [0xBF, 0xC3]), ('\u{87A3}', [0xEB, 0x66]), ";
"    ('\u{87A4}', [0xF0, 0xCB]), ('\u{87A5}', [0x9A, 0xDB]), ('\u{87A9}', [0xA0, 0xC6]), ";
"    ('\u{87AA}', [0xEE, 0x59]), ('\u{87AB}', [0xC1, 0xB1]), ('\u{87AC}', [0xEE, 0x5D]), ";
"    ('\u{87AD}', [0xEE, 0x5A]), ('\u{87AE}', [0xEE, 0x61]), ('\u{87AF}', [0xEE, 0x67]), ";
"    ('\u{87B0}', [0xEE, 0x5C]), ('\u{87B1}', [0x8F, 0xB4]), ('\u{87B2}', [0xEE, 0x70]), ";
"    ('\u{87B3}', [0xC1, 0xAE]), ('\u{87B4}', [0xEE, 0x6A]), ('\u{87B5}', [0xEE, 0x5F]), ";
"    ('\u{87B6}', [0xEE, 0x6B]), ('\u{87B7}', [0xEE, 0x66]), ('\u{87B8}', [0xEE, 0x6D]), ";
"    ('\u{87B9}', [0xEE, 0x5E]), ('\u{87BA}', [0xC1, 0xB3]), ('\u{87BB}', [0xC1, 0xB2]), ";
"    ('\u{87BC}', [0xEE, 0x60]), ('\u{87BD}', [0xEE, 0x6E]), ('\u{87BE}', [0xEE, 0x58]), ";
"    ('\u{87BF}', [0xEE, 0x6C]), ('\u{87C0}', [0xC1, 0xAC]), ('\u{87C1}', [0xA0, 0xD7]), ";
"    ('\u{87C2}', [0xEE, 0x64]), ('\u{87C3}', [0xEE, 0x63]), ('\u{87C4}', [0xEE, 0x68]), ";
"    ('\u{87C5}', [0xEE, 0x5B]), ('\u{87C6}', [0xC1, 0xB0]), ('\u{87C8}', [0xC1, 0xB4]), ";
"    ('\u{87C9}', [0xEE, 0x62]), ('\u{87CA}', [0xEE, 0x69]), ('\u{87CB}', [0xC1, 0xB5]), ";
"    ('\u{87CC}', [0xEE, 0x65]), ('\u{87CE}', [0xA0, 0xC7]), ('\u{87D1}', [0xC1, 0xAD]), ";
"    ('\u{87D2}', [0xC1, 0xAF]), ('\u{87D3}', [0xF0, 0xC7]), ('\u{87D4}', [0xF0, 0xC5]), ";
"    ('\u{87D6}', [0xA0, 0x43]), ('\u{87D7}', [0xF0, 0xCC]), ('\u{87D8}', [0xF0, 0xC9]), ";
"    ('\u{87D9}', [0xF0, 0xCD]), ('\u{87DA}', [0x8F, 0xB5]), ('\u{87DB}', [0xF0, 0xBE]), ";
"    ('\u{87DC}', [0xF0, 0xC6]), ('\u{87DD}', [0xF0, 0xD1]), ('\u{87DE}', [0xEE, 0x6F]), ";
"    ('\u{87DF}', [0xF0, 0xC2]), ('\u{87E0}', [0xC2, 0xCF]), ('\u{87E1}', [0xE7, 0xA5]), ";
"    ('\u{87E2}', [0xF0, 0xBD]), ('\u{87E3}', [0xF0, 0xCA]), ('\u{87E4}', [0xF0, 0xC4]), ";
"    ('\u{87E5}', [0xF0, 0xC1]), ('\u{87E6}', [0xF0, 0xBC]), ('\u{87E7}', [0xF0, 0xBB]), ";
"    ('\u{87E8}', [0xF0, 0xD0]), ('\u{87EA}', [0xF0, 0xC0]), ('\u{87EB}', [0xF0, 0xBF]), ";
"    ('\u{87EC}', [0xC2, 0xCD]), ('\u{87ED}', [0xF0, 0xC8]), ('\u{87EE}', [0x8F, 0xB2]), ";
"    ('\u{87EF}', [0xC2, 0xCC]), ('\u{87F2}', [0xC2, 0xCE]), ('\u{87F3}', [0xF0, 0xC3]), ";
"    ('\u{87F4}', [0xF0, 0xCF]), ('\u{87F5}', [0xA0, 0x61]), ('\u{87F6}', [0xF2, 0xDE]), ";
"    ('\u{87F7}', [0xF2, 0xDF]), ('\u{87F9}', [0xC3, 0xC9]), ('\u{87FA}', [0xF2, 0xDC]), ";
"    ('\u{87FB}', [0xC3, 0xC6]), ('\u{87FC}', [0xF2, 0xE4]), ('\u{87FE}', [0xC3, 0xCA]), ";
"    ('\u{87FF}', [0xF2, 0xE6]), ('\u{8800}', [0xF2, 0xDB]), ('\u{8801}', [0xF0, 0xCE]), ";
"    ('\u{8802}', [0xF2, 0xE8]), ('\u{8803}', [0xF2, 0xDD]), ('\u{8804}', [0x9E, 0x5E]), ";
"    ('\u{8805}', [0xC3, 0xC7]), ('\u{8806}', [0xF2, 0xE3]), ('\u{8808}', [0xF2, 0xE5]), ";
"    ('\u{8809}', [0xF2, 0xE0]), ('\u{880A}', [0xF2, 0xE7]), ('\u{880B}', [0xF2, 0xE2]), ";
"    ('\u{880C}', [0xF2, 0xE1]), ('\u{880D}', [0xC3, 0xC8]), ('\u{880F}', [0x8F, 0xB6]), "
].
(* /repo/src/generated/whatwg/big5_whatwg_tables.rs.inc:6657-6912 *)
Definition big5_inc_26 : list line := [
"    ('\u{8810}', [0xF4, 0xC5]), ('\u{8811}', [0xF4, 0xC6]), ('\u{8813}', [0xF4, 0xC8]), ";
"    ('\u{8814}', [0xC4, 0xAE]), ('\u{8815}', [0xC4, 0xAF]), ('\u{8816}', [0xF4, 0xC9]), ";
"    ('\u{8817}', [0xF4, 0xC7]), ('\u{8818}', [0x9F, 0xE8]), ('\u{8819}', [0xF4, 0xC4]), ";
"    ('\u{881B}', [0xF6, 0x42]), ('\u{881C}', [0xF6, 0x45]), ('\u{881D}', [0xF6, 0x41]), ";
"    ('\u{881F}', [0xC4, 0xFA]), ('\u{8820}', [0xF6, 0x43]), ('\u{8821}', [0xC4, 0xF9]), ";
"    ('\u{8822}', [0xC4, 0xF8]), ('\u{8823}', [0xC4, 0xF7]), ('\u{8824}', [0xF6, 0x44]), ";
"    ('\u{8825}', [0xF7, 0x51]), ('\u{8826}', [0xF7, 0x4F]), ('\u{8827}', [0x9C, 0xB2]), ";
"    ('\u{8828}', [0xF7, 0x4E]), ('\u{8829}', [0xF6, 0x40]), ('\u{882A}', [0xF7, 0x50]), ";
"    ('\u{882B}', [0xF6, 0x46]), ('\u{882C}', [0xF7, 0x4D]), ('\u{882D}', [0x95, 0x7C]), ";
"    ('\u{882E}', [0xF7, 0xF9]), ('\u{882F}', [0xF7, 0xD7]), ('\u{8830}', [0xF7, 0xF7]), ";
"    ('\u{8831}', [0xC5, 0xDB]), ('\u{8832}', [0xF7, 0xF8]), ('\u{8833}', [0xF7, 0xFA]), ";
"    ('\u{8835}', [0xF8, 0xBF]), ('\u{8836}', [0xC5, 0xFA]), ('\u{8837}', [0xF8, 0xBE]), ";
"    ('\u{8838}', [0xF8, 0xBD]), ('\u{8839}', [0xC5, 0xFB]), ('\u{883B}', [0xC6, 0x5A]), ";
"    ('\u{883C}', [0xF9, 0x6E]), ('\u{883D}', [0xF9, 0xA7]), ('\u{883E}', [0xF9, 0xA6]), ";
"    ('\u{883F}', [0xF9, 0xA8]), ('\u{8840}', [0xA6, 0xE5]), ('\u{8841}', [0xD0, 0xAA]), ";
"    ('\u{8842}', [0x9F, 0xC7]), ('\u{8843}', [0xD3, 0xCF]), ('\u{8844}', [0xD3, 0xD0]), ";
"    ('\u{8845}', [0x8F, 0xBB]), ('\u{8846}', [0x8F, 0xBC]), ('\u{8848}', [0xDB, 0xC0]), ";
"    ('\u{884A}', [0xF6, 0x47]), ('\u{884B}', [0xF8, 0xC0]), ('\u{884C}', [0xA6, 0xE6]), ";
"    ('\u{884D}', [0xAD, 0x6C]), ('\u{884E}', [0xD0, 0xAB]), ('\u{884F}', [0x8F, 0xEC]), ";
"    ('\u{8852}', [0xD7, 0xB1]), ('\u{8853}', [0xB3, 0x4E]), ('\u{8855}', [0xDB, 0xC2]), ";
"    ('\u{8856}', [0xDB, 0xC1]), ('\u{8857}', [0xB5, 0xF3]), ('\u{8859}', [0xB8, 0xC5]), ";
"    ('\u{885A}', [0xE7, 0xC1]), ('\u{885B}', [0xBD, 0xC3]), ('\u{885D}', [0xBD, 0xC4]), ";
"    ('\u{885E}', [0x8F, 0xC0]), ('\u{8860}', [0x93, 0x6A]), ('\u{8861}', [0xBF, 0xC5]), ";
"    ('\u{8862}', [0xC5, 0xFC]), ('\u{8863}', [0xA6, 0xE7]), ('\u{8864}', [0x8B, 0xE4]), ";
"    ('\u{8865}', [0x9C, 0x7C]), ('\u{8867}', [0xD0, 0xAC]), ('\u{8868}', [0xAA, 0xED]), ";
"    ('\u{8869}', [0xD0, 0xAE]), ('\u{886A}', [0xD0, 0xAD]), ('\u{886B}', [0xAD, 0x6D]), ";
"    ('\u{886D}', [0xD3, 0xD1]), ('\u{886E}', [0x95, 0xA1]), ('\u{886F}', [0xD3, 0xD8]), ";
"    ('\u{8870}', [0xB0, 0x49]), ('\u{8871}', [0xD3, 0xD6]), ('\u{8872}', [0xD3, 0xD4]), ";
"    ('\u{8874}', [0xD3, 0xDB]), ('\u{8875}', [0xD3, 0xD2]), ('\u{8876}', [0xD3, 0xD3]), ";
"    ('\u{8877}', [0xB0, 0x4A]), ('\u{8879}', [0xB0, 0x4E]), ('\u{887C}', [0xD3, 0xDC]), ";
"    ('\u{887D}', [0xB0, 0x4D]), ('\u{887E}', [0xD3, 0xDA]), ('\u{887F}', [0xD3, 0xD7]), ";
"    ('\u{8880}', [0xD3, 0xD5]), ('\u{8881}', [0xB0, 0x4B]), ('\u{8882}', [0xB0, 0x4C]), ";
"    ('\u{8883}', [0xD3, 0xD9]), ('\u{8884}', [0xFE, 0xEC]), ('\u{8887}', [0x95, 0xA3]), ";
"    ('\u{8888}', [0xB3, 0x50]), ('\u{8889}', [0xD7, 0xB2]), ('\u{888B}', [0xB3, 0x55]), ";
"    ('\u{888C}', [0xD7, 0xC2]), ('\u{888D}', [0xB3, 0x54]), ('\u{888E}', [0xD7, 0xC4]), ";
"    ('\u{888F}', [0x8C, 0x45]), ('\u{8890}', [0x8C, 0xB8]), ('\u{8891}', [0xD7, 0xB8]), ";
"    ('\u{8892}', [0xB3, 0x52]), ('\u{8893}', [0xD7, 0xC3]), ('\u{8895}', [0xD7, 0xB3]), ";
"    ('\u{8896}', [0xB3, 0x53]), ('\u{8897}', [0xD7, 0xBF]), ('\u{8898}', [0xD7, 0xBB]), ";
"    ('\u{8899}', [0xD7, 0xBD]), ('\u{889A}', [0xD7, 0xB7]), ('\u{889B}', [0xD7, 0xBE]), ";
"    ('\u{889C}', [0x8F, 0xC1]), ('\u{889D}', [0x87, 0xB7]), ('\u{889E}', [0xB3, 0x4F]), ";
"    ('\u{889F}', [0xD7, 0xBA]), ('\u{88A0}', [0xA0, 0x52]), ('\u{88A1}', [0xD7, 0xB9]), ";
"    ('\u{88A2}', [0xD7, 0xB5]), ('\u{88A4}', [0xD7, 0xC0]), ('\u{88A7}', [0xD7, 0xBC]), ";
"    ('\u{88A8}', [0xD7, 0xB4]), ('\u{88AA}', [0xD7, 0xB6]), ('\u{88AB}', [0xB3, 0x51]), ";
"    ('\u{88AC}', [0xD7, 0xC1]), ('\u{88AE}', [0x99, 0xD0]), ('\u{88B1}', [0xB5, 0xF6]), ";
"    ('\u{88B2}', [0xDB, 0xCD]), ('\u{88B4}', [0x8F, 0xC3]), ('\u{88B5}', [0x8F, 0xC4]), ";
"    ('\u{88B6}', [0xDB, 0xC9]), ('\u{88B7}', [0xDB, 0xCB]), ('\u{88B8}', [0xDB, 0xC6]), ";
"    ('\u{88B9}', [0xDB, 0xC5]), ('\u{88BA}', [0xDB, 0xC3]), ('\u{88BC}', [0xDB, 0xCA]), ";
"    ('\u{88BD}', [0xDB, 0xCC]), ('\u{88BE}', [0xDB, 0xC8]), ('\u{88BF}', [0x95, 0xA4]), ";
"    ('\u{88C0}', [0xDB, 0xC7]), ('\u{88C1}', [0xB5, 0xF4]), ('\u{88C2}', [0xB5, 0xF5]), ";
"    ('\u{88C5}', [0x8F, 0xC6]), ('\u{88C7}', [0x9E, 0x60]), ('\u{88C9}', [0xDB, 0xCF]), ";
"    ('\u{88CA}', [0xB8, 0xCD]), ('\u{88CB}', [0xDF, 0xF2]), ('\u{88CC}', [0xDF, 0xF8]), ";
"    ('\u{88CD}', [0xDF, 0xF3]), ('\u{88CE}', [0xDF, 0xF4]), ('\u{88CF}', [0xF9, 0xD8]), ";
"    ('\u{88D0}', [0xDF, 0xF9]), ('\u{88D2}', [0xB8, 0xCF]), ('\u{88D4}', [0xB8, 0xC7]), ";
"    ('\u{88D5}', [0xB8, 0xCE]), ('\u{88D6}', [0xDF, 0xF1]), ('\u{88D7}', [0xDB, 0xC4]), ";
"    ('\u{88D8}', [0xB8, 0xCA]), ('\u{88D9}', [0xB8, 0xC8]), ('\u{88DA}', [0xDF, 0xF7]), ";
"    ('\u{88DB}', [0xDF, 0xF6]), ('\u{88DC}', [0xB8, 0xC9]), ('\u{88DD}', [0xB8, 0xCB]), ";
"    ('\u{88DE}', [0xDF, 0xF5]), ('\u{88DF}', [0xB8, 0xC6]), ('\u{88E1}', [0xB8, 0xCC]), ";
"    ('\u{88E6}', [0x95, 0xA5]), ('\u{88E7}', [0xE3, 0xF6]), ('\u{88E8}', [0xBB, 0x74]), ";
"    ('\u{88EB}', [0xE4, 0x42]), ('\u{88EC}', [0xE4, 0x41]), ('\u{88EE}', [0xE3, 0xFB]), ";
"    ('\u{88EF}', [0xBB, 0x76]), ('\u{88F0}', [0xE4, 0x40]), ('\u{88F1}', [0xE3, 0xF7]), ";
"    ('\u{88F2}', [0xE3, 0xF8]), ('\u{88F3}', [0xBB, 0x6E]), ('\u{88F4}', [0xBB, 0x70]), ";
"    ('\u{88F5}', [0x9C, 0xB3]), ('\u{88F6}', [0xE3, 0xFD]), ('\u{88F7}', [0xE3, 0xF5]), ";
"    ('\u{88F8}', [0xBB, 0x72]), ('\u{88F9}', [0xBB, 0x71]), ('\u{88FA}', [0xE3, 0xF9]), ";
"    ('\u{88FB}', [0xE3, 0xFE]), ('\u{88FC}', [0xE3, 0xFC]), ('\u{88FD}', [0xBB, 0x73]), ";
"    ('\u{88FE}', [0xE3, 0xFA]), ('\u{88FF}', [0x99, 0xD1]), ('\u{8900}', [0xFE, 0xF1]), ";
"    ('\u{8901}', [0xDB, 0xCE]), ('\u{8902}', [0xBB, 0x6F]), ('\u{8905}', [0xE7, 0xC2]), ";
"    ('\u{8906}', [0xE7, 0xC9]), ('\u{8907}', [0xBD, 0xC6]), ('\u{8909}', [0xE7, 0xCD]), ";
"    ('\u{890A}', [0xBD, 0xCA]), ('\u{890B}', [0xE7, 0xC5]), ('\u{890C}', [0xE7, 0xC3]), ";
"    ('\u{890E}', [0xE7, 0xCC]), ('\u{8910}', [0xBD, 0xC5]), ('\u{8911}', [0xE7, 0xCB]), ";
"    ('\u{8912}', [0xBD, 0xC7]), ('\u{8913}', [0xBD, 0xC8]), ('\u{8914}', [0xE7, 0xC4]), ";
"    ('\u{8915}', [0xBD, 0xC9]), ('\u{8916}', [0xE7, 0xCA]), ('\u{8917}', [0xE7, 0xC6]), ";
"    ('\u{8918}', [0xE7, 0xC7]), ('\u{8919}', [0xE7, 0xC8]), ('\u{891A}', [0xBB, 0x75]), ";
"    ('\u{891E}', [0xEB, 0x70]), ('\u{891F}', [0xEB, 0x7C]), ('\u{8921}', [0xBF, 0xCA]), ";
"    ('\u{8922}', [0xEB, 0x77]), ('\u{8923}', [0xEB, 0x79]), ('\u{8924}', [0x99, 0xD2]), ";
"    ('\u{8925}', [0xBF, 0xC8]), ('\u{8926}', [0xEB, 0x71]), ('\u{8927}', [0xEB, 0x75]), ";
"    ('\u{8929}', [0xEB, 0x78]), ('\u{892A}', [0xBF, 0xC6]), ('\u{892B}', [0xBF, 0xC9]), ";
"    ('\u{892C}', [0xEB, 0x7B]), ('\u{892D}', [0xEB, 0x73]), ('\u{892E}', [0xEB, 0x74]), ";
"    ('\u{892F}', [0xEB, 0x7A]), ('\u{8930}', [0xEB, 0x72]), ('\u{8931}', [0xEB, 0x76]), ";
"    ('\u{8932}', [0xBF, 0xC7]), ('\u{8933}', [0xEE, 0x72]), ('\u{8935}', [0xEE, 0x71]), ";
"    ('\u{8936}', [0xC1, 0xB7]), ('\u{8937}', [0xEE, 0x77]), ('\u{8938}', [0xC1, 0xB9]), ";
"    ('\u{893B}', [0xC1, 0xB6]), ('\u{893C}', [0xEE, 0x73]), ('\u{893D}', [0xC1, 0xBA]), ";
"    ('\u{893E}', [0xEE, 0x74]), ('\u{8941}', [0xEE, 0x75]), ('\u{8942}', [0xEE, 0x78]), ";
"    ('\u{8943}', [0x9C, 0xC2]), ('\u{8944}', [0xC1, 0xB8]), ('\u{8946}', [0xF0, 0xD6]), ";
"    ('\u{8947}', [0x99, 0xD3]), ('\u{8949}', [0xF0, 0xD9]), ('\u{894B}', [0xF0, 0xD3]), ";
"    ('\u{894C}', [0xF0, 0xD5]), ('\u{894D}', [0x95, 0xA7]), ('\u{894F}', [0xF0, 0xD4]), ";
"    ('\u{8950}', [0xF0, 0xD7]), ('\u{8951}', [0xF0, 0xD8]), ('\u{8952}', [0xEE, 0x76]), ";
"    ('\u{8953}', [0xF0, 0xD2]), ('\u{8954}', [0x95, 0xA9]), ('\u{8956}', [0xC3, 0xCD]), ";
"    ('\u{8957}', [0xF2, 0xEC]), ('\u{8958}', [0xF2, 0xEF]), ('\u{8959}', [0xF2, 0xF1]), ";
"    ('\u{895A}', [0xF2, 0xEA]), ('\u{895B}', [0xF2, 0xEB]), ('\u{895C}', [0xF2, 0xEE]), ";
"    ('\u{895D}', [0xF2, 0xF0]), ('\u{895E}', [0xC3, 0xCE]), ('\u{895F}', [0xC3, 0xCC]), ";
"    ('\u{8960}', [0xC3, 0xCB]), ('\u{8961}', [0xF2, 0xED]), ('\u{8962}', [0xF2, 0xE9]), ";
"    ('\u{8963}', [0xF4, 0xCA]), ('\u{8964}', [0xC4, 0xB0]), ('\u{8965}', [0x95, 0xA6]), ";
"    ('\u{8966}', [0xF4, 0xCB]), ('\u{8969}', [0xF6, 0x49]), ('\u{896A}', [0xC4, 0xFB]), ";
"    ('\u{896B}', [0xF6, 0x4B]), ('\u{896C}', [0xC4, 0xFC]), ('\u{896D}', [0xF6, 0x48]), ";
"    ('\u{896E}', [0xF6, 0x4A]), ('\u{896F}', [0xC5, 0xA8]), ('\u{8971}', [0xF7, 0x52]), ";
"    ('\u{8972}', [0xC5, 0xA7]), ('\u{8973}', [0xF7, 0xFD]), ('\u{8974}', [0xF7, 0xFC]), ";
"    ('\u{8976}', [0xF7, 0xFB]), ('\u{8977}', [0x9C, 0x5D]), ('\u{8979}', [0xF9, 0x48]), ";
"    ('\u{897A}', [0xF9, 0x49]), ('\u{897B}', [0xF9, 0x4B]), ('\u{897C}', [0xF9, 0x4A]), ";
"    ('\u{897E}', [0xCA, 0x50]), ('\u{897F}', [0xA6, 0xE8]), ('\u{8980}', [0x98, 0xE2]), ";
"    ('\u{8981}', [0xAD, 0x6E]), ('\u{8982}', [0xD7, 0xC5]), ('\u{8983}', [0xB5, 0xF7]), ";
"    ('\u{8985}', [0xDF, 0xFA]), ('\u{8986}', [0xC2, 0xD0]), ('\u{8987}', [0x8F, 0xC9]), ";
"    ('\u{8988}', [0xF2, 0xF2]), ('\u{8989}', [0xA0, 0xC2]), ('\u{898A}', [0x8F, 0xCA]), ";
"    ('\u{898B}', [0xA8, 0xA3]), ('\u{898F}', [0xB3, 0x57]), ('\u{8991}', [0x99, 0xD4]), ";
"    ('\u{8993}', [0xB3, 0x56]), ('\u{8994}', [0xA0, 0xB9]), ('\u{8995}', [0xDB, 0xD0]), ";
"    ('\u{8996}', [0xB5, 0xF8]), ('\u{8997}', [0xDB, 0xD2]), ('\u{8998}', [0xDB, 0xD1]), ";
"    ('\u{899B}', [0xDF, 0xFB]), ('\u{899C}', [0xB8, 0xD0]), ('\u{899D}', [0xE4, 0x43]), ";
"    ('\u{899E}', [0xE4, 0x46]), ('\u{899F}', [0xE4, 0x45]), ('\u{89A1}', [0xE4, 0x44]), ";
"    ('\u{89A2}', [0xE7, 0xCE]), ('\u{89A3}', [0xE7, 0xD0]), ('\u{89A4}', [0xE7, 0xCF]), ";
"    ('\u{89A5}', [0x9B, 0x58]), ('\u{89A6}', [0x8F, 0xCB]), ('\u{89A7}', [0x8F, 0xCD]), ";
"    ('\u{89A9}', [0x8F, 0xCC]), ('\u{89AA}', [0xBF, 0xCB]), ('\u{89AC}', [0xC1, 0xBB]), ";
"    ('\u{89AD}', [0xEE, 0x79]), ('\u{89AE}', [0xEE, 0x7B]), ('\u{89AF}', [0xEE, 0x7A]), ";
"    ('\u{89B2}', [0xC2, 0xD1]), ('\u{89B6}', [0xF2, 0xF4]), ('\u{89B7}', [0xF2, 0xF3]), ";
"    ('\u{89B9}', [0xF4, 0xCC]), ('\u{89BA}', [0xC4, 0xB1]), ('\u{89BC}', [0x8F, 0xCE]), ";
"    ('\u{89BD}', [0xC4, 0xFD]), ('\u{89BE}', [0xF7, 0x54]), ('\u{89BF}', [0xF7, 0x53]), ";
"    ('\u{89C0}', [0xC6, 0x5B]), ('\u{89C1}', [0x8B, 0xE5]), ('\u{89C6}', [0x89, 0x79]), ";
"    ('\u{89D2}', [0xA8, 0xA4]), ('\u{89D3}', [0xD0, 0xAF]), ('\u{89D4}', [0xAD, 0x6F]), ";
"    ('\u{89D5}', [0xD7, 0xC8]), ('\u{89D6}', [0xD7, 0xC6]), ('\u{89D9}', [0xD7, 0xC7]), ";
"    ('\u{89DA}', [0xDB, 0xD4]), ('\u{89DB}', [0xDB, 0xD5]), ('\u{89DC}', [0xE0, 0x43]), ";
"    ('\u{89DD}', [0xDB, 0xD3]), ('\u{89DF}', [0xDF, 0xFC]), ('\u{89E0}', [0xE0, 0x41]), ";
"    ('\u{89E1}', [0xE0, 0x40]), ('\u{89E2}', [0xE0, 0x42]), ('\u{89E3}', [0xB8, 0xD1]), ";
"    ('\u{89E4}', [0xDF, 0xFE]), ('\u{89E5}', [0xDF, 0xFD]), ('\u{89E6}', [0xE0, 0x44]), ";
"    ('\u{89E7}', [0x8F, 0xD0]), ('\u{89E8}', [0xE4, 0x49]), ('\u{89E9}', [0xE4, 0x47]), ";
"    ('\u{89EB}', [0xE4, 0x48]), ('\u{89EC}', [0xE7, 0xD3]), ('\u{89ED}', [0xE7, 0xD1]), ";
"    ('\u{89F0}', [0xE7, 0xD2]), ('\u{89F1}', [0xEB, 0x7D]), ('\u{89F2}', [0xEE, 0x7C]), ";
"    ('\u{89F3}', [0xEE, 0x7D]), ('\u{89F4}', [0xC2, 0xD2]), ('\u{89F6}', [0xF2, 0xF5]), ";
"    ('\u{89F7}', [0xF4, 0xCD]), ('\u{89F8}', [0xC4, 0xB2]), ('\u{89FA}', [0xF6, 0x4C]), ";
"    ('\u{89FB}', [0xF7, 0x55]), ('\u{89FC}', [0xC5, 0xA9]), ('\u{89FE}', [0xF7, 0xFE]), ";
"    ('\u{89FF}', [0xF9, 0x4C]), ('\u{8A00}', [0xA8, 0xA5]), ('\u{8A02}', [0xAD, 0x71]), ";
"    ('\u{8A03}', [0xAD, 0x72]), ('\u{8A04}', [0xD0, 0xB0]), ('\u{8A07}', [0xD0, 0xB1]), ";
"    ('\u{8A08}', [0xAD, 0x70]), ('\u{8A0A}', [0xB0, 0x54]), ('\u{8A0C}', [0xB0, 0x52]), ";
"    ('\u{8A0E}', [0xB0, 0x51]), ('\u{8A0F}', [0xB0, 0x58]), ('\u{8A10}', [0xB0, 0x50]), ";
"    ('\u{8A11}', [0xB0, 0x59]), ('\u{8A12}', [0xD3, 0xDD]), ('\u{8A13}', [0xB0, 0x56]), ";
"    ('\u{8A15}', [0xB0, 0x53]), ('\u{8A16}', [0xB0, 0x57]), ('\u{8A17}', [0xB0, 0x55]), ";
"    ('\u{8A18}', [0xB0, 0x4F]), ('\u{8A1B}', [0xB3, 0x5F]), ('\u{8A1C}', [0x95, 0xB6]), ";
"    ('\u{8A1D}', [0xB3, 0x59]), ('\u{8A1E}', [0xD7, 0xCC]), ('\u{8A1F}', [0xB3, 0x5E]), ";
"    ('\u{8A22}', [0xB3, 0x60]), ('\u{8A23}', [0xB3, 0x5A]), ('\u{8A25}', [0xB3, 0x5B]), ";
"    ('\u{8A27}', [0xD7, 0xCA]), ('\u{8A29}', [0x99, 0xD6]), ('\u{8A2A}', [0xB3, 0x58]), ";
"    ('\u{8A2B}', [0x95, 0xE5]), ('\u{8A2C}', [0xD7, 0xCB]), ('\u{8A2D}', [0xB3, 0x5D]), ";
"    ('\u{8A30}', [0xD7, 0xC9]), ('\u{8A31}', [0xB3, 0x5C]), ('\u{8A34}', [0xB6, 0x44]), ";
"    ('\u{8A36}', [0xB6, 0x46]), ('\u{8A38}', [0x99, 0xD7]), ('\u{8A39}', [0xDB, 0xD8]), ";
"    ('\u{8A3A}', [0xB6, 0x45]), ('\u{8A3B}', [0xB5, 0xF9]), ('\u{8A3C}', [0xB5, 0xFD]), ";
"    ('\u{8A3D}', [0x95, 0xB5]), ('\u{8A3E}', [0xB8, 0xE4]), ('\u{8A3F}', [0xE0, 0x49]), ";
"    ('\u{8A40}', [0xDB, 0xDA]), ('\u{8A41}', [0xB5, 0xFE]), ('\u{8A44}', [0xDB, 0xDD]), ";
"    ('\u{8A45}', [0xDB, 0xDE]), ('\u{8A46}', [0xB6, 0x43]), ('\u{8A48}', [0xDB, 0xE0]), ";
"    ('\u{8A49}', [0xA0, 0xCA]), ('\u{8A4A}', [0xDB, 0xE2]), ('\u{8A4C}', [0xDB, 0xE3]), ";
"    ('\u{8A4D}', [0xDB, 0xD7]), ('\u{8A4E}', [0xDB, 0xD6]), ('\u{8A4F}', [0xDB, 0xE4]), ";
"    ('\u{8A50}', [0xB6, 0x42]), ('\u{8A51}', [0xDB, 0xE1]), ('\u{8A52}', [0xDB, 0xDF]), ";
"    ('\u{8A54}', [0xB6, 0x40]), ('\u{8A55}', [0xB5, 0xFB]), ('\u{8A56}', [0xB6, 0x47]), ";
"    ('\u{8A57}', [0xDB, 0xDB]), ('\u{8A58}', [0xDB, 0xDC]), ('\u{8A59}', [0xDB, 0xD9]), ";
"    ('\u{8A5B}', [0xB6, 0x41]), ('\u{8A5E}', [0xB5, 0xFC]), ('\u{8A60}', [0xB5, 0xFA]), ";
"    ('\u{8A61}', [0xE0, 0x48]), ('\u{8A62}', [0xB8, 0xDF]), ('\u{8A63}', [0xB8, 0xDA]), ";
"    ('\u{8A66}', [0xB8, 0xD5]), ('\u{8A67}', [0x9F, 0xFD]), ('\u{8A68}', [0xB8, 0xE5]), ";
"    ('\u{8A69}', [0xB8, 0xD6]), ('\u{8A6B}', [0xB8, 0xD2]), ('\u{8A6C}', [0xB8, 0xE1]), ";
"    ('\u{8A6D}', [0xB8, 0xDE]), ('\u{8A6E}', [0xB8, 0xE0]), ('\u{8A70}', [0xB8, 0xD7]), ";
"    ('\u{8A71}', [0xB8, 0xDC]), ('\u{8A72}', [0xB8, 0xD3]), ('\u{8A73}', [0xB8, 0xD4]), ";
"    ('\u{8A74}', [0xE0, 0x50]), ('\u{8A75}', [0xE0, 0x4D]), ('\u{8A76}', [0xE0, 0x45]), ";
"    ('\u{8A77}', [0xE0, 0x4A]), ('\u{8A79}', [0xB8, 0xE2]), ('\u{8A7A}', [0xE0, 0x51]), ";
"    ('\u{8A7B}', [0xB8, 0xE3]), ('\u{8A7C}', [0xB8, 0xD9]), ('\u{8A7E}', [0xA0, 0x58]), ";
"    ('\u{8A7F}', [0xE0, 0x47]), ('\u{8A81}', [0xE0, 0x4F]), ('\u{8A82}', [0xE0, 0x4B]), ";
"    ('\u{8A83}', [0xE0, 0x4E]), ('\u{8A84}', [0xE0, 0x4C]), ('\u{8A85}', [0xB8, 0xDD]), ";
"    ('\u{8A86}', [0xE0, 0x46]), ('\u{8A87}', [0xB8, 0xD8]), ('\u{8A8B}', [0xE4, 0x4C]), ";
"    ('\u{8A8C}', [0xBB, 0x78]), ('\u{8A8D}', [0xBB, 0x7B]), ('\u{8A8F}', [0xE4, 0x4E]), ";
"    ('\u{8A90}', [0x8F, 0xD6]), ('\u{8A91}', [0xBB, 0xA5]), ('\u{8A92}', [0xE4, 0x4D]), ";
"    ('\u{8A93}', [0xBB, 0x7D]), ('\u{8A94}', [0x99, 0xD8]), ('\u{8A95}', [0xBD, 0xCF]), ";
"    ('\u{8A96}', [0xE4, 0x4F]), ('\u{8A98}', [0xBB, 0xA4]), ('\u{8A99}', [0xE4, 0x4B]), ";
"    ('\u{8A9A}', [0xBB, 0xA6]), ('\u{8A9C}', [0x8F, 0xD3]), ('\u{8A9E}', [0xBB, 0x79]), ";
"    ('\u{8AA0}', [0xB8, 0xDB]), ('\u{8AA1}', [0xBB, 0x7C]), ('\u{8AA3}', [0xBB, 0x7A]), ";
"    ('\u{8AA4}', [0xBB, 0x7E]), ('\u{8AA5}', [0xBB, 0xA2]), ('\u{8AA6}', [0xBB, 0x77]), ";
"    ('\u{8AA7}', [0xBB, 0xA7]), ('\u{8AA8}', [0xBB, 0xA3]), ('\u{8AA9}', [0x8F, 0xE5]), ";
"    ('\u{8AAA}', [0xBB, 0xA1]), ('\u{8AAB}', [0xE4, 0x4A]), ('\u{8AAF}', [0x8F, 0xE9]), ";
"    ('\u{8AB0}', [0xBD, 0xD6]), ('\u{8AB2}', [0xBD, 0xD2]), ('\u{8AB4}', [0x99, 0xD9]), ";
"    ('\u{8AB6}', [0xBD, 0xD9]), ('\u{8AB8}', [0xE7, 0xD6]), ('\u{8AB9}', [0xBD, 0xDA]), ";
"    ('\u{8ABA}', [0xE7, 0xE2]), ('\u{8ABB}', [0xE7, 0xDB]), ('\u{8ABC}', [0xBD, 0xCB]), ";
"    ('\u{8ABD}', [0xE7, 0xE3]), ('\u{8ABE}', [0xE7, 0xDD]), ('\u{8ABF}', [0xBD, 0xD5]), ";
"    ('\u{8AC0}', [0xE7, 0xDE]), ('\u{8AC2}', [0xBD, 0xD4]), ('\u{8AC3}', [0xE7, 0xE1]), ";
"    ('\u{8AC4}', [0xBD, 0xCE]), ('\u{8AC5}', [0xE7, 0xDF]), ('\u{8AC6}', [0xE7, 0xD5]), ";
"    ('\u{8AC7}', [0xBD, 0xCD]), ('\u{8AC8}', [0xEB, 0xAA]), ('\u{8AC9}', [0xBD, 0xD3]), ";
"    ('\u{8ACB}', [0xBD, 0xD0]), ('\u{8ACC}', [0x8C, 0xF7]), ('\u{8ACD}', [0xBD, 0xD8]), ";
"    ('\u{8ACF}', [0xE7, 0xD4]), ('\u{8AD1}', [0xE7, 0xD8]), ('\u{8AD2}', [0xBD, 0xCC]), ";
"    ('\u{8AD3}', [0xE7, 0xD7]), ('\u{8AD4}', [0xE7, 0xD9]), ('\u{8AD5}', [0xE7, 0xDA]), ";
"    ('\u{8AD6}', [0xBD, 0xD7]), ('\u{8AD7}', [0xE7, 0xDC]), ('\u{8AD8}', [0xE7, 0xE0]), ";
"    ('\u{8AD9}', [0xE7, 0xE4]), ('\u{8ADA}', [0x92, 0x7C]), ('\u{8ADB}', [0xBD, 0xDB]), ";
"    ('\u{8ADC}', [0xBF, 0xD2]), ('\u{8ADD}', [0xEB, 0xA5]), ('\u{8ADE}', [0xEB, 0xAB]), ";
"    ('\u{8ADF}', [0xEB, 0xA8]), ('\u{8AE0}', [0xEB, 0x7E]), ('\u{8AE1}', [0xEB, 0xAC]), ";
"    ('\u{8AE2}', [0xEB, 0xA1]), ('\u{8AE4}', [0xEB, 0xA7]), ('\u{8AE6}', [0xBF, 0xCD]), ";
"    ('\u{8AE7}', [0xBF, 0xD3]), ('\u{8AE8}', [0xEB, 0xAD]), ('\u{8AEA}', [0x9C, 0x45]), ";
"    ('\u{8AEB}', [0xBF, 0xCF]), ('\u{8AED}', [0xBF, 0xD9]), ('\u{8AEE}', [0xBF, 0xD4]), ";
"    ('\u{8AEF}', [0xEB, 0xAF]), ('\u{8AF0}', [0xEB, 0xA9]), ('\u{8AF1}', [0xBF, 0xD0]), ";
"    ('\u{8AF2}', [0xEB, 0xA2]), ('\u{8AF3}', [0xBF, 0xDA]), ('\u{8AF4}', [0xEB, 0xA3]), ";
"    ('\u{8AF5}', [0xEB, 0xA4]), ('\u{8AF6}', [0xBF, 0xDB]), ('\u{8AF7}', [0xBF, 0xD8]), ";
"    ('\u{8AF8}', [0xBD, 0xD1]), ('\u{8AF9}', [0x8C, 0xE8]), ('\u{8AFA}', [0xBF, 0xCE]), ";
"    ('\u{8AFB}', [0xEB, 0xB0]), ('\u{8AFC}', [0xBF, 0xDC]), ('\u{8AFE}', [0xBF, 0xD5]), ";
"    ('\u{8AFF}', [0xEB, 0xAE]), ('\u{8B00}', [0xBF, 0xD1]), ('\u{8B01}', [0xBF, 0xD6]), ";
"    ('\u{8B02}', [0xBF, 0xD7]), ('\u{8B04}', [0xC1, 0xC3]), ('\u{8B05}', [0xEE, 0xA4]), ";
"    ('\u{8B06}', [0xEE, 0xAD]), ('\u{8B07}', [0xEE, 0xAA]), ('\u{8B08}', [0xEE, 0xAC]), ";
"    ('\u{8B0A}', [0xC1, 0xC0]), ('\u{8B0B}', [0xEE, 0xA5]), ('\u{8B0C}', [0x8F, 0xDE]), ";
"    ('\u{8B0D}', [0xEE, 0xAB]), ('\u{8B0E}', [0xC1, 0xBC]), ('\u{8B0F}', [0xEE, 0xA7]), ";
"    ('\u{8B10}', [0xC1, 0xC4]), ('\u{8B11}', [0xEE, 0xA3]), ('\u{8B12}', [0xEE, 0xA8]), ";
"    ('\u{8B13}', [0xEE, 0xAF]), ('\u{8B14}', [0xEB, 0xA6]), ('\u{8B15}', [0xEE, 0xA9]), ";
"    ('\u{8B16}', [0xEE, 0xA2]), ('\u{8B17}', [0xC1, 0xBD]), ('\u{8B18}', [0xEE, 0xA1]), ";
"    ('\u{8B19}', [0xC1, 0xBE]), ('\u{8B1A}', [0xEE, 0xB0]), ('\u{8B1B}', [0xC1, 0xBF]), ";
"    ('\u{8B1C}', [0xEE, 0xAE]), ('\u{8B1D}', [0xC1, 0xC2]), ('\u{8B1E}', [0xEE, 0x7E]), ";
"    ('\u{8B1F}', [0x8F, 0xDF]), ('\u{8B20}', [0xC1, 0xC1]), ('\u{8B22}', [0xEE, 0xA6]), ";
"    ('\u{8B23}', [0xF0, 0xDC]), ('\u{8B24}', [0xF0, 0xEA]), ('\u{8B25}', [0xF0, 0xE5]), ";
"    ('\u{8B26}', [0xF0, 0xE7]), ('\u{8B27}', [0xF0, 0xDB]), ('\u{8B28}', [0xC2, 0xD3]), ";
"    ('\u{8B2A}', [0xF0, 0xDA]), ('\u{8B2B}', [0xC2, 0xD6]), ('\u{8B2C}', [0xC2, 0xD5]), ";
"    ('\u{8B2D}', [0xA0, 0x4B]), ('\u{8B2E}', [0xF0, 0xE9]), ('\u{8B2F}', [0xF0, 0xE1]), ";
"    ('\u{8B30}', [0xF0, 0xDE]), ('\u{8B31}', [0xF0, 0xE4]), ('\u{8B33}', [0xF0, 0xDD]), ";
"    ('\u{8B35}', [0xF0, 0xDF]), ('\u{8B36}', [0xF0, 0xE8]), ('\u{8B37}', [0xF0, 0xE6]), ";
"    ('\u{8B39}', [0xC2, 0xD4]), ('\u{8B3A}', [0xF0, 0xED]), ('\u{8B3B}', [0xF0, 0xEB]), ";
"    ('\u{8B3C}', [0xF0, 0xE2]), ('\u{8B3D}', [0xF0, 0xEC]), ('\u{8B3E}', [0xF0, 0xE3]), ";
"    ('\u{8B3F}', [0x8F, 0xE2]), ('\u{8B40}', [0xF2, 0xF9]), ('\u{8B41}', [0xC3, 0xCF]), ";
"    ('\u{8B42}', [0xF3, 0x41]), ('\u{8B43}', [0xA0, 0xCC]), ('\u{8B45}', [0xF6, 0x4F]), ";
"    ('\u{8B46}', [0xC3, 0xD6]), ('\u{8B47}', [0xF0, 0xE0]), ('\u{8B48}', [0xF2, 0xF7]), ";
"    ('\u{8B49}', [0xC3, 0xD2]), ('\u{8B4A}', [0xF2, 0xF8]), ('\u{8B4B}', [0xF2, 0xFD]), ";
"    ('\u{8B4C}', [0x8F, 0xE3]), ('\u{8B4D}', [0x8F, 0xE4]), ('\u{8B4E}', [0xC3, 0xD4]), ";
"    ('\u{8B4F}', [0xC3, 0xD5]), ('\u{8B50}', [0xF2, 0xF6]), ('\u{8B51}', [0xF3, 0x40]), ";
"    ('\u{8B52}', [0xF3, 0x42]), ('\u{8B53}', [0xF2, 0xFA]), ('\u{8B54}', [0xF2, 0xFC]), ";
"    ('\u{8B55}', [0xF2, 0xFE]), ('\u{8B56}', [0xF2, 0xFB]), ('\u{8B57}', [0xF3, 0x43]), ";
"    ('\u{8B58}', [0xC3, 0xD1]), ('\u{8B59}', [0xC3, 0xD7]), ('\u{8B5A}', [0xC3, 0xD3]), ";
"    ('\u{8B5C}', [0xC3, 0xD0]), ('\u{8B5D}', [0xF4, 0xD0]), ('\u{8B5E}', [0x9B, 0xC4]), ";
"    ('\u{8B5F}', [0xC4, 0xB7]), ('\u{8B60}', [0xF4, 0xCE]), ('\u{8B62}', [0x9B, 0xFC]), ";
"    ('\u{8B63}', [0xF4, 0xD2]), ('\u{8B65}', [0xF4, 0xD3]), ('\u{8B66}', [0xC4, 0xB5]), ";
"    ('\u{8B67}', [0xF4, 0xD4]), ('\u{8B68}', [0xF4, 0xD1]), ('\u{8B69}', [0x96, 0x4C]), ";
"    ('\u{8B6A}', [0xF4, 0xCF]), ('\u{8B6B}', [0xC4, 0xB8]), ('\u{8B6C}', [0xC4, 0xB4]), ";
"    ('\u{8B6D}', [0xF4, 0xD5]), ('\u{8B6F}', [0xC4, 0xB6]), ('\u{8B70}', [0xC4, 0xB3]), ";
"    ('\u{8B74}', [0xC4, 0xFE]), ('\u{8B77}', [0xC5, 0x40]), ('\u{8B78}', [0xF6, 0x4E]), ";
"    ('\u{8B79}', [0xF6, 0x4D]), ('\u{8B7A}', [0xF6, 0x50]), ('\u{8B7B}', [0xF6, 0x51]), ";
"    ('\u{8B7D}', [0xC5, 0x41]), ('\u{8B7E}', [0xF7, 0x56]), ('\u{8B7F}', [0xF7, 0x5B]), ";
"    ('\u{8B80}', [0xC5, 0xAA]), ('\u{8B81}', [0x9A, 0xF6]), ('\u{8B82}', [0xF7, 0x58]), ";
"    ('\u{8B83}', [0x8C, 0xAE]), ('\u{8B84}', [0xF7, 0x57]), ('\u{8B85}', [0xF7, 0x5A]), ";
"    ('\u{8B86}', [0xF7, 0x59]), ('\u{8B88}', [0xF8, 0x43]), ('\u{8B8A}', [0xC5, 0xDC]), ";
"    ('\u{8B8B}', [0xF8, 0x42]), ('\u{8B8C}', [0xF8, 0x40]), ('\u{8B8E}', [0xF8, 0x41]), ";
"    ('\u{8B8F}', [0x87, 0xCB]), ('\u{8B90}', [0x8F, 0xE7]), ('\u{8B92}', [0xC5, 0xFE]), ";
"    ('\u{8B93}', [0xC5, 0xFD]), ('\u{8B94}', [0xF8, 0xC1]), ('\u{8B95}', [0xF8, 0xC2]), ";
"    ('\u{8B96}', [0xC6, 0x40]), ('\u{8B98}', [0xF9, 0x4D]), ('\u{8B99}', [0xF9, 0x4E]), ";
"    ('\u{8B9A}', [0xC6, 0x67]), ('\u{8B9B}', [0x8F, 0xE8]), ('\u{8B9C}', [0xC6, 0x6D]), ";
"    ('\u{8B9E}', [0xF9, 0xA9]), ('\u{8B9F}', [0xF9, 0xC8]), ('\u{8BA0}', [0x8B, 0xE7]), ";
"    ('\u{8BBE}', [0x89, 0x7A]), ('\u{8BE2}', [0x89, 0x7B]), ('\u{8C37}', [0xA8, 0xA6]), ";
"    ('\u{8C39}', [0xD7, 0xCD]), ('\u{8C3B}', [0xD7, 0xCE]), ('\u{8C3C}', [0xE0, 0x52]), ";
"    ('\u{8C3D}', [0xE4, 0x50]), ('\u{8C3E}', [0xE7, 0xE5]), ('\u{8C3F}', [0xC1, 0xC6]), ";
"    ('\u{8C41}', [0xC1, 0xC5]), ('\u{8C42}', [0xF0, 0xEE]), ('\u{8C43}', [0xF3, 0x44]), ";
"    ('\u{8C45}', [0xF8, 0x44]), ('\u{8C46}', [0xA8, 0xA7]), ('\u{8C47}', [0xD3, 0xDE]), ";
"    ('\u{8C48}', [0xB0, 0x5A]), ('\u{8C49}', [0xB3, 0x61]), ('\u{8C4A}', [0xE0, 0x54]), ";
"    ('\u{8C4B}', [0xE0, 0x53]), ('\u{8C4C}', [0xBD, 0xDC]), ('\u{8C4D}', [0xE7, 0xE6]), ";
"    ('\u{8C4E}', [0xBD, 0xDD]), ('\u{8C4F}', [0xEE, 0xB1]), ('\u{8C50}', [0xC2, 0xD7]), ";
"    ('\u{8C51}', [0x99, 0xDA]), ('\u{8C54}', [0xC6, 0x76]), ('\u{8C55}', [0xA8, 0xA8]), ";
"    ('\u{8C56}', [0xCD, 0xCB]), ('\u{8C57}', [0xD3, 0xDF]), ('\u{8C5A}', [0xB3, 0x62]), ";
"    ('\u{8C5C}', [0xD7, 0xCF]), ('\u{8C5D}', [0xD7, 0xD0]), ('\u{8C5F}', [0xDB, 0xE5]), ";
"    ('\u{8C61}', [0xB6, 0x48]), ('\u{8C62}', [0xB8, 0xE6]), ('\u{8C64}', [0xE0, 0x56]), ";
"    ('\u{8C65}', [0xE0, 0x55]), ('\u{8C66}', [0xE0, 0x57]), ('\u{8C68}', [0xE4, 0x51]), ";
"    ('\u{8C69}', [0xE4, 0x52]), ('\u{8C6A}', [0xBB, 0xA8]), ('\u{8C6B}', [0xBF, 0xDD]), ";
"    ('\u{8C6C}', [0xBD, 0xDE]), ('\u{8C6D}', [0xBF, 0xDE]), ('\u{8C6F}', [0xEE, 0xB5]), ";
"    ('\u{8C70}', [0xEE, 0xB2]), ('\u{8C71}', [0xEE, 0xB4]), ('\u{8C72}', [0xEE, 0xB3]), ";
"    ('\u{8C73}', [0xC1, 0xC7]), ('\u{8C75}', [0xF0, 0xEF]), ('\u{8C76}', [0xF3, 0x46]), ";
"    ('\u{8C77}', [0xF3, 0x45]), ('\u{8C78}', [0xCB, 0xA4]), ('\u{8C79}', [0xB0, 0x5C]), "
].
(* /repo/src/generated/whatwg/big5_whatwg_tables.rs.inc:6913-7168 *)
Definition big5_inc_27 : list line := [
"    ('\u{8C7A}', [0xB0, 0x5B]), ('\u{8C7B}', [0xD3, 0xE0]), ('\u{8C7D}', [0xD7, 0xD1]), ";
"    ('\u{8C80}', [0xDB, 0xE7]), ('\u{8C81}', [0xDB, 0xE6]), ('\u{8C82}', [0xB6, 0x49]), ";
"    ('\u{8C84}', [0xE0, 0x59]), ('\u{8C85}', [0xE0, 0x5A]), ('\u{8C86}', [0xE0, 0x58]), ";
"    ('\u{8C89}', [0xB8, 0xE8]), ('\u{8C8A}', [0xB8, 0xE7]), ('\u{8C8C}', [0xBB, 0xAA]), ";
"    ('\u{8C8D}', [0xBB, 0xA9]), ('\u{8C8F}', [0xE7, 0xE7]), ('\u{8C90}', [0xEB, 0xB3]), ";
"    ('\u{8C91}', [0xEB, 0xB1]), ('\u{8C92}', [0xEB, 0xB2]), ('\u{8C93}', [0xBF, 0xDF]), ";
"    ('\u{8C94}', [0xEE, 0xB7]), ('\u{8C95}', [0xEE, 0xB6]), ('\u{8C97}', [0xF0, 0xF2]), ";
"    ('\u{8C98}', [0xF0, 0xF1]), ('\u{8C99}', [0xF0, 0xF0]), ('\u{8C9A}', [0xF3, 0x47]), ";
"    ('\u{8C9B}', [0x8F, 0xED]), ('\u{8C9C}', [0xF9, 0xAA]), ('\u{8C9D}', [0xA8, 0xA9]), ";
"    ('\u{8C9E}', [0xAD, 0x73]), ('\u{8C9F}', [0x95, 0xC0]), ('\u{8CA0}', [0xAD, 0x74]), ";
"    ('\u{8CA1}', [0xB0, 0x5D]), ('\u{8CA2}', [0xB0, 0x5E]), ('\u{8CA3}', [0xD3, 0xE2]), ";
"    ('\u{8CA4}', [0xD3, 0xE1]), ('\u{8CA5}', [0xD7, 0xD2]), ('\u{8CA7}', [0xB3, 0x68]), ";
"    ('\u{8CA8}', [0xB3, 0x66]), ('\u{8CA9}', [0xB3, 0x63]), ('\u{8CAA}', [0xB3, 0x67]), ";
"    ('\u{8CAB}', [0xB3, 0x65]), ('\u{8CAC}', [0xB3, 0x64]), ('\u{8CAD}', [0xA0, 0xCB]), ";
"    ('\u{8CAF}', [0xB6, 0x4A]), ('\u{8CB0}', [0xDB, 0xEA]), ('\u{8CB2}', [0xB8, 0xED]), ";
"    ('\u{8CB3}', [0xB6, 0x4C]), ('\u{8CB4}', [0xB6, 0x51]), ('\u{8CB5}', [0xDB, 0xEC]), ";
"    ('\u{8CB6}', [0xB6, 0x53]), ('\u{8CB7}', [0xB6, 0x52]), ('\u{8CB8}', [0xB6, 0x55]), ";
"    ('\u{8CB9}', [0xDB, 0xEB]), ('\u{8CBA}', [0xDB, 0xE8]), ('\u{8CBB}', [0xB6, 0x4F]), ";
"    ('\u{8CBC}', [0xB6, 0x4B]), ('\u{8CBD}', [0xB6, 0x4D]), ('\u{8CBE}', [0xDB, 0xE9]), ";
"    ('\u{8CBF}', [0xB6, 0x54]), ('\u{8CC0}', [0xB6, 0x50]), ('\u{8CC1}', [0xB6, 0x4E]), ";
"    ('\u{8CC2}', [0xB8, 0xEF]), ('\u{8CC3}', [0xB8, 0xEE]), ('\u{8CC4}', [0xB8, 0xEC]), ";
"    ('\u{8CC5}', [0xB8, 0xF0]), ('\u{8CC7}', [0xB8, 0xEA]), ('\u{8CC8}', [0xB8, 0xEB]), ";
"    ('\u{8CCA}', [0xB8, 0xE9]), ('\u{8CCC}', [0xE0, 0x5B]), ('\u{8CCD}', [0x9E, 0x48]), ";
"    ('\u{8CCF}', [0xE4, 0x54]), ('\u{8CD1}', [0xBB, 0xAC]), ('\u{8CD2}', [0xBB, 0xAD]), ";
"    ('\u{8CD3}', [0xBB, 0xAB]), ('\u{8CD4}', [0x99, 0xDB]), ('\u{8CD5}', [0xE4, 0x53]), ";
"    ('\u{8CD6}', [0x8F, 0xF3]), ('\u{8CD7}', [0xE4, 0x55]), ('\u{8CD9}', [0xE7, 0xEA]), ";
"    ('\u{8CDA}', [0xE7, 0xEC]), ('\u{8CDB}', [0x8F, 0xF9]), ('\u{8CDC}', [0xBD, 0xE7]), ";
"    ('\u{8CDD}', [0xE7, 0xED]), ('\u{8CDE}', [0xBD, 0xE0]), ('\u{8CDF}', [0xE7, 0xE9]), ";
"    ('\u{8CE0}', [0xBD, 0xDF]), ('\u{8CE1}', [0xBD, 0xE9]), ('\u{8CE2}', [0xBD, 0xE5]), ";
"    ('\u{8CE3}', [0xBD, 0xE6]), ('\u{8CE4}', [0xBD, 0xE2]), ('\u{8CE5}', [0xE7, 0xE8]), ";
"    ('\u{8CE6}', [0xBD, 0xE1]), ('\u{8CE7}', [0xE7, 0xEE]), ('\u{8CE8}', [0xE7, 0xEB]), ";
"    ('\u{8CE9}', [0x95, 0xC1]), ('\u{8CEA}', [0xBD, 0xE8]), ('\u{8CEB}', [0xA0, 0x4E]), ";
"    ('\u{8CEC}', [0xBD, 0xE3]), ('\u{8CED}', [0xBD, 0xE4]), ('\u{8CEE}', [0xEB, 0xB5]), ";
"    ('\u{8CF0}', [0xEB, 0xB7]), ('\u{8CF1}', [0xEB, 0xB6]), ('\u{8CF2}', [0x99, 0xDC]), ";
"    ('\u{8CF3}', [0xEB, 0xB8]), ('\u{8CF4}', [0xBF, 0xE0]), ('\u{8CF5}', [0xEB, 0xB4]), ";
"    ('\u{8CF7}', [0xA0, 0x64]), ('\u{8CF8}', [0xC1, 0xCB]), ('\u{8CF9}', [0xEE, 0xB8]), ";
"    ('\u{8CFA}', [0xC1, 0xC8]), ('\u{8CFB}', [0xC1, 0xCC]), ('\u{8CFC}', [0xC1, 0xCA]), ";
"    ('\u{8CFD}', [0xC1, 0xC9]), ('\u{8CFE}', [0xF0, 0xF3]), ('\u{8D00}', [0xF0, 0xF6]), ";
"    ('\u{8D02}', [0xF0, 0xF5]), ('\u{8D03}', [0x8F, 0xF7]), ('\u{8D04}', [0xF0, 0xF4]), ";
"    ('\u{8D05}', [0xC2, 0xD8]), ('\u{8D06}', [0xF3, 0x48]), ('\u{8D07}', [0xF3, 0x49]), ";
"    ('\u{8D08}', [0xC3, 0xD8]), ('\u{8D09}', [0xF3, 0x4A]), ('\u{8D0A}', [0xC3, 0xD9]), ";
"    ('\u{8D0B}', [0x89, 0xB0]), ('\u{8D0C}', [0xA0, 0x48]), ('\u{8D0D}', [0xC4, 0xBA]), ";
"    ('\u{8D0F}', [0xC4, 0xB9]), ('\u{8D10}', [0xF6, 0x52]), ('\u{8D11}', [0x8F, 0xFB]), ";
"    ('\u{8D12}', [0x8F, 0xF6]), ('\u{8D13}', [0xC5, 0x42]), ('\u{8D14}', [0xF6, 0x53]), ";
"    ('\u{8D15}', [0xF7, 0x5C]), ('\u{8D16}', [0xC5, 0xAB]), ('\u{8D17}', [0xC5, 0xAC]), ";
"    ('\u{8D18}', [0x9D, 0xDC]), ('\u{8D19}', [0xF8, 0x45]), ('\u{8D1B}', [0xC6, 0x42]), ";
"    ('\u{8D1C}', [0x99, 0xDD]), ('\u{8D1D}', [0x8B, 0xE8]), ('\u{8D64}', [0xA8, 0xAA]), ";
"    ('\u{8D66}', [0xB3, 0x6A]), ('\u{8D67}', [0xB3, 0x69]), ('\u{8D68}', [0xE0, 0x5C]), ";
"    ('\u{8D69}', [0xE0, 0x5D]), ('\u{8D6B}', [0xBB, 0xAE]), ('\u{8D6C}', [0xEB, 0xB9]), ";
"    ('\u{8D6D}', [0xBD, 0xEA]), ('\u{8D6E}', [0xEB, 0xBA]), ('\u{8D6F}', [0xEE, 0xB9]), ";
"    ('\u{8D70}', [0xA8, 0xAB]), ('\u{8D72}', [0xD0, 0xB2]), ('\u{8D73}', [0xAD, 0x76]), ";
"    ('\u{8D74}', [0xAD, 0x75]), ('\u{8D76}', [0xD3, 0xE3]), ('\u{8D77}', [0x8F, 0xFE]), ";
"    ('\u{8D78}', [0xD3, 0xE4]), ('\u{8D79}', [0xD7, 0xD5]), ('\u{8D7A}', [0x92, 0xC1]), ";
"    ('\u{8D7B}', [0xD7, 0xD4]), ('\u{8D7D}', [0xD7, 0xD3]), ('\u{8D80}', [0xDB, 0xEE]), ";
"    ('\u{8D81}', [0xB6, 0x58]), ('\u{8D82}', [0x9F, 0xD6]), ('\u{8D84}', [0xDB, 0xED]), ";
"    ('\u{8D85}', [0xB6, 0x57]), ('\u{8D89}', [0xDB, 0xEF]), ('\u{8D8A}', [0xB6, 0x56]), ";
"    ('\u{8D8C}', [0xE0, 0x5F]), ('\u{8D8D}', [0xE0, 0x62]), ('\u{8D8E}', [0xE0, 0x60]), ";
"    ('\u{8D8F}', [0xE0, 0x61]), ('\u{8D90}', [0xE0, 0x65]), ('\u{8D91}', [0xE0, 0x5E]), ";
"    ('\u{8D92}', [0xE0, 0x66]), ('\u{8D93}', [0xE0, 0x63]), ('\u{8D94}', [0xE0, 0x64]), ";
"    ('\u{8D95}', [0xBB, 0xB0]), ('\u{8D96}', [0xE4, 0x56]), ('\u{8D99}', [0xBB, 0xAF]), ";
"    ('\u{8D9B}', [0xE7, 0xF2]), ('\u{8D9C}', [0xE7, 0xF0]), ('\u{8D9F}', [0xBD, 0xEB]), ";
"    ('\u{8DA0}', [0xE7, 0xEF]), ('\u{8DA1}', [0xE7, 0xF1]), ('\u{8DA3}', [0xBD, 0xEC]), ";
"    ('\u{8DA5}', [0xEB, 0xBB]), ('\u{8DA6}', [0xA0, 0xD2]), ('\u{8DA7}', [0xEB, 0xBC]), ";
"    ('\u{8DA8}', [0xC1, 0xCD]), ('\u{8DA9}', [0x90, 0x40]), ('\u{8DAA}', [0xF3, 0x4C]), ";
"    ('\u{8DAB}', [0xF3, 0x4E]), ('\u{8DAC}', [0xF3, 0x4B]), ('\u{8DAD}', [0xF3, 0x4D]), ";
"    ('\u{8DAE}', [0xF4, 0xD6]), ('\u{8DAF}', [0xF6, 0x54]), ('\u{8DB2}', [0xF9, 0x6F]), ";
"    ('\u{8DB3}', [0xA8, 0xAC]), ('\u{8DB4}', [0xAD, 0x77]), ('\u{8DB5}', [0xD3, 0xE5]), ";
"    ('\u{8DB6}', [0xD3, 0xE7]), ('\u{8DB7}', [0xD3, 0xE6]), ('\u{8DB9}', [0xD7, 0xD8]), ";
"    ('\u{8DBA}', [0xB3, 0x6C]), ('\u{8DBC}', [0xD7, 0xD6]), ('\u{8DBE}', [0xB3, 0x6B]), ";
"    ('\u{8DBF}', [0xD7, 0xD9]), ('\u{8DC0}', [0x8A, 0xC4]), ('\u{8DC1}', [0xD7, 0xDA]), ";
"    ('\u{8DC2}', [0xD7, 0xD7]), ('\u{8DC3}', [0x99, 0xE0]), ('\u{8DC5}', [0xDB, 0xFB]), ";
"    ('\u{8DC6}', [0xB6, 0x60]), ('\u{8DC7}', [0xDB, 0xF3]), ('\u{8DC8}', [0xDB, 0xF9]), ";
"    ('\u{8DCB}', [0xB6, 0x5B]), ('\u{8DCC}', [0xB6, 0x5E]), ('\u{8DCD}', [0xDB, 0xF2]), ";
"    ('\u{8DCE}', [0xB6, 0x59]), ('\u{8DCF}', [0xDB, 0xF6]), ('\u{8DD0}', [0xE0, 0x6C]), ";
"    ('\u{8DD1}', [0xB6, 0x5D]), ('\u{8DD3}', [0xDB, 0xF1]), ('\u{8DD4}', [0x9F, 0xF0]), ";
"    ('\u{8DD5}', [0xDB, 0xF7]), ('\u{8DD6}', [0xDB, 0xF4]), ('\u{8DD7}', [0xDB, 0xFA]), ";
"    ('\u{8DD8}', [0xDB, 0xF0]), ('\u{8DD9}', [0xDB, 0xF8]), ('\u{8DDA}', [0xB6, 0x5C]), ";
"    ('\u{8DDB}', [0xB6, 0x5F]), ('\u{8DDC}', [0xDB, 0xF5]), ('\u{8DDD}', [0xB6, 0x5A]), ";
"    ('\u{8DDF}', [0xB8, 0xF2]), ('\u{8DE0}', [0xE0, 0x68]), ('\u{8DE1}', [0xB8, 0xF1]), ";
"    ('\u{8DE2}', [0xE0, 0x6F]), ('\u{8DE3}', [0xE0, 0x6E]), ('\u{8DE4}', [0xB8, 0xF8]), ";
"    ('\u{8DE6}', [0xB8, 0xF9]), ('\u{8DE7}', [0xE0, 0x70]), ('\u{8DE8}', [0xB8, 0xF3]), ";
"    ('\u{8DE9}', [0xE0, 0x6D]), ('\u{8DEA}', [0xB8, 0xF7]), ('\u{8DEB}', [0xE0, 0x72]), ";
"    ('\u{8DEC}', [0xE0, 0x69]), ('\u{8DEE}', [0xE0, 0x6B]), ('\u{8DEF}', [0xB8, 0xF4]), ";
"    ('\u{8DF0}', [0xE0, 0x67]), ('\u{8DF1}', [0xE0, 0x6A]), ('\u{8DF2}', [0xE0, 0x71]), ";
"    ('\u{8DF3}', [0xB8, 0xF5]), ('\u{8DF4}', [0xE0, 0x73]), ('\u{8DFA}', [0xB8, 0xF6]), ";
"    ('\u{8DFC}', [0xBB, 0xB1]), ('\u{8DFD}', [0xE4, 0x5B]), ('\u{8DFE}', [0xE4, 0x61]), ";
"    ('\u{8DFF}', [0xE4, 0x59]), ('\u{8E00}', [0xE4, 0x62]), ('\u{8E01}', [0x9F, 0xF3]), ";
"    ('\u{8E02}', [0xE4, 0x58]), ('\u{8E03}', [0xE4, 0x5D]), ('\u{8E04}', [0xE4, 0x63]), ";
"    ('\u{8E05}', [0xE4, 0x60]), ('\u{8E06}', [0xE4, 0x5F]), ('\u{8E07}', [0xE4, 0x5E]), ";
"    ('\u{8E09}', [0xE4, 0x57]), ('\u{8E0A}', [0xE4, 0x5C]), ('\u{8E0D}', [0xE4, 0x5A]), ";
"    ('\u{8E0E}', [0x9D, 0xBF]), ('\u{8E0F}', [0xBD, 0xF1]), ('\u{8E10}', [0xBD, 0xEE]), ";
"    ('\u{8E11}', [0xE7, 0xFB]), ('\u{8E12}', [0xE8, 0x41]), ('\u{8E13}', [0xE8, 0x43]), ";
"    ('\u{8E14}', [0xE8, 0x40]), ('\u{8E15}', [0xE7, 0xF8]), ('\u{8E16}', [0xE7, 0xFA]), ";
"    ('\u{8E17}', [0xE8, 0x45]), ('\u{8E18}', [0xE8, 0x42]), ('\u{8E19}', [0xE7, 0xFC]), ";
"    ('\u{8E1A}', [0xE8, 0x46]), ('\u{8E1B}', [0xE7, 0xF9]), ('\u{8E1C}', [0xE8, 0x44]), ";
"    ('\u{8E1D}', [0xBD, 0xEF]), ('\u{8E1E}', [0xBD, 0xF5]), ('\u{8E1F}', [0xBD, 0xF3]), ";
"    ('\u{8E20}', [0xE7, 0xF3]), ('\u{8E21}', [0xBD, 0xF4]), ('\u{8E22}', [0xBD, 0xF0]), ";
"    ('\u{8E23}', [0xE7, 0xF4]), ('\u{8E24}', [0xE7, 0xF6]), ('\u{8E25}', [0xE7, 0xF5]), ";
"    ('\u{8E26}', [0xE7, 0xFD]), ('\u{8E27}', [0xE7, 0xFE]), ('\u{8E28}', [0x9F, 0xF6]), ";
"    ('\u{8E29}', [0xBD, 0xF2]), ('\u{8E2A}', [0x95, 0xC8]), ('\u{8E2B}', [0xBD, 0xED]), ";
"    ('\u{8E2D}', [0x9E, 0x5A]), ('\u{8E2E}', [0xE7, 0xF7]), ('\u{8E30}', [0xEB, 0xC6]), ";
"    ('\u{8E31}', [0xBF, 0xE2]), ('\u{8E33}', [0xEB, 0xBD]), ('\u{8E34}', [0xBF, 0xE3]), ";
"    ('\u{8E35}', [0xBF, 0xE6]), ('\u{8E36}', [0xEB, 0xC2]), ('\u{8E38}', [0xEB, 0xBF]), ";
"    ('\u{8E39}', [0xBF, 0xE5]), ('\u{8E3A}', [0x99, 0xE3]), ('\u{8E3C}', [0xEB, 0xC3]), ";
"    ('\u{8E3D}', [0xEB, 0xC4]), ('\u{8E3E}', [0xEB, 0xBE]), ('\u{8E3F}', [0xEB, 0xC7]), ";
"    ('\u{8E40}', [0xEB, 0xC0]), ('\u{8E41}', [0xEB, 0xC5]), ('\u{8E42}', [0xBF, 0xE4]), ";
"    ('\u{8E44}', [0xBF, 0xE1]), ('\u{8E45}', [0xEB, 0xC1]), ('\u{8E46}', [0x8A, 0x4A]), ";
"    ('\u{8E47}', [0xEE, 0xBF]), ('\u{8E48}', [0xC1, 0xD0]), ('\u{8E49}', [0xC1, 0xCE]), ";
"    ('\u{8E4A}', [0xC1, 0xD1]), ('\u{8E4B}', [0xC1, 0xCF]), ('\u{8E4C}', [0xEE, 0xBE]), ";
"    ('\u{8E4D}', [0xEE, 0xBB]), ('\u{8E4E}', [0xEE, 0xBA]), ('\u{8E4F}', [0x9F, 0xF1]), ";
"    ('\u{8E50}', [0xEE, 0xBD]), ('\u{8E53}', [0xEE, 0xBC]), ('\u{8E54}', [0xF1, 0x45]), ";
"    ('\u{8E55}', [0xC2, 0xDE]), ('\u{8E56}', [0xF0, 0xFB]), ('\u{8E57}', [0xF0, 0xFA]), ";
"    ('\u{8E59}', [0xC2, 0xD9]), ('\u{8E5A}', [0xF1, 0x41]), ('\u{8E5B}', [0xF1, 0x40]), ";
"    ('\u{8E5C}', [0xF0, 0xF7]), ('\u{8E5D}', [0xF1, 0x43]), ('\u{8E5E}', [0xF0, 0xFC]), ";
"    ('\u{8E5F}', [0xC2, 0xDD]), ('\u{8E60}', [0xF0, 0xF9]), ('\u{8E61}', [0xF1, 0x42]), ";
"    ('\u{8E62}', [0xF0, 0xF8]), ('\u{8E63}', [0xC2, 0xDA]), ('\u{8E64}', [0xC2, 0xDC]), ";
"    ('\u{8E65}', [0xF0, 0xFD]), ('\u{8E66}', [0xC2, 0xDB]), ('\u{8E67}', [0xF0, 0xFE]), ";
"    ('\u{8E68}', [0x8A, 0xA7]), ('\u{8E69}', [0xF1, 0x44]), ('\u{8E6A}', [0xF3, 0x52]), ";
"    ('\u{8E6C}', [0xC3, 0xDE]), ('\u{8E6D}', [0xF3, 0x4F]), ('\u{8E6F}', [0xF3, 0x53]), ";
"    ('\u{8E71}', [0x99, 0xE6]), ('\u{8E72}', [0xC3, 0xDB]), ('\u{8E73}', [0xF3, 0x51]), ";
"    ('\u{8E74}', [0xC3, 0xE0]), ('\u{8E75}', [0x9F, 0xF7]), ('\u{8E76}', [0xC3, 0xDD]), ";
"    ('\u{8E77}', [0x9F, 0xED]), ('\u{8E78}', [0xF3, 0x50]), ('\u{8E7A}', [0xC3, 0xDF]), ";
"    ('\u{8E7B}', [0xF3, 0x54]), ('\u{8E7C}', [0xC3, 0xDA]), ('\u{8E7E}', [0x8A, 0x5C]), ";
"    ('\u{8E80}', [0x9D, 0xAE]), ('\u{8E81}', [0xC4, 0xBC]), ('\u{8E82}', [0xC4, 0xBE]), ";
"    ('\u{8E84}', [0xF4, 0xD9]), ('\u{8E85}', [0xC4, 0xBD]), ('\u{8E86}', [0xF4, 0xD7]), ";
"    ('\u{8E87}', [0xC3, 0xDC]), ('\u{8E88}', [0xF4, 0xD8]), ('\u{8E89}', [0xC4, 0xBB]), ";
"    ('\u{8E8A}', [0xC5, 0x43]), ('\u{8E8B}', [0xC5, 0x45]), ('\u{8E8C}', [0xF6, 0x56]), ";
"    ('\u{8E8D}', [0xC5, 0x44]), ('\u{8E8E}', [0xF6, 0x55]), ('\u{8E90}', [0xF7, 0x61]), ";
"    ('\u{8E91}', [0xC5, 0xAD]), ('\u{8E92}', [0xF7, 0x60]), ('\u{8E93}', [0xC5, 0xAE]), ";
"    ('\u{8E94}', [0xF7, 0x5E]), ('\u{8E95}', [0xF7, 0x5D]), ('\u{8E96}', [0xF7, 0x62]), ";
"    ('\u{8E97}', [0xF7, 0x63]), ('\u{8E98}', [0xF8, 0x46]), ('\u{8E9A}', [0xF7, 0x5F]), ";
"    ('\u{8E9D}', [0xF8, 0xC6]), ('\u{8E9E}', [0xF8, 0xC3]), ('\u{8E9F}', [0xF8, 0xC4]), ";
"    ('\u{8EA0}', [0xF8, 0xC5]), ('\u{8EA1}', [0xC6, 0x5C]), ('\u{8EA3}', [0xF9, 0x51]), ";
"    ('\u{8EA4}', [0xF9, 0x50]), ('\u{8EA5}', [0xF9, 0x4F]), ('\u{8EA6}', [0xF9, 0x70]), ";
"    ('\u{8EA7}', [0x95, 0xC9]), ('\u{8EA8}', [0xF9, 0xBE]), ('\u{8EA9}', [0xF9, 0xAB]), ";
"    ('\u{8EAA}', [0xC6, 0x6E]), ('\u{8EAB}', [0xA8, 0xAD]), ('\u{8EAC}', [0xB0, 0x60]), ";
"    ('\u{8EAD}', [0x90, 0x48]), ('\u{8EB0}', [0x99, 0xE8]), ('\u{8EB2}', [0xB8, 0xFA]), ";
"    ('\u{8EB6}', [0x90, 0x49]), ('\u{8EB9}', [0x8C, 0xBA]), ('\u{8EBA}', [0xBD, 0xF6]), ";
"    ('\u{8EBC}', [0x90, 0xB1]), ('\u{8EBD}', [0xEB, 0xC8]), ('\u{8EC0}', [0xC2, 0xDF]), ";
"    ('\u{8EC2}', [0xF3, 0x55]), ('\u{8EC3}', [0x90, 0x4A]), ('\u{8EC9}', [0xF9, 0xAC]), ";
"    ('\u{8ECA}', [0xA8, 0xAE]), ('\u{8ECB}', [0xAA, 0xEE]), ('\u{8ECC}', [0xAD, 0x79]), ";
"    ('\u{8ECD}', [0xAD, 0x78]), ('\u{8ECE}', [0x99, 0xEA]), ('\u{8ECF}', [0xB0, 0x63]), ";
"    ('\u{8ED1}', [0xD3, 0xE8]), ('\u{8ED2}', [0xB0, 0x61]), ('\u{8ED3}', [0xD3, 0xE9]), ";
"    ('\u{8ED4}', [0xB0, 0x62]), ('\u{8ED7}', [0xD7, 0xDF]), ('\u{8ED8}', [0xD7, 0xDB]), ";
"    ('\u{8EDA}', [0x9B, 0xD1]), ('\u{8EDB}', [0xB3, 0x6D]), ('\u{8EDC}', [0xD7, 0xDE]), ";
"    ('\u{8EDD}', [0xD7, 0xDD]), ('\u{8EDE}', [0xD7, 0xDC]), ('\u{8EDF}', [0xB3, 0x6E]), ";
"    ('\u{8EE0}', [0xD7, 0xE0]), ('\u{8EE1}', [0xD7, 0xE1]), ('\u{8EE2}', [0x99, 0xEB]), ";
"    ('\u{8EE4}', [0x99, 0xEC]), ('\u{8EE5}', [0xDC, 0x43]), ('\u{8EE6}', [0xDC, 0x41]), ";
"    ('\u{8EE7}', [0xDC, 0x45]), ('\u{8EE8}', [0xDC, 0x46]), ('\u{8EE9}', [0xDC, 0x4C]), ";
"    ('\u{8EEB}', [0xDC, 0x48]), ('\u{8EEC}', [0xDC, 0x4A]), ('\u{8EED}', [0x99, 0xED]), ";
"    ('\u{8EEE}', [0xDC, 0x42]), ('\u{8EEF}', [0xDB, 0xFC]), ('\u{8EF1}', [0xDC, 0x49]), ";
"    ('\u{8EF2}', [0x99, 0xEE]), ('\u{8EF4}', [0xDC, 0x4B]), ('\u{8EF5}', [0xDC, 0x44]), ";
"    ('\u{8EF6}', [0xDC, 0x47]), ('\u{8EF7}', [0xDB, 0xFD]), ('\u{8EF8}', [0xB6, 0x62]), ";
"    ('\u{8EF9}', [0xDC, 0x40]), ('\u{8EFA}', [0xDB, 0xFE]), ('\u{8EFB}', [0xB6, 0x61]), ";
"    ('\u{8EFC}', [0xB6, 0x63]), ('\u{8EFE}', [0xB8, 0xFD]), ('\u{8EFF}', [0xE0, 0x75]), ";
"    ('\u{8F00}', [0xE0, 0x77]), ('\u{8F01}', [0xE0, 0x76]), ('\u{8F02}', [0xE0, 0x7B]), ";
"    ('\u{8F03}', [0xB8, 0xFB]), ('\u{8F05}', [0xE0, 0x78]), ('\u{8F06}', [0xE0, 0x74]), ";
"    ('\u{8F07}', [0xE0, 0x79]), ('\u{8F08}', [0xE0, 0x7A]), ('\u{8F09}', [0xB8, 0xFC]), ";
"    ('\u{8F0A}', [0xB8, 0xFE]), ('\u{8F0B}', [0x9D, 0x57]), ('\u{8F0D}', [0xE4, 0x67]), ";
"    ('\u{8F0E}', [0xE4, 0x66]), ('\u{8F10}', [0xE4, 0x64]), ('\u{8F11}', [0xE4, 0x65]), ";
"    ('\u{8F12}', [0xBB, 0xB3]), ('\u{8F13}', [0xBB, 0xB5]), ('\u{8F14}', [0xBB, 0xB2]), ";
"    ('\u{8F15}', [0xBB, 0xB4]), ('\u{8F16}', [0xE8, 0x4D]), ('\u{8F17}', [0xE8, 0x4E]), ";
"    ('\u{8F18}', [0xE8, 0x49]), ('\u{8F19}', [0x90, 0x4C]), ('\u{8F1A}', [0xE8, 0x4A]), ";
"    ('\u{8F1B}', [0xBD, 0xF8]), ('\u{8F1C}', [0xBD, 0xFD]), ('\u{8F1D}', [0xBD, 0xF7]), ";
"    ('\u{8F1E}', [0xBD, 0xFE]), ('\u{8F1F}', [0xBD, 0xF9]), ('\u{8F20}', [0xE8, 0x4B]), ";
"    ('\u{8F23}', [0xE8, 0x4C]), ('\u{8F24}', [0xE8, 0x48]), ('\u{8F25}', [0xBE, 0x40]), ";
"    ('\u{8F26}', [0xBD, 0xFB]), ('\u{8F29}', [0xBD, 0xFA]), ('\u{8F2A}', [0xBD, 0xFC]), ";
"    ('\u{8F2C}', [0xE8, 0x47]), ('\u{8F2D}', [0x90, 0x4D]), ('\u{8F2E}', [0xEB, 0xCA]), ";
"    ('\u{8F2F}', [0xBF, 0xE8]), ('\u{8F30}', [0x95, 0xCB]), ('\u{8F32}', [0xEB, 0xCC]), ";
"    ('\u{8F33}', [0xBF, 0xEA]), ('\u{8F34}', [0xEB, 0xCF]), ('\u{8F35}', [0xEB, 0xCB]), ";
"    ('\u{8F36}', [0x9C, 0x42]), ('\u{8F37}', [0xEB, 0xCE]), ('\u{8F38}', [0xBF, 0xE9]), ";
"    ('\u{8F39}', [0xEB, 0xCD]), ('\u{8F3B}', [0xBF, 0xE7]), ('\u{8F3E}', [0xC1, 0xD3]), ";
"    ('\u{8F3F}', [0xC1, 0xD6]), ('\u{8F40}', [0xEE, 0xC1]), ('\u{8F41}', [0x97, 0xE2]), ";
"    ('\u{8F42}', [0xC1, 0xD4]), ('\u{8F43}', [0xEE, 0xC0]), ('\u{8F44}', [0xC1, 0xD2]), ";
"    ('\u{8F45}', [0xC1, 0xD5]), ('\u{8F46}', [0xF1, 0x46]), ('\u{8F47}', [0xF1, 0x47]), ";
"    ('\u{8F48}', [0xF1, 0x48]), ('\u{8F49}', [0xC2, 0xE0]), ('\u{8F4A}', [0x95, 0xCC]), ";
"    ('\u{8F4B}', [0xF1, 0x49]), ('\u{8F4D}', [0xC2, 0xE1]), ('\u{8F4E}', [0xC3, 0xE2]), ";
"    ('\u{8F4F}', [0xF3, 0x58]), ('\u{8F50}', [0xF3, 0x59]), ('\u{8F51}', [0xF3, 0x57]), ";
"    ('\u{8F52}', [0xF3, 0x56]), ('\u{8F53}', [0xF3, 0x5A]), ('\u{8F54}', [0xC3, 0xE1]), ";
"    ('\u{8F55}', [0xF4, 0xDD]), ('\u{8F56}', [0xF4, 0xDB]), ('\u{8F57}', [0xF4, 0xDC]), ";
"    ('\u{8F58}', [0xF4, 0xDE]), ('\u{8F59}', [0xF4, 0xDA]), ('\u{8F5A}', [0xF4, 0xDF]), ";
"    ('\u{8F5B}', [0xF6, 0x58]), ('\u{8F5C}', [0x9F, 0x78]), ('\u{8F5D}', [0xF6, 0x59]), ";
"    ('\u{8F5E}', [0xF6, 0x57]), ('\u{8F5F}', [0xC5, 0x46]), ('\u{8F60}', [0xF7, 0x64]), ";
"    ('\u{8F61}', [0xC5, 0xAF]), ('\u{8F62}', [0xF7, 0x65]), ('\u{8F63}', [0xF8, 0x48]), ";
"    ('\u{8F64}', [0xF8, 0x47]), ('\u{8F66}', [0x89, 0x7C]), ('\u{8F67}', [0x89, 0x7D]), ";
"    ('\u{8F6E}', [0x89, 0x7E]), ('\u{8F93}', [0x99, 0x5D]), ('\u{8F9B}', [0xA8, 0xAF]), ";
"    ('\u{8F9C}', [0xB6, 0x64]), ('\u{8F9F}', [0xB9, 0x40]), ('\u{8FA0}', [0x9B, 0x5A]), ";
"    ('\u{8FA3}', [0xBB, 0xB6]), ('\u{8FA5}', [0x90, 0x50]), ('\u{8FA6}', [0xBF, 0xEC]), ";
"    ('\u{8FA7}', [0x8C, 0x4F]), ('\u{8FA8}', [0xBF, 0xEB]), ('\u{8FAD}', [0xC3, 0xE3]), ";
"    ('\u{8FAE}', [0xC4, 0x7C]), ('\u{8FAF}', [0xC5, 0x47]), ('\u{8FB0}', [0xA8, 0xB0]), ";
"    ('\u{8FB1}', [0xB0, 0x64]), ('\u{8FB2}', [0xB9, 0x41]), ('\u{8FB3}', [0x90, 0x54]), ";
"    ('\u{8FB4}', [0xF3, 0x5B]), ('\u{8FB5}', [0xC6, 0xD6]), ('\u{8FB6}', [0x9A, 0xA8]), ";
"    ('\u{8FB7}', [0x99, 0xEF]), ('\u{8FB8}', [0xFE, 0xEB]), ('\u{8FB9}', [0x9D, 0xA3]), ";
"    ('\u{8FBA}', [0x9D, 0xA1]), ('\u{8FBB}', [0x99, 0x43]), ('\u{8FBC}', [0x99, 0x45]), ";
"    ('\u{8FBE}', [0x9D, 0x7D]), ('\u{8FBF}', [0xCB, 0xA6]), ('\u{8FC1}', [0x99, 0xF0]), ";
"    ('\u{8FC2}', [0xA8, 0xB1]), ('\u{8FC4}', [0xA8, 0xB4]), ('\u{8FC5}', [0xA8, 0xB3]), ";
"    ('\u{8FC6}', [0xA8, 0xB2]), ('\u{8FC9}', [0xCB, 0xA5]), ('\u{8FCA}', [0x99, 0xF1]), ";
"    ('\u{8FCB}', [0xCD, 0xCD]), ('\u{8FCC}', [0x99, 0xF2]), ('\u{8FCD}', [0xCD, 0xCF]), ";
"    ('\u{8FCE}', [0xAA, 0xEF]), ('\u{8FCF}', [0x8C, 0xBC]), ('\u{8FD0}', [0x9D, 0x60]), ";
"    ('\u{8FD1}', [0xAA, 0xF1]), ('\u{8FD2}', [0xCD, 0xCC]), ('\u{8FD3}', [0xCD, 0xCE]), ";
"    ('\u{8FD4}', [0xAA, 0xF0]), ('\u{8FD5}', [0xCD, 0xD1]), ('\u{8FD6}', [0xCD, 0xD0]), ";
"    ('\u{8FD7}', [0xCD, 0xD2]), ('\u{8FDA}', [0xA0, 0xA3]), ('\u{8FE0}', [0xD0, 0xB6]), ";
"    ('\u{8FE1}', [0xD0, 0xB4]), ('\u{8FE2}', [0xAD, 0x7C]), ('\u{8FE3}', [0xD0, 0xB3]), ";
"    ('\u{8FE4}', [0xAD, 0xA3]), ('\u{8FE5}', [0xAD, 0x7E]), ('\u{8FE6}', [0xAD, 0x7B]), ";
"    ('\u{8FE8}', [0xAD, 0xA4]), ('\u{8FEA}', [0xAD, 0x7D]), ('\u{8FEB}', [0xAD, 0xA2]), ";
"    ('\u{8FED}', [0xAD, 0xA1]), ('\u{8FEE}', [0xD0, 0xB5]), ('\u{8FF0}', [0xAD, 0x7A]), ";
"    ('\u{8FF4}', [0xB0, 0x6A]), ('\u{8FF5}', [0xD3, 0xEB]), ('\u{8FF6}', [0xD3, 0xF1]), ";
"    ('\u{8FF7}', [0xB0, 0x67]), ('\u{8FF8}', [0xB0, 0x6E]), ('\u{8FF9}', [0x90, 0x5B]), ";
"    ('\u{8FFA}', [0xB0, 0x69]), ('\u{8FFB}', [0xD3, 0xEE]), ('\u{8FFC}', [0xD3, 0xF0]), ";
"    ('\u{8FFD}', [0xB0, 0x6C]), ('\u{8FFE}', [0xD3, 0xEA]), ('\u{8FFF}', [0xD3, 0xED]), ";
"    ('\u{9000}', [0xB0, 0x68]), ('\u{9001}', [0xB0, 0x65]), ('\u{9002}', [0xD3, 0xEC]), ";
"    ('\u{9003}', [0xB0, 0x6B]), ('\u{9004}', [0xD3, 0xEF]), ('\u{9005}', [0xB0, 0x6D]), ";
"    ('\u{9006}', [0xB0, 0x66]), ('\u{9008}', [0x9E, 0xDB]), ('\u{900B}', [0xD7, 0xE3]), ";
"    ('\u{900C}', [0xD7, 0xE6]), ('\u{900D}', [0xB3, 0x70]), ('\u{900F}', [0xB3, 0x7A]), ";
"    ('\u{9010}', [0xB3, 0x76]), ('\u{9011}', [0xD7, 0xE4]), ('\u{9012}', [0x9D, 0x79]), ";
"    ('\u{9014}', [0xB3, 0x7E]), ('\u{9015}', [0xB3, 0x77]), ('\u{9016}', [0xB3, 0x7C]), ";
"    ('\u{9017}', [0xB3, 0x72]), ('\u{9019}', [0xB3, 0x6F]), ('\u{901A}', [0xB3, 0x71]), ";
"    ('\u{901B}', [0xB3, 0x7D]), ('\u{901C}', [0xD7, 0xE5]), ('\u{901D}', [0xB3, 0x75]), ";
"    ('\u{901E}', [0xB3, 0x78]), ('\u{901F}', [0xB3, 0x74]), ('\u{9020}', [0xB3, 0x79]), ";
"    ('\u{9021}', [0xD7, 0xE7]), ('\u{9022}', [0xB3, 0x7B]), ('\u{9023}', [0xB3, 0x73]), ";
"    ('\u{9024}', [0xD7, 0xE2]), ('\u{902D}', [0xDC, 0x4D]), ('\u{902E}', [0xB6, 0x65]), ";
"    ('\u{902F}', [0xDC, 0x4F]), ('\u{9031}', [0xB6, 0x67]), ('\u{9032}', [0xB6, 0x69]), ";
"    ('\u{9033}', [0x99, 0xF3]), ('\u{9034}', [0xDC, 0x4E]), ('\u{9035}', [0xB6, 0x66]), ";
"    ('\u{9036}', [0xB6, 0x6A]), ('\u{9037}', [0x90, 0x62]), ('\u{9038}', [0xB6, 0x68]), ";
"    ('\u{903C}', [0xB9, 0x47]), ('\u{903D}', [0xE0, 0xA3]), ('\u{903E}', [0xB9, 0x4F]), ";
"    ('\u{903F}', [0xE0, 0x7E]), ('\u{9041}', [0xB9, 0x50]), ('\u{9042}', [0xB9, 0x45]), ";
"    ('\u{9044}', [0xE0, 0xA1]), ('\u{9046}', [0x87, 0xBD]), ('\u{9047}', [0xB9, 0x4A]), ";
"    ('\u{9049}', [0xE0, 0xA2]), ('\u{904A}', [0xB9, 0x43]), ('\u{904B}', [0xB9, 0x42]), ";
"    ('\u{904C}', [0x9F, 0x55]), ('\u{904D}', [0xB9, 0x4D]), ('\u{904E}', [0xB9, 0x4C]), ";
"    ('\u{904F}', [0xB9, 0x4B]), ('\u{9050}', [0xB9, 0x49]), ('\u{9051}', [0xB9, 0x4E]), ";
"    ('\u{9052}', [0xE0, 0x7D]), ('\u{9053}', [0xB9, 0x44]), ('\u{9054}', [0xB9, 0x46]), ";
"    ('\u{9055}', [0xB9, 0x48]), ('\u{9056}', [0x9B, 0xF9]), ('\u{9058}', [0xBB, 0xB8]), ";
"    ('\u{9059}', [0xBB, 0xBB]), ('\u{905B}', [0xBB, 0xBF]), ('\u{905C}', [0xBB, 0xB9]), ";
"    ('\u{905D}', [0xBB, 0xBE]), ('\u{905E}', [0xBB, 0xBC]), ('\u{9060}', [0xBB, 0xB7]), ";
"    ('\u{9061}', [0x90, 0x65]), ('\u{9062}', [0xBB, 0xBD]), ('\u{9063}', [0xBB, 0xBA]), ";
"    ('\u{9064}', [0x96, 0xE0]), ('\u{9067}', [0xE8, 0x52]), ('\u{9068}', [0xBE, 0x43]), ";
"    ('\u{9069}', [0xBE, 0x41]), ('\u{906B}', [0xE8, 0x53]), ('\u{906C}', [0x98, 0xBE]), ";
"    ('\u{906D}', [0xBE, 0x44]), ('\u{906E}', [0xBE, 0x42]), ('\u{906F}', [0xE8, 0x51]), ";
"    ('\u{9070}', [0xE8, 0x50]), ('\u{9072}', [0xBF, 0xF0]), ('\u{9073}', [0xE8, 0x4F]), ";
"    ('\u{9074}', [0xBF, 0xEE]), ('\u{9075}', [0xBF, 0xED]), ('\u{9076}', [0xEB, 0xD0]), ";
"    ('\u{9077}', [0xBE, 0x45]), ('\u{9078}', [0xBF, 0xEF]), ('\u{9079}', [0xEB, 0xD1]), ";
"    ('\u{907A}', [0xBF, 0xF2]), ('\u{907B}', [0xEB, 0xD2]), ('\u{907C}', [0xBF, 0xF1]), ";
"    ('\u{907D}', [0xC1, 0xD8]), ('\u{907E}', [0xEE, 0xC3]), ('\u{907F}', [0xC1, 0xD7]), ";
"    ('\u{9080}', [0xC1, 0xDC]), ('\u{9081}', [0xC1, 0xDA]), ('\u{9082}', [0xC1, 0xDB]), ";
"    ('\u{9083}', [0xC2, 0xE3]), ('\u{9084}', [0xC1, 0xD9]), ('\u{9085}', [0xEE, 0xC2]), ";
"    ('\u{9086}', [0xEB, 0xD3]), ('\u{9087}', [0xC2, 0xE2]), ('\u{9088}', [0xC2, 0xE4]), ";
"    ('\u{908A}', [0xC3, 0xE4]), ('\u{908B}', [0xC3, 0xE5]), ('\u{908D}', [0xF4, 0xE0]), ";
"    ('\u{908F}', [0xC5, 0xDE]), ('\u{9090}', [0xC5, 0xDD]), ('\u{9091}', [0xA8, 0xB6]), ";
"    ('\u{9094}', [0xCA, 0x55]), ('\u{9095}', [0xB0, 0x6F]), ('\u{9097}', [0x95, 0xD9]), ";
"    ('\u{9098}', [0xCA, 0x53]), ('\u{9099}', [0xCA, 0x51]), ('\u{909B}', [0xCA, 0x54]), ";
"    ('\u{909E}', [0xCB, 0xAA]), ('\u{909F}', [0xCB, 0xA7]), ('\u{90A0}', [0xCB, 0xAC]), ";
"    ('\u{90A1}', [0xCB, 0xA8]), ('\u{90A2}', [0xA8, 0xB7]), ('\u{90A3}', [0xA8, 0xBA]), ";
"    ('\u{90A5}', [0xCB, 0xA9]), ('\u{90A6}', [0xA8, 0xB9]), ('\u{90A7}', [0xCB, 0xAB]), ";
"    ('\u{90A8}', [0x90, 0x68]), ('\u{90AA}', [0xA8, 0xB8]), ('\u{90AE}', [0x90, 0x6C]), ";
"    ('\u{90AF}', [0xCD, 0xD5]), ('\u{90B0}', [0xCD, 0xD7]), ('\u{90B1}', [0xAA, 0xF4]), ";
"    ('\u{90B2}', [0xCD, 0xD3]), ('\u{90B3}', [0xCD, 0xD6]), ('\u{90B4}', [0xCD, 0xD4]), "
].
(* /repo/src/generated/whatwg/big5_whatwg_tables.rs.inc:7169-7424 *)
Definition big5_inc_28 : list line := [
"    ('\u{90B5}', [0xAA, 0xF2]), ('\u{90B6}', [0xAA, 0xF5]), ('\u{90B8}', [0xAA, 0xF3]), ";
"    ('\u{90BB}', [0x95, 0xD8]), ('\u{90BD}', [0xD0, 0xB8]), ('\u{90BE}', [0xD0, 0xBC]), ";
"    ('\u{90BF}', [0xD0, 0xB9]), ('\u{90C1}', [0xAD, 0xA7]), ('\u{90C3}', [0xAD, 0xA8]), ";
"    ('\u{90C4}', [0x90, 0x6A]), ('\u{90C5}', [0xD0, 0xBB]), ('\u{90C7}', [0xD0, 0xBD]), ";
"    ('\u{90C8}', [0xD0, 0xBF]), ('\u{90CA}', [0xAD, 0xA5]), ('\u{90CB}', [0xD0, 0xBE]), ";
"    ('\u{90CE}', [0xAD, 0xA6]), ('\u{90D4}', [0xD7, 0xEE]), ('\u{90D5}', [0xD0, 0xBA]), ";
"    ('\u{90D6}', [0xD3, 0xF2]), ('\u{90D7}', [0xD3, 0xFB]), ('\u{90D8}', [0xD3, 0xF9]), ";
"    ('\u{90D9}', [0xD3, 0xF4]), ('\u{90DA}', [0xD3, 0xF5]), ('\u{90DB}', [0xD3, 0xFA]), ";
"    ('\u{90DC}', [0xD3, 0xFC]), ('\u{90DD}', [0xB0, 0x71]), ('\u{90DF}', [0xD3, 0xF7]), ";
"    ('\u{90E0}', [0xD3, 0xF3]), ('\u{90E1}', [0xB0, 0x70]), ('\u{90E2}', [0xB0, 0x72]), ";
"    ('\u{90E3}', [0xD3, 0xF6]), ('\u{90E4}', [0xD3, 0xFD]), ('\u{90E5}', [0xD3, 0xF8]), ";
"    ('\u{90E8}', [0xB3, 0xA1]), ('\u{90E9}', [0xD7, 0xF1]), ('\u{90EA}', [0xD7, 0xE9]), ";
"    ('\u{90EB}', [0xD7, 0xEF]), ('\u{90EC}', [0xD7, 0xF0]), ('\u{90ED}', [0xB3, 0xA2]), ";
"    ('\u{90EF}', [0xD7, 0xE8]), ('\u{90F0}', [0xD7, 0xEA]), ('\u{90F1}', [0xD0, 0xB7]), ";
"    ('\u{90F2}', [0xD7, 0xEC]), ('\u{90F3}', [0xD7, 0xED]), ('\u{90F4}', [0xD7, 0xEB]), ";
"    ('\u{90F5}', [0xB6, 0x6C]), ('\u{90F9}', [0xDC, 0x56]), ('\u{90FA}', [0xEB, 0xD4]), ";
"    ('\u{90FB}', [0xDC, 0x57]), ('\u{90FC}', [0xDC, 0x54]), ('\u{90FD}', [0x90, 0x6D]), ";
"    ('\u{90FE}', [0xB6, 0x6E]), ('\u{90FF}', [0xDC, 0x53]), ('\u{9100}', [0xDC, 0x59]), ";
"    ('\u{9101}', [0xDC, 0x58]), ('\u{9102}', [0xB6, 0x6B]), ('\u{9103}', [0xDC, 0x5C]), ";
"    ('\u{9104}', [0x9C, 0x68]), ('\u{9105}', [0xDC, 0x5B]), ('\u{9106}', [0xDC, 0x50]), ";
"    ('\u{9107}', [0xDC, 0x5A]), ('\u{9108}', [0xDC, 0x55]), ('\u{9109}', [0xB6, 0x6D]), ";
"    ('\u{910B}', [0xE0, 0xAA]), ('\u{910D}', [0xE0, 0xA5]), ('\u{910E}', [0xE0, 0xAB]), ";
"    ('\u{910F}', [0xE0, 0xA6]), ('\u{9110}', [0xE0, 0xA4]), ('\u{9111}', [0xE0, 0xA7]), ";
"    ('\u{9112}', [0xB9, 0x51]), ('\u{9114}', [0xE0, 0xA9]), ('\u{9116}', [0xE0, 0xA8]), ";
"    ('\u{9117}', [0xB9, 0x52]), ('\u{9118}', [0xBB, 0xC1]), ('\u{9119}', [0xBB, 0xC0]), ";
"    ('\u{911A}', [0xE4, 0x6E]), ('\u{911B}', [0xE4, 0x71]), ('\u{911C}', [0xE4, 0x69]), ";
"    ('\u{911D}', [0xE4, 0x6D]), ('\u{911E}', [0xBB, 0xC2]), ('\u{911F}', [0xE4, 0x6C]), ";
"    ('\u{9120}', [0xE4, 0x6A]), ('\u{9121}', [0xE4, 0x70]), ('\u{9122}', [0xE4, 0x6B]), ";
"    ('\u{9123}', [0xE4, 0x68]), ('\u{9124}', [0xE4, 0x6F]), ('\u{9126}', [0xE8, 0x59]), ";
"    ('\u{9127}', [0xBE, 0x48]), ('\u{9128}', [0xF1, 0x4A]), ('\u{9129}', [0xE8, 0x56]), ";
"    ('\u{912A}', [0xE8, 0x57]), ('\u{912B}', [0xE8, 0x55]), ('\u{912C}', [0xDC, 0x51]), ";
"    ('\u{912D}', [0xBE, 0x47]), ('\u{912E}', [0xE8, 0x5A]), ('\u{912F}', [0xE8, 0x54]), ";
"    ('\u{9130}', [0xBE, 0x46]), ('\u{9131}', [0xBE, 0x49]), ('\u{9132}', [0xE8, 0x58]), ";
"    ('\u{9133}', [0xEB, 0xD5]), ('\u{9134}', [0xBF, 0xF3]), ('\u{9135}', [0xEB, 0xD6]), ";
"    ('\u{9136}', [0xEB, 0xD7]), ('\u{9138}', [0xEE, 0xC4]), ('\u{9139}', [0xC1, 0xDD]), ";
"    ('\u{913A}', [0xF1, 0x4B]), ('\u{913B}', [0xF1, 0x4C]), ('\u{913E}', [0xF1, 0x4D]), ";
"    ('\u{913F}', [0xF3, 0x5D]), ('\u{9140}', [0xF3, 0x5C]), ('\u{9141}', [0xF4, 0xE2]), ";
"    ('\u{9143}', [0xF4, 0xE1]), ('\u{9144}', [0xF6, 0x5B]), ('\u{9145}', [0xF6, 0x5C]), ";
"    ('\u{9146}', [0xF6, 0x5A]), ('\u{9147}', [0xF7, 0x66]), ('\u{9148}', [0xC5, 0xB0]), ";
"    ('\u{9149}', [0xA8, 0xBB]), ('\u{914A}', [0xAD, 0xAA]), ('\u{914B}', [0xAD, 0xA9]), ";
"    ('\u{914C}', [0xB0, 0x75]), ('\u{914D}', [0xB0, 0x74]), ('\u{914E}', [0xD4, 0x40]), ";
"    ('\u{914F}', [0xD4, 0x41]), ('\u{9150}', [0xD3, 0xFE]), ('\u{9151}', [0x9F, 0xB2]), ";
"    ('\u{9152}', [0xB0, 0x73]), ('\u{9153}', [0xD7, 0xF5]), ('\u{9155}', [0xD7, 0xF6]), ";
"    ('\u{9156}', [0xD7, 0xF2]), ('\u{9157}', [0xB3, 0xA4]), ('\u{9158}', [0xD7, 0xF3]), ";
"    ('\u{9159}', [0x9F, 0xAE]), ('\u{915A}', [0xD7, 0xF4]), ('\u{915C}', [0x9F, 0xB0]), ";
"    ('\u{915E}', [0x89, 0xAD]), ('\u{915F}', [0xDC, 0x5F]), ('\u{9160}', [0xDC, 0x61]), ";
"    ('\u{9161}', [0xDC, 0x5D]), ('\u{9162}', [0xDC, 0x60]), ('\u{9163}', [0xB6, 0x6F]), ";
"    ('\u{9164}', [0xDC, 0x5E]), ('\u{9165}', [0xB6, 0x70]), ('\u{9167}', [0x90, 0x6E]), ";
"    ('\u{9168}', [0xDD, 0x73]), ('\u{9169}', [0xB9, 0x55]), ('\u{916A}', [0xB9, 0x54]), ";
"    ('\u{916C}', [0xB9, 0x53]), ('\u{916E}', [0xE0, 0xAC]), ('\u{916F}', [0xE0, 0xAD]), ";
"    ('\u{9170}', [0x9E, 0x71]), ('\u{9172}', [0xE4, 0x73]), ('\u{9173}', [0xE4, 0x75]), ";
"    ('\u{9174}', [0xBB, 0xC6]), ('\u{9175}', [0xBB, 0xC3]), ('\u{9176}', [0x9E, 0x4A]), ";
"    ('\u{9177}', [0xBB, 0xC5]), ('\u{9178}', [0xBB, 0xC4]), ('\u{9179}', [0xE4, 0x74]), ";
"    ('\u{917A}', [0xE4, 0x72]), ('\u{917C}', [0x9F, 0xDC]), ('\u{9180}', [0xE8, 0x61]), ";
"    ('\u{9181}', [0xE8, 0x5E]), ('\u{9182}', [0xE8, 0x5F]), ('\u{9183}', [0xBE, 0x4D]), ";
"    ('\u{9184}', [0xE8, 0x60]), ('\u{9185}', [0xE8, 0x5B]), ('\u{9186}', [0xE8, 0x5C]), ";
"    ('\u{9187}', [0xBE, 0x4A]), ('\u{9189}', [0xBE, 0x4B]), ('\u{918A}', [0xE8, 0x5D]), ";
"    ('\u{918B}', [0xBE, 0x4C]), ('\u{918C}', [0x89, 0xAB]), ('\u{918D}', [0xEB, 0xDB]), ";
"    ('\u{918E}', [0x9F, 0xB8]), ('\u{918F}', [0xEB, 0xDC]), ('\u{9190}', [0xEB, 0xD9]), ";
"    ('\u{9191}', [0xEB, 0xDA]), ('\u{9192}', [0xBF, 0xF4]), ('\u{9193}', [0xEB, 0xD8]), ";
"    ('\u{9199}', [0xEE, 0xC8]), ('\u{919A}', [0xEE, 0xC5]), ('\u{919B}', [0xEE, 0xC7]), ";
"    ('\u{919C}', [0xC1, 0xE0]), ('\u{919D}', [0xEE, 0xCB]), ('\u{919E}', [0xC1, 0xDF]), ";
"    ('\u{919F}', [0xEE, 0xC9]), ('\u{91A0}', [0xEE, 0xCC]), ('\u{91A1}', [0xEE, 0xCA]), ";
"    ('\u{91A2}', [0xEE, 0xC6]), ('\u{91A3}', [0xC1, 0xDE]), ('\u{91A5}', [0xF1, 0x4F]), ";
"    ('\u{91A7}', [0xF1, 0x50]), ('\u{91A8}', [0xF1, 0x4E]), ('\u{91A9}', [0x90, 0x70]), ";
"    ('\u{91AA}', [0xF1, 0x52]), ('\u{91AB}', [0xC2, 0xE5]), ('\u{91AC}', [0xC2, 0xE6]), ";
"    ('\u{91AD}', [0xF3, 0x5F]), ('\u{91AE}', [0xC3, 0xE7]), ('\u{91AF}', [0xF1, 0x51]), ";
"    ('\u{91B0}', [0xF3, 0x5E]), ('\u{91B1}', [0xC3, 0xE6]), ('\u{91B2}', [0xF4, 0xE5]), ";
"    ('\u{91B3}', [0xF4, 0xE6]), ('\u{91B4}', [0xC4, 0xBF]), ('\u{91B5}', [0xF4, 0xE4]), ";
"    ('\u{91B6}', [0x8B, 0x63]), ('\u{91B7}', [0xF4, 0xE3]), ('\u{91B9}', [0xF6, 0x5D]), ";
"    ('\u{91BA}', [0xC5, 0x48]), ('\u{91BB}', [0x95, 0xDC]), ('\u{91BC}', [0xF8, 0x49]), ";
"    ('\u{91BD}', [0xF8, 0xC8]), ('\u{91BE}', [0xF8, 0xC7]), ('\u{91C0}', [0xC6, 0x43]), ";
"    ('\u{91C1}', [0xC6, 0x5D]), ('\u{91C2}', [0xF8, 0xC9]), ('\u{91C3}', [0xF9, 0x71]), ";
"    ('\u{91C4}', [0x90, 0x71]), ('\u{91C5}', [0xC6, 0x6F]), ('\u{91C6}', [0xA8, 0xBC]), ";
"    ('\u{91C7}', [0xAA, 0xF6]), ('\u{91C9}', [0xB9, 0x56]), ('\u{91CB}', [0xC4, 0xC0]), ";
"    ('\u{91CC}', [0xA8, 0xBD]), ('\u{91CD}', [0xAD, 0xAB]), ('\u{91CE}', [0xB3, 0xA5]), ";
"    ('\u{91CF}', [0xB6, 0x71]), ('\u{91D0}', [0xC2, 0xE7]), ('\u{91D1}', [0xAA, 0xF7]), ";
"    ('\u{91D3}', [0xD0, 0xC1]), ('\u{91D4}', [0x9B, 0xDE]), ('\u{91D5}', [0xD4, 0x42]), ";
"    ('\u{91D6}', [0xFC, 0x5E]), ('\u{91D7}', [0xB0, 0x78]), ('\u{91D8}', [0xB0, 0x76]), ";
"    ('\u{91D9}', [0xB0, 0x7A]), ('\u{91DA}', [0xD4, 0x44]), ('\u{91DC}', [0xB0, 0x79]), ";
"    ('\u{91DD}', [0xB0, 0x77]), ('\u{91DF}', [0x89, 0x49]), ('\u{91E2}', [0xD4, 0x43]), ";
"    ('\u{91E3}', [0xB3, 0xA8]), ('\u{91E4}', [0xD7, 0xFC]), ('\u{91E5}', [0x96, 0x5B]), ";
"    ('\u{91E6}', [0xB3, 0xA7]), ('\u{91E7}', [0xB3, 0xA9]), ('\u{91E8}', [0xD8, 0x42]), ";
"    ('\u{91E9}', [0xB3, 0xAB]), ('\u{91EA}', [0xD7, 0xFE]), ('\u{91EB}', [0xD8, 0x40]), ";
"    ('\u{91EC}', [0xD7, 0xF7]), ('\u{91ED}', [0xB3, 0xAA]), ('\u{91EE}', [0xD8, 0x43]), ";
"    ('\u{91F1}', [0xD7, 0xF9]), ('\u{91F3}', [0xD7, 0xFA]), ('\u{91F4}', [0xD7, 0xF8]), ";
"    ('\u{91F5}', [0xB3, 0xA6]), ('\u{91F6}', [0x8C, 0x50]), ('\u{91F7}', [0xD8, 0x41]), ";
"    ('\u{91F8}', [0xD7, 0xFB]), ('\u{91F9}', [0xD7, 0xFD]), ('\u{91FA}', [0x94, 0xA6]), ";
"    ('\u{91FD}', [0xDC, 0x6D]), ('\u{91FE}', [0x8F, 0xD5]), ('\u{91FF}', [0xDC, 0x6C]), ";
"    ('\u{9200}', [0xDC, 0x6A]), ('\u{9201}', [0xDC, 0x62]), ('\u{9202}', [0xDC, 0x71]), ";
"    ('\u{9203}', [0xDC, 0x65]), ('\u{9204}', [0xDC, 0x6F]), ('\u{9205}', [0xDC, 0x76]), ";
"    ('\u{9206}', [0xDC, 0x6E]), ('\u{9207}', [0xB6, 0x79]), ('\u{9208}', [0x9E, 0x73]), ";
"    ('\u{9209}', [0xB6, 0x75]), ('\u{920A}', [0xDC, 0x63]), ('\u{920C}', [0xDC, 0x69]), ";
"    ('\u{920D}', [0xB6, 0x77]), ('\u{920E}', [0x90, 0x75]), ('\u{920F}', [0xDC, 0x68]), ";
"    ('\u{9210}', [0xB6, 0x78]), ('\u{9211}', [0xB6, 0x7A]), ('\u{9212}', [0xDC, 0x6B]), ";
"    ('\u{9213}', [0x99, 0xF7]), ('\u{9214}', [0xB6, 0x72]), ('\u{9215}', [0xB6, 0x73]), ";
"    ('\u{9216}', [0xDC, 0x77]), ('\u{9217}', [0xDC, 0x75]), ('\u{9218}', [0x87, 0xB2]), ";
"    ('\u{9219}', [0xDC, 0x74]), ('\u{921A}', [0xDC, 0x66]), ('\u{921C}', [0xDC, 0x72]), ";
"    ('\u{921E}', [0xB6, 0x76]), ('\u{9221}', [0x8C, 0xBF]), ('\u{9223}', [0xB6, 0x74]), ";
"    ('\u{9224}', [0xDC, 0x73]), ('\u{9225}', [0xDC, 0x64]), ('\u{9226}', [0xDC, 0x67]), ";
"    ('\u{9227}', [0xDC, 0x70]), ('\u{9228}', [0x99, 0xF9]), ('\u{922A}', [0x96, 0x63]), ";
"    ('\u{922B}', [0x95, 0xB9]), ('\u{922D}', [0xE4, 0xBA]), ('\u{922E}', [0xE0, 0xB7]), ";
"    ('\u{9230}', [0xE0, 0xB0]), ('\u{9231}', [0xE0, 0xC3]), ('\u{9232}', [0xE0, 0xCC]), ";
"    ('\u{9233}', [0xE0, 0xB3]), ('\u{9234}', [0xB9, 0x61]), ('\u{9235}', [0x94, 0xD4]), ";
"    ('\u{9236}', [0xE0, 0xC0]), ('\u{9237}', [0xB9, 0x57]), ('\u{9238}', [0xB9, 0x59]), ";
"    ('\u{9239}', [0xB9, 0x65]), ('\u{923A}', [0xE0, 0xB1]), ('\u{923C}', [0xFC, 0xFA]), ";
"    ('\u{923D}', [0xB9, 0x5A]), ('\u{923E}', [0xB9, 0x5C]), ('\u{923F}', [0xB9, 0x66]), ";
"    ('\u{9240}', [0xB9, 0x5B]), ('\u{9241}', [0x90, 0x77]), ('\u{9244}', [0x90, 0xAB]), ";
"    ('\u{9245}', [0xB9, 0x64]), ('\u{9246}', [0xE0, 0xB9]), ('\u{9248}', [0xE0, 0xAE]), ";
"    ('\u{9249}', [0xB9, 0x62]), ('\u{924A}', [0xE0, 0xB8]), ('\u{924B}', [0xB9, 0x5E]), ";
"    ('\u{924C}', [0xE0, 0xCA]), ('\u{924D}', [0xB9, 0x63]), ('\u{924E}', [0xE0, 0xC8]), ";
"    ('\u{924F}', [0xE0, 0xBC]), ('\u{9250}', [0xE0, 0xC6]), ('\u{9251}', [0xB9, 0x60]), ";
"    ('\u{9252}', [0xE0, 0xAF]), ('\u{9253}', [0xE0, 0xC9]), ('\u{9254}', [0xE0, 0xC4]), ";
"    ('\u{9255}', [0x9D, 0x4D]), ('\u{9256}', [0xE0, 0xCB]), ('\u{9257}', [0xB9, 0x58]), ";
"    ('\u{9258}', [0x99, 0xFA]), ('\u{925A}', [0xB9, 0x67]), ('\u{925B}', [0xB9, 0x5D]), ";
"    ('\u{925D}', [0x92, 0xE3]), ('\u{925E}', [0xE0, 0xB5]), ('\u{925F}', [0x97, 0xBB]), ";
"    ('\u{9260}', [0xE0, 0xBD]), ('\u{9261}', [0xE0, 0xC1]), ('\u{9262}', [0x90, 0x78]), ";
"    ('\u{9263}', [0xE0, 0xC5]), ('\u{9264}', [0xB9, 0x5F]), ('\u{9265}', [0xE0, 0xB4]), ";
"    ('\u{9266}', [0xE0, 0xB2]), ('\u{9267}', [0xE0, 0xBE]), ('\u{926B}', [0x99, 0xFB]), ";
"    ('\u{926C}', [0xE0, 0xBB]), ('\u{926D}', [0xE0, 0xBA]), ('\u{926E}', [0x97, 0xE0]), ";
"    ('\u{926F}', [0xE0, 0xBF]), ('\u{9270}', [0xE0, 0xC2]), ('\u{9272}', [0xE0, 0xC7]), ";
"    ('\u{9276}', [0xE4, 0x78]), ('\u{9277}', [0x96, 0xDC]), ('\u{9278}', [0xBB, 0xC7]), ";
"    ('\u{9279}', [0xE4, 0xA4]), ('\u{927A}', [0xE4, 0x7A]), ('\u{927B}', [0xBB, 0xCC]), ";
"    ('\u{927C}', [0xBB, 0xD0]), ('\u{927D}', [0xE4, 0xAD]), ('\u{927E}', [0xE4, 0xB5]), ";
"    ('\u{927F}', [0xE4, 0xA6]), ('\u{9280}', [0xBB, 0xC8]), ('\u{9281}', [0x9C, 0xA8]), ";
"    ('\u{9282}', [0xE4, 0xAA]), ('\u{9283}', [0xE0, 0xB6]), ('\u{9284}', [0x97, 0x72]), ";
"    ('\u{9285}', [0xBB, 0xC9]), ('\u{9286}', [0xE4, 0xB1]), ('\u{9287}', [0xE4, 0xB6]), ";
"    ('\u{9288}', [0xE4, 0xAE]), ('\u{9289}', [0x94, 0x40]), ('\u{928A}', [0xE4, 0xB0]), ";
"    ('\u{928B}', [0xE4, 0xB9]), ('\u{928C}', [0xE4, 0xB2]), ('\u{928D}', [0xE4, 0x7E]), ";
"    ('\u{928E}', [0xE4, 0xA9]), ('\u{928F}', [0x92, 0xF2]), ('\u{9291}', [0xBB, 0xD1]), ";
"    ('\u{9293}', [0xBB, 0xCD]), ('\u{9294}', [0xE4, 0x7C]), ('\u{9295}', [0xE4, 0xAB]), ";
"    ('\u{9296}', [0xBB, 0xCB]), ('\u{9297}', [0xE4, 0xA5]), ('\u{9298}', [0xBB, 0xCA]), ";
"    ('\u{9299}', [0xE4, 0xB3]), ('\u{929A}', [0xE4, 0xA2]), ('\u{929B}', [0xE4, 0x79]), ";
"    ('\u{929C}', [0xBB, 0xCE]), ('\u{929D}', [0xE4, 0xB8]), ('\u{92A0}', [0xE4, 0x7B]), ";
"    ('\u{92A1}', [0xE4, 0xAF]), ('\u{92A2}', [0xE4, 0xAC]), ('\u{92A3}', [0xE4, 0xA7]), ";
"    ('\u{92A4}', [0xE4, 0x77]), ('\u{92A5}', [0xE4, 0x76]), ('\u{92A6}', [0xE4, 0xA1]), ";
"    ('\u{92A7}', [0xE4, 0xB4]), ('\u{92A8}', [0xBB, 0xCF]), ('\u{92A9}', [0xE4, 0xB7]), ";
"    ('\u{92AA}', [0xE4, 0x7D]), ('\u{92AB}', [0xE4, 0xA3]), ('\u{92AC}', [0xBE, 0x52]), ";
"    ('\u{92AE}', [0x99, 0xFD]), ('\u{92B1}', [0x99, 0xFC]), ('\u{92B2}', [0xBE, 0x5A]), ";
"    ('\u{92B3}', [0xBE, 0x55]), ('\u{92B4}', [0xE8, 0xA4]), ('\u{92B5}', [0xE8, 0xA1]), ";
"    ('\u{92B6}', [0xE8, 0x67]), ('\u{92B7}', [0xBE, 0x50]), ('\u{92B9}', [0x90, 0x7A]), ";
"    ('\u{92BA}', [0x96, 0x4A]), ('\u{92BB}', [0xBE, 0x4F]), ('\u{92BC}', [0xBE, 0x56]), ";
"    ('\u{92BE}', [0x96, 0xD8]), ('\u{92BF}', [0x99, 0xFE]), ('\u{92C0}', [0xE8, 0x65]), ";
"    ('\u{92C1}', [0xBE, 0x54]), ('\u{92C2}', [0xE8, 0x71]), ('\u{92C3}', [0xE8, 0x63]), ";
"    ('\u{92C4}', [0xE8, 0x64]), ('\u{92C5}', [0xBE, 0x4E]), ('\u{92C6}', [0xE8, 0xA3]), ";
"    ('\u{92C7}', [0xBE, 0x58]), ('\u{92C8}', [0xE8, 0x74]), ('\u{92C9}', [0xE8, 0x79]), ";
"    ('\u{92CA}', [0xE8, 0x73]), ('\u{92CB}', [0xEB, 0xEE]), ('\u{92CC}', [0xE8, 0x6F]), ";
"    ('\u{92CD}', [0xE8, 0x77]), ('\u{92CE}', [0xE8, 0x75]), ('\u{92CF}', [0xE8, 0x68]), ";
"    ('\u{92D0}', [0xE8, 0x62]), ('\u{92D1}', [0xE8, 0x7D]), ('\u{92D2}', [0xBE, 0x57]), ";
"    ('\u{92D3}', [0xE8, 0x7E]), ('\u{92D4}', [0x90, 0x4B]), ('\u{92D5}', [0xE8, 0x78]), ";
"    ('\u{92D7}', [0xE8, 0x6D]), ('\u{92D8}', [0xE8, 0x6B]), ('\u{92D9}', [0xE8, 0x66]), ";
"    ('\u{92DB}', [0xFA, 0x41]), ('\u{92DD}', [0xE8, 0x6E]), ('\u{92DE}', [0xE8, 0x7B]), ";
"    ('\u{92DF}', [0xE8, 0x6A]), ('\u{92E0}', [0xE8, 0x7A]), ('\u{92E1}', [0xE8, 0xA2]), ";
"    ('\u{92E3}', [0x9A, 0x40]), ('\u{92E4}', [0xBE, 0x53]), ('\u{92E5}', [0x97, 0x5B]), ";
"    ('\u{92E6}', [0xE8, 0x76]), ('\u{92E7}', [0xE8, 0x7C]), ('\u{92E8}', [0xE8, 0x72]), ";
"    ('\u{92E9}', [0xE8, 0x6C]), ('\u{92EA}', [0xBE, 0x51]), ('\u{92EB}', [0x9A, 0x41]), ";
"    ('\u{92EC}', [0x91, 0xDD]), ('\u{92EE}', [0xE4, 0xA8]), ('\u{92EF}', [0xE8, 0x70]), ";
"    ('\u{92F0}', [0xBE, 0x59]), ('\u{92F1}', [0xE8, 0x69]), ('\u{92F2}', [0x93, 0xFC]), ";
"    ('\u{92F3}', [0x9A, 0x42]), ('\u{92F4}', [0x9A, 0x43]), ('\u{92F6}', [0x96, 0x59]), ";
"    ('\u{92F7}', [0xEB, 0xF4]), ('\u{92F8}', [0xBF, 0xF7]), ('\u{92F9}', [0xEB, 0xF3]), ";
"    ('\u{92FA}', [0xEB, 0xF0]), ('\u{92FB}', [0xEC, 0x44]), ('\u{92FC}', [0xBF, 0xFB]), ";
"    ('\u{92FD}', [0x9A, 0x44]), ('\u{92FE}', [0xEC, 0x41]), ('\u{92FF}', [0xEB, 0xF8]), ";
"    ('\u{9300}', [0xEC, 0x43]), ('\u{9301}', [0xEB, 0xE9]), ('\u{9302}', [0xEB, 0xF6]), ";
"    ('\u{9303}', [0x90, 0x51]), ('\u{9304}', [0xBF, 0xFD]), ('\u{9306}', [0xEB, 0xE1]), ";
"    ('\u{9307}', [0x94, 0xBF]), ('\u{9308}', [0xEB, 0xDF]), ('\u{9309}', [0xEC, 0x42]), ";
"    ('\u{930B}', [0xEC, 0x40]), ('\u{930C}', [0xEB, 0xFE]), ('\u{930D}', [0xEB, 0xED]), ";
"    ('\u{930E}', [0xEB, 0xEC]), ('\u{930F}', [0xEB, 0xE2]), ('\u{9310}', [0xC0, 0x40]), ";
"    ('\u{9312}', [0xEB, 0xE8]), ('\u{9313}', [0xEB, 0xF2]), ('\u{9314}', [0xEB, 0xFD]), ";
"    ('\u{9315}', [0xC0, 0x43]), ('\u{9316}', [0xEC, 0x45]), ('\u{9318}', [0xC1, 0xE8]), ";
"    ('\u{9319}', [0xC0, 0x45]), ('\u{931A}', [0xBF, 0xFE]), ('\u{931B}', [0xEB, 0xE6]), ";
"    ('\u{931D}', [0xEB, 0xEF]), ('\u{931E}', [0xEB, 0xDE]), ('\u{931F}', [0xEB, 0xE0]), ";
"    ('\u{9320}', [0xBF, 0xF5]), ('\u{9321}', [0xC0, 0x42]), ('\u{9322}', [0xBF, 0xFA]), ";
"    ('\u{9323}', [0xEB, 0xE7]), ('\u{9324}', [0xEB, 0xF7]), ('\u{9325}', [0xEB, 0xF1]), ";
"    ('\u{9326}', [0xC0, 0x41]), ('\u{9327}', [0xEB, 0xDD]), ('\u{9328}', [0xC1, 0xE3]), ";
"    ('\u{9329}', [0xEB, 0xF9]), ('\u{932A}', [0xEB, 0xFC]), ('\u{932B}', [0xBF, 0xFC]), ";
"    ('\u{932C}', [0x90, 0xA2]), ('\u{932D}', [0xEB, 0xEB]), ('\u{932E}', [0xC0, 0x44]), ";
"    ('\u{932F}', [0xBF, 0xF9]), ('\u{9330}', [0x9C, 0xAB]), ('\u{9331}', [0x97, 0x76]), ";
"    ('\u{9333}', [0xBF, 0xF8]), ('\u{9334}', [0xEB, 0xF5]), ('\u{9335}', [0xEB, 0xFB]), ";
"    ('\u{9336}', [0xBF, 0xF6]), ('\u{9338}', [0xEB, 0xE4]), ('\u{9339}', [0xEB, 0xFA]), ";
"    ('\u{933C}', [0xEB, 0xE5]), ('\u{9340}', [0xFC, 0x55]), ('\u{9341}', [0xFE, 0x45]), ";
"    ('\u{9342}', [0x94, 0xA8]), ('\u{9343}', [0x9A, 0x45]), ('\u{9344}', [0xFA, 0x4B]), ";
"    ('\u{9345}', [0x9D, 0xE1]), ('\u{9346}', [0xEB, 0xEA]), ('\u{9347}', [0xEE, 0xD2]), ";
"    ('\u{9348}', [0x96, 0xD9]), ('\u{9349}', [0xEE, 0xD7]), ('\u{934A}', [0xC1, 0xE5]), ";
"    ('\u{934B}', [0xC1, 0xE7]), ('\u{934C}', [0xEE, 0xDD]), ('\u{934D}', [0xC1, 0xE1]), ";
"    ('\u{934E}', [0xEE, 0xEC]), ('\u{934F}', [0xEE, 0xE3]), ('\u{9350}', [0xEE, 0xD8]), ";
"    ('\u{9351}', [0xEE, 0xD9]), ('\u{9352}', [0xEE, 0xE2]), ('\u{9354}', [0xC1, 0xEE]), ";
"    ('\u{9355}', [0xEE, 0xE1]), ('\u{9356}', [0xEE, 0xD1]), ('\u{9357}', [0xEE, 0xE0]), ";
"    ('\u{9358}', [0xEE, 0xD4]), ('\u{9359}', [0xEE, 0xED]), ('\u{935A}', [0xC1, 0xED]), ";
"    ('\u{935B}', [0xC1, 0xEB]), ('\u{935C}', [0xEE, 0xD5]), ('\u{935E}', [0xEE, 0xE8]), ";
"    ('\u{935F}', [0x97, 0x74]), ('\u{9360}', [0xEE, 0xDA]), ('\u{9361}', [0xEE, 0xE7]), ";
"    ('\u{9362}', [0xFD, 0xF5]), ('\u{9363}', [0xEE, 0xE9]), ('\u{9364}', [0xEE, 0xD0]), ";
"    ('\u{9365}', [0xC1, 0xE6]), ('\u{9366}', [0x92, 0xE5]), ('\u{9367}', [0xEE, 0xEA]), ";
"    ('\u{9368}', [0x96, 0x45]), ('\u{9369}', [0x91, 0xDA]), ('\u{936A}', [0xEE, 0xDE]), ";
"    ('\u{936B}', [0x90, 0xA3]), ('\u{936C}', [0xC1, 0xEA]), ('\u{936D}', [0xEE, 0xDB]), ";
"    ('\u{936E}', [0x92, 0xC8]), ('\u{9370}', [0xC1, 0xEC]), ('\u{9371}', [0xEE, 0xE4]), ";
"    ('\u{9373}', [0x90, 0xAF]), ('\u{9374}', [0x97, 0xBF]), ('\u{9375}', [0xC1, 0xE4]), ";
"    ('\u{9376}', [0xEE, 0xD6]), ('\u{9377}', [0xEE, 0xE5]), ('\u{9378}', [0x91, 0x4C]), ";
"    ('\u{9379}', [0xEE, 0xDF]), ('\u{937A}', [0xEB, 0xE3]), ('\u{937B}', [0xEE, 0xE6]), ";
"    ('\u{937C}', [0xEE, 0xD3]), ('\u{937D}', [0x96, 0x7A]), ('\u{937E}', [0xC1, 0xE9]), ";
"    ('\u{9380}', [0xEE, 0xEB]), ('\u{9381}', [0x91, 0xDE]), ('\u{9382}', [0xC1, 0xE2]), ";
"    ('\u{9383}', [0xEE, 0xCE]), ('\u{9384}', [0x9A, 0x46]), ('\u{9385}', [0xFE, 0xB0]), ";
"    ('\u{9386}', [0x97, 0x79]), ('\u{9387}', [0x94, 0x6C]), ('\u{9388}', [0xF1, 0x60]), ";
"    ('\u{9389}', [0xF1, 0x59]), ('\u{938A}', [0xC2, 0xE9]), ('\u{938C}', [0xF1, 0x54]), ";
"    ('\u{938D}', [0xF1, 0x63]), ('\u{938E}', [0xF1, 0x5B]), ('\u{938F}', [0xEE, 0xDC]), ";
"    ('\u{9390}', [0x98, 0x58]), ('\u{9391}', [0xF1, 0x65]), ('\u{9392}', [0xF1, 0x55]), ";
"    ('\u{9394}', [0xC2, 0xE8]), ('\u{9395}', [0xF1, 0x5F]), ('\u{9396}', [0xC2, 0xEA]), ";
"    ('\u{9397}', [0xC2, 0xF2]), ('\u{9398}', [0xC2, 0xF0]), ('\u{9399}', [0xF1, 0x61]), ";
"    ('\u{939A}', [0xC2, 0xF1]), ('\u{939B}', [0xF1, 0x57]), ('\u{939C}', [0x92, 0x66]), ";
"    ('\u{939D}', [0xF1, 0x58]), ('\u{939E}', [0xF1, 0x5D]), ('\u{939F}', [0xF1, 0x62]), ";
"    ('\u{93A0}', [0x93, 0xFB]), ('\u{93A1}', [0xEE, 0xCD]), ('\u{93A2}', [0xC2, 0xEB]), ";
"    ('\u{93A3}', [0xF1, 0x6A]), ('\u{93A4}', [0xF1, 0x67]), ('\u{93A5}', [0xF1, 0x6B]), ";
"    ('\u{93A6}', [0xF1, 0x5E]), ('\u{93A7}', [0xF1, 0x5A]), ('\u{93A8}', [0xF1, 0x68]), ";
"    ('\u{93A9}', [0xF3, 0x6A]), ('\u{93AA}', [0xF1, 0x5C]), ('\u{93AC}', [0xC2, 0xEE]), ";
"    ('\u{93AD}', [0x9A, 0x47]), ('\u{93AE}', [0xC2, 0xED]), ('\u{93AF}', [0xEE, 0xCF]), ";
"    ('\u{93B0}', [0xC2, 0xEF]), ('\u{93B1}', [0xF1, 0x64]), ('\u{93B2}', [0xF1, 0x66]), ";
"    ('\u{93B3}', [0xC2, 0xEC]), ('\u{93B4}', [0xF1, 0x69]), ('\u{93B5}', [0xF1, 0x53]), ";
"    ('\u{93B7}', [0xF1, 0x56]), ('\u{93B8}', [0x97, 0x49]), ('\u{93BB}', [0x97, 0x48]), ";
"    ('\u{93BD}', [0x93, 0x4A]), ('\u{93BF}', [0x9C, 0xE2]), ('\u{93C0}', [0xF3, 0x73]), ";
"    ('\u{93C2}', [0xF3, 0x63]), ('\u{93C3}', [0xC3, 0xEB]), ('\u{93C4}', [0xF3, 0x71]), ";
"    ('\u{93C6}', [0x92, 0x64]), ('\u{93C7}', [0xF3, 0x61]), ('\u{93C8}', [0xC3, 0xEC]), ";
"    ('\u{93CA}', [0xF3, 0x6C]), ('\u{93CB}', [0x91, 0xDF]), ('\u{93CC}', [0xF3, 0x68]), ";
"    ('\u{93CD}', [0xC3, 0xF1]), ('\u{93CE}', [0xF3, 0x72]), ('\u{93CF}', [0xF3, 0x62]), ";
"    ('\u{93D0}', [0xF3, 0x65]), ('\u{93D1}', [0xC3, 0xE9]), ('\u{93D2}', [0xF3, 0x74]), ";
"    ('\u{93D3}', [0xFB, 0x79]), ('\u{93D4}', [0xF3, 0x6D]), ('\u{93D5}', [0xF3, 0x70]), ";
"    ('\u{93D6}', [0xC3, 0xEF]), ('\u{93D7}', [0xC3, 0xF4]), ('\u{93D8}', [0xC3, 0xF2]), ";
"    ('\u{93D9}', [0xF3, 0x69]), ('\u{93DA}', [0xF3, 0x64]), ('\u{93DB}', [0x96, 0xD7]), ";
"    ('\u{93DC}', [0xC3, 0xED]), ('\u{93DD}', [0xC3, 0xEE]), ('\u{93DE}', [0xF3, 0x60]), ";
"    ('\u{93DF}', [0xC3, 0xEA]), ('\u{93E0}', [0x93, 0x43]), ('\u{93E1}', [0xC3, 0xE8]), ";
"    ('\u{93E2}', [0xC3, 0xF0]), ('\u{93E3}', [0xF3, 0x6F]), ('\u{93E4}', [0xC3, 0xF3]), ";
"    ('\u{93E6}', [0xF3, 0x6B]), ('\u{93E7}', [0xF3, 0x75]), ('\u{93E8}', [0xC3, 0xF5]), ";
"    ('\u{93EC}', [0xF3, 0x67]), ('\u{93EE}', [0xF3, 0x6E]), ('\u{93F0}', [0xFD, 0xCB]), ";
"    ('\u{93F1}', [0xFE, 0x7A]), ('\u{93F3}', [0x91, 0xDB]), ('\u{93F4}', [0x8C, 0x6A]), ";
"    ('\u{93F5}', [0xF4, 0xF3]), ('\u{93F6}', [0xF5, 0x42]), ('\u{93F7}', [0xF4, 0xF5]), ";
"    ('\u{93F8}', [0xF4, 0xFC]), ('\u{93F9}', [0xF3, 0x66]), ('\u{93FA}', [0xF4, 0xFA]), ";
"    ('\u{93FB}', [0xF4, 0xE9]), ('\u{93FC}', [0xF5, 0x40]), ('\u{93FD}', [0xC4, 0xC3]), ";
"    ('\u{93FE}', [0xF4, 0xED]), ('\u{93FF}', [0xF4, 0xFE]), ('\u{9400}', [0xF4, 0xF4]), ";
"    ('\u{9401}', [0x97, 0xAF]), ('\u{9403}', [0xC4, 0xC2]), ('\u{9404}', [0x95, 0xDD]), ";
"    ('\u{9406}', [0xF5, 0x44]), ('\u{9407}', [0xF4, 0xF6]), ('\u{9408}', [0x93, 0x48]), ";
"    ('\u{9409}', [0xF4, 0xFB]), ('\u{940A}', [0xF4, 0xFD]), ('\u{940B}', [0xF4, 0xE7]), ";
"    ('\u{940C}', [0xF5, 0x41]), ('\u{940D}', [0xF4, 0xF2]), ('\u{940E}', [0xF4, 0xF7]), ";
"    ('\u{940F}', [0xF4, 0xEB]), ('\u{9410}', [0xF4, 0xEF]), ('\u{9411}', [0xF5, 0x43]), ";
"    ('\u{9412}', [0xF4, 0xF9]), ('\u{9413}', [0xF4, 0xE8]), ('\u{9414}', [0xF4, 0xEC]), ";
"    ('\u{9415}', [0xF4, 0xEE]), ('\u{9416}', [0xF4, 0xF8]), ('\u{9417}', [0x9A, 0x4B]), ";
"    ('\u{9418}', [0xC4, 0xC1]), ('\u{9419}', [0xF4, 0xF1]), ('\u{941B}', [0xFC, 0x45]), ";
"    ('\u{941D}', [0x9A, 0x4D]), ('\u{9420}', [0xF4, 0xEA]), ('\u{9424}', [0x91, 0xBC]), ";
"    ('\u{9425}', [0x90, 0xE2]), ('\u{9426}', [0x90, 0xB4]), ('\u{9427}', [0x95, 0xE1]), ";
"    ('\u{9428}', [0xF4, 0xF0]), ('\u{9429}', [0xF6, 0x61]), ('\u{942A}', [0xF6, 0x66]), ";
"    ('\u{942B}', [0xC5, 0x4F]), ('\u{942C}', [0xF6, 0x68]), ('\u{942D}', [0x9A, 0x4E]), ";
"    ('\u{942E}', [0xC5, 0x49]), ('\u{942F}', [0x87, 0xAD]), ('\u{9430}', [0xF6, 0x64]), ";
"    ('\u{9431}', [0xF6, 0x6A]), ('\u{9432}', [0xC5, 0x4E]), ('\u{9433}', [0xC5, 0x4A]), ";
"    ('\u{9435}', [0xC5, 0x4B]), ('\u{9436}', [0xF6, 0x60]), ('\u{9437}', [0xF6, 0x67]), ";
"    ('\u{9438}', [0xC5, 0x4D]), ('\u{9439}', [0xF6, 0x65]), ('\u{943A}', [0xC5, 0x4C]), ";
"    ('\u{943B}', [0xF6, 0x5F]), ('\u{943C}', [0xF6, 0x63]), ('\u{943D}', [0xF6, 0x62]), ";
"    ('\u{943E}', [0x9A, 0x4F]), ('\u{943F}', [0xF6, 0x5E]), ('\u{9440}', [0xF6, 0x69]), ";
"    ('\u{9442}', [0xFE, 0x40]), ('\u{9443}', [0xFE, 0x43]), ('\u{9444}', [0xC5, 0xB1]), ";
"    ('\u{9445}', [0xF7, 0x6D]), ('\u{9446}', [0xF7, 0x70]), ('\u{9447}', [0xF7, 0x6C]), "
].
(* /repo/src/generated/whatwg/big5_whatwg_tables.rs.inc:7425-7680 *)
Definition big5_inc_29 : list line := [
"    ('\u{9448}', [0xF7, 0x6E]), ('\u{9449}', [0xF7, 0x6F]), ('\u{944A}', [0xF7, 0x69]), ";
"    ('\u{944B}', [0xF7, 0x6A]), ('\u{944C}', [0xF7, 0x67]), ('\u{944D}', [0x96, 0xDD]), ";
"    ('\u{944F}', [0xF7, 0x6B]), ('\u{9450}', [0xF7, 0x68]), ('\u{9451}', [0xC5, 0xB2]), ";
"    ('\u{9452}', [0xC5, 0xB3]), ('\u{9454}', [0x9A, 0x51]), ('\u{9455}', [0xF8, 0x4B]), ";
"    ('\u{9457}', [0xF8, 0x4D]), ('\u{9458}', [0x96, 0xA7]), ('\u{945B}', [0x90, 0xB0]), ";
"    ('\u{945D}', [0xF8, 0x4C]), ('\u{945E}', [0xF8, 0x4E]), ('\u{9460}', [0xC5, 0xE0]), ";
"    ('\u{9462}', [0xF8, 0x4A]), ('\u{9463}', [0xC5, 0xDF]), ('\u{9464}', [0xC5, 0xE1]), ";
"    ('\u{9465}', [0x9C, 0x4E]), ('\u{9467}', [0x94, 0x43]), ('\u{9468}', [0xF8, 0xCB]), ";
"    ('\u{9469}', [0xF8, 0xCC]), ('\u{946A}', [0xC6, 0x44]), ('\u{946B}', [0xF8, 0xCA]), ";
"    ('\u{946C}', [0x8E, 0xBA]), ('\u{946D}', [0xF9, 0x53]), ('\u{946E}', [0xF9, 0x52]), ";
"    ('\u{946F}', [0xF9, 0x54]), ('\u{9470}', [0xC6, 0x5F]), ('\u{9471}', [0xF9, 0x55]), ";
"    ('\u{9472}', [0xC6, 0x5E]), ('\u{9473}', [0xF9, 0x56]), ('\u{9474}', [0xF9, 0x72]), ";
"    ('\u{9475}', [0xF9, 0x75]), ('\u{9476}', [0xF9, 0x74]), ('\u{9477}', [0xC6, 0x68]), ";
"    ('\u{9478}', [0xF9, 0x73]), ('\u{9479}', [0x9A, 0x52]), ('\u{947B}', [0xFC, 0xC1]), ";
"    ('\u{947C}', [0xC6, 0x72]), ('\u{947D}', [0xC6, 0x70]), ('\u{947E}', [0xC6, 0x71]), ";
"    ('\u{947F}', [0xC6, 0x77]), ('\u{9480}', [0xF9, 0xC0]), ('\u{9481}', [0xF9, 0xC1]), ";
"    ('\u{9482}', [0xF9, 0xBF]), ('\u{9483}', [0xF9, 0xC9]), ('\u{9485}', [0x8B, 0xE9]), ";
"    ('\u{949F}', [0x9C, 0xAF]), ('\u{94A2}', [0x8B, 0xFD]), ('\u{94C1}', [0x9A, 0xBC]), ";
"    ('\u{94C3}', [0x9A, 0xB8]), ('\u{94DC}', [0x9A, 0xAE]), ('\u{94F6}', [0x9A, 0xA7]), ";
"    ('\u{952D}', [0x9A, 0x53]), ('\u{9547}', [0x9D, 0x74]), ('\u{9577}', [0xAA, 0xF8]), ";
"    ('\u{9578}', [0x8B, 0xEA]), ('\u{957A}', [0xD8, 0x44]), ('\u{957B}', [0xDC, 0x78]), ";
"    ('\u{957C}', [0xE8, 0xA5]), ('\u{957D}', [0xF3, 0x76]), ('\u{957F}', [0x8B, 0xEB]), ";
"    ('\u{9580}', [0xAA, 0xF9]), ('\u{9582}', [0xAD, 0xAC]), ('\u{9583}', [0xB0, 0x7B]), ";
"    ('\u{9585}', [0x90, 0xB2]), ('\u{9586}', [0xD8, 0x45]), ('\u{9588}', [0xD8, 0x46]), ";
"    ('\u{9589}', [0xB3, 0xAC]), ('\u{958B}', [0xB6, 0x7D]), ('\u{958C}', [0xDC, 0x7A]), ";
"    ('\u{958D}', [0xDC, 0x79]), ('\u{958E}', [0xB6, 0xA3]), ('\u{958F}', [0xB6, 0x7C]), ";
"    ('\u{9590}', [0xDC, 0x7B]), ('\u{9591}', [0xB6, 0x7E]), ('\u{9592}', [0xB6, 0xA2]), ";
"    ('\u{9593}', [0xB6, 0xA1]), ('\u{9594}', [0xB6, 0x7B]), ('\u{9596}', [0x95, 0xE9]), ";
"    ('\u{9597}', [0x95, 0xE8]), ('\u{9598}', [0xB9, 0x68]), ('\u{9599}', [0x95, 0xE6]), ";
"    ('\u{959B}', [0xE0, 0xD0]), ('\u{959C}', [0xE0, 0xCE]), ('\u{959E}', [0xE0, 0xCF]), ";
"    ('\u{959F}', [0xE0, 0xCD]), ('\u{95A0}', [0x90, 0xB5]), ('\u{95A1}', [0xBB, 0xD2]), ";
"    ('\u{95A2}', [0x9A, 0x54]), ('\u{95A3}', [0xBB, 0xD5]), ('\u{95A4}', [0xBB, 0xD7]), ";
"    ('\u{95A5}', [0xBB, 0xD6]), ('\u{95A6}', [0x90, 0xB3]), ('\u{95A7}', [0x95, 0xE7]), ";
"    ('\u{95A8}', [0xBB, 0xD3]), ('\u{95A9}', [0xBB, 0xD4]), ('\u{95AA}', [0x8B, 0x50]), ";
"    ('\u{95AB}', [0xE8, 0xA7]), ('\u{95AC}', [0xE8, 0xA6]), ('\u{95AD}', [0xBE, 0x5B]), ";
"    ('\u{95AE}', [0xE8, 0xA8]), ('\u{95B0}', [0xE8, 0xA9]), ('\u{95B1}', [0xBE, 0x5C]), ";
"    ('\u{95B5}', [0xEC, 0x4D]), ('\u{95B6}', [0xEC, 0x4B]), ('\u{95B7}', [0xEE, 0xF3]), ";
"    ('\u{95B9}', [0xEC, 0x49]), ('\u{95BA}', [0xEC, 0x4A]), ('\u{95BB}', [0xC0, 0x46]), ";
"    ('\u{95BC}', [0xEC, 0x46]), ('\u{95BD}', [0xEC, 0x4E]), ('\u{95BE}', [0xEC, 0x48]), ";
"    ('\u{95BF}', [0xEC, 0x4C]), ('\u{95C0}', [0xEE, 0xEF]), ('\u{95C3}', [0xEE, 0xF1]), ";
"    ('\u{95C5}', [0xEE, 0xF2]), ('\u{95C6}', [0xC1, 0xF3]), ('\u{95C7}', [0xEE, 0xEE]), ";
"    ('\u{95C8}', [0xC1, 0xF2]), ('\u{95C9}', [0xEE, 0xF0]), ('\u{95CA}', [0xC1, 0xEF]), ";
"    ('\u{95CB}', [0xC1, 0xF0]), ('\u{95CC}', [0xC1, 0xF1]), ('\u{95CD}', [0xEC, 0x47]), ";
"    ('\u{95D0}', [0xC2, 0xF5]), ('\u{95D1}', [0xF1, 0x6E]), ('\u{95D2}', [0xF1, 0x6C]), ";
"    ('\u{95D3}', [0xF1, 0x6D]), ('\u{95D4}', [0xC2, 0xF3]), ('\u{95D5}', [0xC2, 0xF6]), ";
"    ('\u{95D6}', [0xC2, 0xF4]), ('\u{95DA}', [0xF3, 0x77]), ('\u{95DB}', [0xF3, 0x78]), ";
"    ('\u{95DC}', [0xC3, 0xF6]), ('\u{95DE}', [0xF5, 0x45]), ('\u{95DF}', [0xF5, 0x47]), ";
"    ('\u{95E0}', [0xF5, 0x46]), ('\u{95E1}', [0xC4, 0xC4]), ('\u{95E2}', [0xC5, 0x50]), ";
"    ('\u{95E3}', [0xF6, 0x6D]), ('\u{95E4}', [0xF6, 0x6C]), ('\u{95E5}', [0xF6, 0x6B]), ";
"    ('\u{95E8}', [0x8B, 0xEC]), ('\u{95F4}', [0x9A, 0x56]), ('\u{961C}', [0xAA, 0xFA]), ";
"    ('\u{961D}', [0x8B, 0xFB]), ('\u{961E}', [0xC9, 0xAA]), ('\u{9620}', [0xCA, 0x58]), ";
"    ('\u{9621}', [0xA6, 0xE9]), ('\u{9622}', [0xCA, 0x56]), ('\u{9623}', [0xCA, 0x59]), ";
"    ('\u{9624}', [0xCA, 0x57]), ('\u{9628}', [0xCB, 0xAE]), ('\u{962A}', [0xA8, 0xC1]), ";
"    ('\u{962C}', [0xA8, 0xC2]), ('\u{962D}', [0xCB, 0xB0]), ('\u{962E}', [0xA8, 0xBF]), ";
"    ('\u{962F}', [0xCB, 0xAF]), ('\u{9630}', [0xCB, 0xAD]), ('\u{9631}', [0xA8, 0xC0]), ";
"    ('\u{9632}', [0xA8, 0xBE]), ('\u{9633}', [0x9A, 0x57]), ('\u{9638}', [0xA0, 0xAA]), ";
"    ('\u{9639}', [0xCD, 0xD8]), ('\u{963A}', [0xCD, 0xDB]), ('\u{963B}', [0xAA, 0xFD]), ";
"    ('\u{963C}', [0xCD, 0xDA]), ('\u{963D}', [0xCD, 0xD9]), ('\u{963F}', [0xAA, 0xFC]), ";
"    ('\u{9640}', [0xAA, 0xFB]), ('\u{9641}', [0x9F, 0xA6]), ('\u{9642}', [0xAB, 0x40]), ";
"    ('\u{9643}', [0xCD, 0xDC]), ('\u{9644}', [0xAA, 0xFE]), ('\u{9645}', [0x99, 0xCC]), ";
"    ('\u{964A}', [0xD0, 0xC6]), ('\u{964B}', [0xAD, 0xAE]), ('\u{964C}', [0xAD, 0xAF]), ";
"    ('\u{964D}', [0xAD, 0xB0]), ('\u{964E}', [0xD0, 0xC7]), ('\u{964F}', [0xD0, 0xC3]), ";
"    ('\u{9650}', [0xAD, 0xAD]), ('\u{9651}', [0xD0, 0xC4]), ('\u{9653}', [0xD0, 0xC5]), ";
"    ('\u{9654}', [0xD0, 0xC2]), ('\u{9656}', [0x9C, 0x59]), ('\u{9658}', [0xB0, 0xA4]), ";
"    ('\u{965B}', [0xB0, 0xA1]), ('\u{965C}', [0xD4, 0x45]), ('\u{965D}', [0xB0, 0xA2]), ";
"    ('\u{965E}', [0xB0, 0xA5]), ('\u{965F}', [0xD4, 0x46]), ('\u{9661}', [0xB0, 0x7E]), ";
"    ('\u{9662}', [0xB0, 0x7C]), ('\u{9663}', [0xB0, 0x7D]), ('\u{9664}', [0xB0, 0xA3]), ";
"    ('\u{9669}', [0x99, 0xB5]), ('\u{966A}', [0xB3, 0xAD]), ('\u{966B}', [0xD8, 0x49]), ";
"    ('\u{966C}', [0xB3, 0xB5]), ('\u{966D}', [0xD8, 0x48]), ('\u{966F}', [0xD8, 0x4B]), ";
"    ('\u{9670}', [0xB3, 0xB1]), ('\u{9671}', [0xD8, 0x4A]), ('\u{9672}', [0xB6, 0xAB]), ";
"    ('\u{9673}', [0xB3, 0xAF]), ('\u{9674}', [0xB3, 0xB2]), ('\u{9675}', [0xB3, 0xAE]), ";
"    ('\u{9676}', [0xB3, 0xB3]), ('\u{9677}', [0xB3, 0xB4]), ('\u{9678}', [0xB3, 0xB0]), ";
"    ('\u{967B}', [0x90, 0xBE]), ('\u{967C}', [0xD8, 0x47]), ('\u{967D}', [0xB6, 0xA7]), ";
"    ('\u{967E}', [0xDC, 0x7D]), ('\u{9680}', [0xDC, 0xA3]), ('\u{9681}', [0x9F, 0xAF]), ";
"    ('\u{9683}', [0xDC, 0xA2]), ('\u{9684}', [0xB6, 0xAC]), ('\u{9685}', [0xB6, 0xA8]), ";
"    ('\u{9686}', [0xB6, 0xA9]), ('\u{9687}', [0xDC, 0x7C]), ('\u{9688}', [0xDC, 0x7E]), ";
"    ('\u{9689}', [0xDC, 0xA1]), ('\u{968A}', [0xB6, 0xA4]), ('\u{968B}', [0xB6, 0xA6]), ";
"    ('\u{968D}', [0xB6, 0xAA]), ('\u{968E}', [0xB6, 0xA5]), ('\u{968F}', [0x95, 0xF2]), ";
"    ('\u{9691}', [0xE0, 0xD3]), ('\u{9692}', [0xE0, 0xD1]), ('\u{9693}', [0xE0, 0xD2]), ";
"    ('\u{9694}', [0xB9, 0x6A]), ('\u{9695}', [0xB9, 0x6B]), ('\u{9696}', [0x90, 0xBF]), ";
"    ('\u{9697}', [0xE0, 0xD4]), ('\u{9698}', [0xB9, 0x69]), ('\u{9699}', [0xBB, 0xD8]), ";
"    ('\u{969B}', [0xBB, 0xDA]), ('\u{969C}', [0xBB, 0xD9]), ('\u{969E}', [0xE4, 0xBB]), ";
"    ('\u{96A1}', [0xE4, 0xBC]), ('\u{96A2}', [0xE8, 0xAB]), ('\u{96A3}', [0x90, 0xC1]), ";
"    ('\u{96A4}', [0xE8, 0xAA]), ('\u{96A5}', [0xFE, 0xE4]), ('\u{96A7}', [0xC0, 0x47]), ";
"    ('\u{96A8}', [0xC0, 0x48]), ('\u{96A9}', [0xEC, 0x4F]), ('\u{96AA}', [0xC0, 0x49]), ";
"    ('\u{96AC}', [0xEE, 0xF6]), ('\u{96AE}', [0xEE, 0xF4]), ('\u{96B0}', [0xEE, 0xF5]), ";
"    ('\u{96B1}', [0xC1, 0xF4]), ('\u{96B3}', [0xF1, 0x6F]), ('\u{96B4}', [0xC3, 0xF7]), ";
"    ('\u{96B6}', [0x90, 0xC4]), ('\u{96B8}', [0xC1, 0xF5]), ('\u{96B9}', [0xAB, 0x41]), ";
"    ('\u{96BB}', [0xB0, 0xA6]), ('\u{96BC}', [0xD4, 0x47]), ('\u{96BD}', [0x90, 0xC7]), ";
"    ('\u{96BF}', [0xD8, 0x4C]), ('\u{96C0}', [0xB3, 0xB6]), ('\u{96C1}', [0xB6, 0xAD]), ";
"    ('\u{96C2}', [0xDC, 0xA4]), ('\u{96C3}', [0xDC, 0xA6]), ('\u{96C4}', [0xB6, 0xAF]), ";
"    ('\u{96C5}', [0xB6, 0xAE]), ('\u{96C6}', [0xB6, 0xB0]), ('\u{96C7}', [0xB6, 0xB1]), ";
"    ('\u{96C8}', [0xDC, 0xA5]), ('\u{96C9}', [0xB9, 0x6E]), ('\u{96CA}', [0xB9, 0x6F]), ";
"    ('\u{96CB}', [0xB9, 0x6D]), ('\u{96CC}', [0xBB, 0xDB]), ('\u{96CD}', [0xB9, 0x6C]), ";
"    ('\u{96CE}', [0xE0, 0xD5]), ('\u{96D2}', [0xBB, 0xDC]), ('\u{96D3}', [0xE8, 0xAC]), ";
"    ('\u{96D4}', [0xEC, 0x50]), ('\u{96D5}', [0xC0, 0x4A]), ('\u{96D6}', [0xC1, 0xF6]), ";
"    ('\u{96D7}', [0xF1, 0x70]), ('\u{96D8}', [0xF1, 0x74]), ('\u{96D9}', [0xC2, 0xF9]), ";
"    ('\u{96DA}', [0xF1, 0x71]), ('\u{96DB}', [0xC2, 0xFA]), ('\u{96DC}', [0xC2, 0xF8]), ";
"    ('\u{96DD}', [0xF1, 0x75]), ('\u{96DE}', [0xC2, 0xFB]), ('\u{96DF}', [0xF1, 0x73]), ";
"    ('\u{96E1}', [0xF3, 0x79]), ('\u{96E2}', [0xC2, 0xF7]), ('\u{96E3}', [0xC3, 0xF8]), ";
"    ('\u{96E5}', [0xF8, 0xCD]), ('\u{96E8}', [0xAB, 0x42]), ('\u{96E9}', [0xB3, 0xB8]), ";
"    ('\u{96EA}', [0xB3, 0xB7]), ('\u{96EF}', [0xB6, 0xB2]), ('\u{96F0}', [0xDC, 0xA8]), ";
"    ('\u{96F1}', [0xDC, 0xA7]), ('\u{96F2}', [0xB6, 0xB3]), ('\u{96F4}', [0x92, 0xE4]), ";
"    ('\u{96F5}', [0xE0, 0xD9]), ('\u{96F6}', [0xB9, 0x73]), ('\u{96F7}', [0xB9, 0x70]), ";
"    ('\u{96F8}', [0xE0, 0xD8]), ('\u{96F9}', [0xB9, 0x72]), ('\u{96FA}', [0xE0, 0xD6]), ";
"    ('\u{96FB}', [0xB9, 0x71]), ('\u{96FD}', [0xE0, 0xD7]), ('\u{96FF}', [0xE4, 0xBD]), ";
"    ('\u{9700}', [0xBB, 0xDD]), ('\u{9702}', [0xE8, 0xAF]), ('\u{9703}', [0x9F, 0x52]), ";
"    ('\u{9704}', [0xBE, 0x5D]), ('\u{9705}', [0xE8, 0xAD]), ('\u{9706}', [0xBE, 0x5E]), ";
"    ('\u{9707}', [0xBE, 0x5F]), ('\u{9708}', [0xE8, 0xAE]), ('\u{9709}', [0xBE, 0x60]), ";
"    ('\u{970B}', [0xEC, 0x51]), ('\u{970D}', [0xC0, 0x4E]), ('\u{970E}', [0xC0, 0x4B]), ";
"    ('\u{970F}', [0xC0, 0x50]), ('\u{9710}', [0xEC, 0x53]), ('\u{9711}', [0xC0, 0x4C]), ";
"    ('\u{9712}', [0xEC, 0x52]), ('\u{9713}', [0xC0, 0x4F]), ('\u{9716}', [0xC0, 0x4D]), ";
"    ('\u{9718}', [0xEE, 0xF9]), ('\u{9719}', [0xEE, 0xFB]), ('\u{971B}', [0x90, 0xDB]), ";
"    ('\u{971C}', [0xC1, 0xF7]), ('\u{971D}', [0xEE, 0xFA]), ('\u{971E}', [0xC1, 0xF8]), ";
"    ('\u{971F}', [0xEE, 0xF8]), ('\u{9720}', [0xEE, 0xF7]), ('\u{9721}', [0xA0, 0x66]), ";
"    ('\u{9722}', [0xF1, 0x77]), ('\u{9723}', [0xF1, 0x76]), ('\u{9724}', [0xC2, 0xFC]), ";
"    ('\u{9725}', [0xF1, 0x78]), ('\u{9726}', [0xF3, 0x7E]), ('\u{9727}', [0xC3, 0xFA]), ";
"    ('\u{9728}', [0xF3, 0x7D]), ('\u{9729}', [0xF3, 0x7A]), ('\u{972A}', [0xC3, 0xF9]), ";
"    ('\u{972B}', [0xF3, 0x7B]), ('\u{972C}', [0xF3, 0x7C]), ('\u{972E}', [0xF5, 0x48]), ";
"    ('\u{972F}', [0xF5, 0x49]), ('\u{9730}', [0xC4, 0xC5]), ('\u{9731}', [0x90, 0xD2]), ";
"    ('\u{9732}', [0xC5, 0x53]), ('\u{9734}', [0x87, 0x6B]), ('\u{9735}', [0xF6, 0x6E]), ";
"    ('\u{9736}', [0x90, 0xD4]), ('\u{9738}', [0xC5, 0x51]), ('\u{9739}', [0xC5, 0x52]), ";
"    ('\u{973A}', [0xF6, 0x6F]), ('\u{973D}', [0xC5, 0xB4]), ('\u{973E}', [0xC5, 0xB5]), ";
"    ('\u{973F}', [0xF7, 0x71]), ('\u{9740}', [0x9A, 0x5B]), ('\u{9741}', [0x95, 0xFD]), ";
"    ('\u{9742}', [0xC6, 0x45]), ('\u{9743}', [0xF8, 0xCF]), ('\u{9744}', [0xC6, 0x47]), ";
"    ('\u{9746}', [0xF8, 0xCE]), ('\u{9747}', [0xF8, 0xD0]), ('\u{9748}', [0xC6, 0x46]), ";
"    ('\u{9749}', [0xF9, 0x57]), ('\u{974A}', [0x87, 0xB1]), ('\u{974B}', [0xF9, 0xAD]), ";
"    ('\u{9751}', [0x8B, 0xC4]), ('\u{9752}', [0xAB, 0x43]), ('\u{9755}', [0x8C, 0x66]), ";
"    ('\u{9756}', [0xB9, 0x74]), ('\u{9757}', [0x90, 0xDE]), ('\u{9758}', [0xE4, 0xBE]), ";
"    ('\u{975A}', [0xE8, 0xB0]), ('\u{975B}', [0xC0, 0x51]), ('\u{975C}', [0x90, 0xDC]), ";
"    ('\u{975D}', [0x96, 0x44]), ('\u{975E}', [0xAB, 0x44]), ('\u{975F}', [0x90, 0xE1]), ";
"    ('\u{9760}', [0xBE, 0x61]), ('\u{9761}', [0xC3, 0xFB]), ('\u{9762}', [0xAD, 0xB1]), ";
"    ('\u{9766}', [0xC0, 0x53]), ('\u{9768}', [0xC5, 0xE2]), ('\u{9769}', [0xAD, 0xB2]), ";
"    ('\u{976A}', [0xD8, 0x4D]), ('\u{976C}', [0xDC, 0xA9]), ('\u{976D}', [0x9E, 0x46]), ";
"    ('\u{976E}', [0xDC, 0xAB]), ('\u{9770}', [0xDC, 0xAA]), ('\u{9771}', [0x96, 0x51]), ";
"    ('\u{9772}', [0xE0, 0xDD]), ('\u{9773}', [0xE0, 0xDA]), ('\u{9774}', [0xB9, 0x75]), ";
"    ('\u{9776}', [0xB9, 0x76]), ('\u{9777}', [0xE0, 0xDB]), ('\u{9778}', [0xE0, 0xDC]), ";
"    ('\u{977A}', [0xE4, 0xC0]), ('\u{977B}', [0xE4, 0xC5]), ('\u{977C}', [0xBB, 0xDE]), ";
"    ('\u{977D}', [0xE4, 0xBF]), ('\u{977E}', [0xE4, 0xC1]), ('\u{977F}', [0xE4, 0xC8]), ";
"    ('\u{9780}', [0xE4, 0xC3]), ('\u{9781}', [0xE4, 0xC7]), ('\u{9782}', [0xE4, 0xC4]), ";
"    ('\u{9783}', [0xE4, 0xC2]), ('\u{9784}', [0xE4, 0xC6]), ('\u{9785}', [0xBB, 0xDF]), ";
"    ('\u{9787}', [0xFB, 0x58]), ('\u{9788}', [0xE8, 0xB3]), ('\u{9789}', [0x90, 0xE6]), ";
"    ('\u{978A}', [0xE8, 0xB1]), ('\u{978B}', [0xBE, 0x63]), ('\u{978D}', [0xBE, 0x62]), ";
"    ('\u{978E}', [0xE8, 0xB2]), ('\u{978F}', [0xBE, 0x64]), ('\u{9794}', [0xEC, 0x56]), ";
"    ('\u{9797}', [0xEC, 0x55]), ('\u{9798}', [0xC0, 0x54]), ('\u{9799}', [0xEC, 0x54]), ";
"    ('\u{979A}', [0xEE, 0xFC]), ('\u{979B}', [0x96, 0x50]), ('\u{979C}', [0xEE, 0xFE]), ";
"    ('\u{979D}', [0xEF, 0x41]), ('\u{979E}', [0xEF, 0x40]), ('\u{979F}', [0x90, 0xE7]), ";
"    ('\u{97A0}', [0xC1, 0xF9]), ('\u{97A1}', [0xEE, 0xFD]), ('\u{97A2}', [0xF1, 0xA1]), ";
"    ('\u{97A3}', [0xC2, 0xFD]), ('\u{97A4}', [0xF1, 0x7D]), ('\u{97A5}', [0xF1, 0xA2]), ";
"    ('\u{97A6}', [0xC2, 0xFE]), ('\u{97A8}', [0xF1, 0x7B]), ('\u{97AA}', [0xF1, 0x7E]), ";
"    ('\u{97AB}', [0xF1, 0x7C]), ('\u{97AC}', [0xF1, 0x79]), ('\u{97AD}', [0xC3, 0x40]), ";
"    ('\u{97AE}', [0xF1, 0x7A]), ('\u{97B1}', [0x90, 0xE8]), ('\u{97B2}', [0x9A, 0x5D]), ";
"    ('\u{97B3}', [0xF3, 0xA1]), ('\u{97B4}', [0x9F, 0x7A]), ('\u{97B6}', [0xF3, 0xA3]), ";
"    ('\u{97B7}', [0xF3, 0xA2]), ('\u{97B8}', [0x9B, 0x5C]), ('\u{97B9}', [0xF5, 0x4A]), ";
"    ('\u{97BA}', [0x9F, 0x7C]), ('\u{97BB}', [0xF5, 0x4B]), ('\u{97BD}', [0xFC, 0x52]), ";
"    ('\u{97BE}', [0x90, 0xE9]), ('\u{97BF}', [0xF6, 0x70]), ('\u{97C0}', [0x90, 0xEA]), ";
"    ('\u{97C1}', [0xC5, 0xB7]), ('\u{97C2}', [0x9A, 0x5E]), ('\u{97C3}', [0xC5, 0xB6]), ";
"    ('\u{97C4}', [0xF8, 0x4F]), ('\u{97C5}', [0xF8, 0x50]), ('\u{97C6}', [0xC6, 0x48]), ";
"    ('\u{97C7}', [0xF8, 0xD1]), ('\u{97C8}', [0x9F, 0x76]), ('\u{97C9}', [0xC6, 0x69]), ";
"    ('\u{97CB}', [0xAD, 0xB3]), ('\u{97CC}', [0xB6, 0xB4]), ('\u{97CD}', [0xE4, 0xCA]), ";
"    ('\u{97CE}', [0xE4, 0xC9]), ('\u{97CF}', [0xE8, 0xB5]), ('\u{97D0}', [0xE8, 0xB4]), ";
"    ('\u{97D2}', [0x90, 0xEB]), ('\u{97D3}', [0xC1, 0xFA]), ('\u{97D4}', [0xEF, 0x43]), ";
"    ('\u{97D5}', [0xEF, 0x42]), ('\u{97D6}', [0xF1, 0xA5]), ('\u{97D7}', [0xF1, 0xA3]), ";
"    ('\u{97D8}', [0xF1, 0xA6]), ('\u{97D9}', [0xF1, 0xA4]), ('\u{97DC}', [0xC3, 0xFC]), ";
"    ('\u{97DD}', [0xF3, 0xA4]), ('\u{97DE}', [0xF3, 0xA5]), ('\u{97DF}', [0xF3, 0xA6]), ";
"    ('\u{97E0}', [0x90, 0xEC]), ('\u{97E1}', [0xF6, 0x71]), ('\u{97E3}', [0xF7, 0x72]), ";
"    ('\u{97E5}', [0xF8, 0xD2]), ('\u{97E6}', [0x8B, 0xEE]), ('\u{97ED}', [0xAD, 0xB4]), ";
"    ('\u{97EE}', [0x90, 0xEE]), ('\u{97F0}', [0xEC, 0x57]), ('\u{97F1}', [0xEF, 0x44]), ";
"    ('\u{97F2}', [0x91, 0xC6]), ('\u{97F3}', [0xAD, 0xB5]), ('\u{97F5}', [0x90, 0xF2]), ";
"    ('\u{97F6}', [0xBB, 0xE0]), ('\u{97F8}', [0xEC, 0x58]), ('\u{97F9}', [0xC3, 0x41]), ";
"    ('\u{97FA}', [0xF1, 0xA7]), ('\u{97FB}', [0xC3, 0xFD]), ('\u{97FD}', [0xF5, 0x4C]), ";
"    ('\u{97FE}', [0xF5, 0x4D]), ('\u{97FF}', [0x90, 0xF1]), ('\u{9800}', [0xF8, 0x51]), ";
"    ('\u{9801}', [0xAD, 0xB6]), ('\u{9802}', [0xB3, 0xBB]), ('\u{9803}', [0xB3, 0xBC]), ";
"    ('\u{9804}', [0xD8, 0x4E]), ('\u{9805}', [0xB6, 0xB5]), ('\u{9806}', [0xB6, 0xB6]), ";
"    ('\u{9807}', [0xDC, 0xAC]), ('\u{9808}', [0xB6, 0xB7]), ('\u{980A}', [0xB9, 0x7A]), ";
"    ('\u{980C}', [0xB9, 0x7C]), ('\u{980D}', [0xE0, 0xDF]), ('\u{980E}', [0xE0, 0xE0]), ";
"    ('\u{980F}', [0xE0, 0xDE]), ('\u{9810}', [0xB9, 0x77]), ('\u{9811}', [0xB9, 0x78]), ";
"    ('\u{9812}', [0xB9, 0x7B]), ('\u{9813}', [0xB9, 0x79]), ('\u{9814}', [0xFC, 0xBC]), ";
"    ('\u{9815}', [0x8A, 0x74]), ('\u{9816}', [0xE4, 0xCB]), ('\u{9817}', [0xBB, 0xE1]), ";
"    ('\u{9818}', [0xBB, 0xE2]), ('\u{981B}', [0xE8, 0xBC]), ('\u{981C}', [0xBE, 0x67]), ";
"    ('\u{981D}', [0xE8, 0xB7]), ('\u{981E}', [0xE8, 0xB6]), ('\u{981F}', [0x96, 0x57]), ";
"    ('\u{9820}', [0xE8, 0xBB]), ('\u{9821}', [0xBE, 0x65]), ('\u{9823}', [0x9C, 0xEF]), ";
"    ('\u{9824}', [0xC0, 0x5B]), ('\u{9826}', [0xE8, 0xB8]), ('\u{9827}', [0xE8, 0xBD]), ";
"    ('\u{9828}', [0xE8, 0xBA]), ('\u{9829}', [0xE8, 0xB9]), ('\u{982B}', [0xBE, 0x66]), ";
"    ('\u{982D}', [0xC0, 0x59]), ('\u{982E}', [0x9F, 0xDF]), ('\u{982F}', [0xEC, 0x5A]), ";
"    ('\u{9830}', [0xC0, 0x55]), ('\u{9832}', [0xEC, 0x5B]), ('\u{9833}', [0x90, 0xF7]), ";
"    ('\u{9834}', [0x90, 0xF6]), ('\u{9835}', [0xEC, 0x59]), ('\u{9837}', [0xC0, 0x58]), ";
"    ('\u{9838}', [0xC0, 0x56]), ('\u{9839}', [0xC0, 0x5A]), ('\u{983B}', [0xC0, 0x57]), ";
"    ('\u{9841}', [0xEF, 0x45]), ('\u{9843}', [0xEF, 0x4A]), ('\u{9844}', [0xEF, 0x46]), ";
"    ('\u{9845}', [0xEF, 0x49]), ('\u{9846}', [0xC1, 0xFB]), ('\u{9847}', [0x9B, 0x5E]), ";
"    ('\u{9848}', [0xED, 0xD4]), ('\u{9849}', [0xEF, 0x48]), ('\u{984A}', [0xEF, 0x47]), ";
"    ('\u{984B}', [0x90, 0xF8]), ('\u{984C}', [0xC3, 0x44]), ('\u{984D}', [0xC3, 0x42]), ";
"    ('\u{984E}', [0xC3, 0x45]), ('\u{984F}', [0xC3, 0x43]), ('\u{9850}', [0xF1, 0xA8]), ";
"    ('\u{9851}', [0xF1, 0xA9]), ('\u{9852}', [0xF1, 0xAA]), ('\u{9853}', [0xC3, 0x46]), ";
"    ('\u{9856}', [0x8C, 0xFC]), ('\u{9857}', [0xF3, 0xAA]), ('\u{9858}', [0xC4, 0x40]), ";
"    ('\u{9859}', [0xF3, 0xA8]), ('\u{985B}', [0xC4, 0x41]), ('\u{985C}', [0xF3, 0xA7]), ";
"    ('\u{985D}', [0xF3, 0xA9]), ('\u{985E}', [0xC3, 0xFE]), ('\u{985F}', [0xF5, 0x51]), ";
"    ('\u{9860}', [0xF5, 0x4E]), ('\u{9862}', [0xF5, 0x4F]), ('\u{9863}', [0xF5, 0x50]), ";
"    ('\u{9864}', [0xF6, 0x72]), ('\u{9865}', [0xC5, 0x56]), ('\u{9866}', [0x90, 0xF9]), ";
"    ('\u{9867}', [0xC5, 0x55]), ('\u{9868}', [0x8C, 0xC9]), ('\u{9869}', [0xF7, 0x74]), ";
"    ('\u{986A}', [0xF7, 0x73]), ('\u{986B}', [0xC5, 0xB8]), ('\u{986C}', [0xFA, 0x6A]), ";
"    ('\u{986F}', [0xC5, 0xE3]), ('\u{9870}', [0xC6, 0x49]), ('\u{9871}', [0xC6, 0x60]), ";
"    ('\u{9872}', [0xF9, 0x58]), ('\u{9873}', [0xF9, 0xAE]), ('\u{9874}', [0xF9, 0xAF]), ";
"    ('\u{9875}', [0x8B, 0xEF]), ('\u{98A8}', [0xAD, 0xB7]), ('\u{98A9}', [0xDC, 0xAD]), ";
"    ('\u{98AC}', [0xE0, 0xE1]), ('\u{98AD}', [0xE4, 0xCC]), ('\u{98AE}', [0xE4, 0xCD]), ";
"    ('\u{98AF}', [0xBB, 0xE3]), ('\u{98B1}', [0xBB, 0xE4]), ('\u{98B2}', [0xE8, 0xBE]), ";
"    ('\u{98B3}', [0xBE, 0x68]), ('\u{98B4}', [0x9F, 0xE0]), ('\u{98B6}', [0xC1, 0xFC]), ";
"    ('\u{98B7}', [0x91, 0x42]), ('\u{98B8}', [0xF1, 0xAB]), ('\u{98B9}', [0x9A, 0x62]), ";
"    ('\u{98BA}', [0xC3, 0x47]), ('\u{98BB}', [0xF3, 0xAD]), ('\u{98BC}', [0xC4, 0x42]), ";
"    ('\u{98BD}', [0xF3, 0xAC]), ('\u{98BE}', [0xF3, 0xAE]), ('\u{98BF}', [0xF3, 0xAB]), ";
"    ('\u{98C0}', [0xF6, 0x75]), ('\u{98C1}', [0xF5, 0x52]), ('\u{98C2}', [0xF5, 0x53]), ";
"    ('\u{98C3}', [0x95, 0x69]), ('\u{98C4}', [0xC4, 0xC6]), ('\u{98C6}', [0xF6, 0x74]), ";
"    ('\u{98C7}', [0x91, 0x44]), ('\u{98C8}', [0x91, 0x43]), ('\u{98C9}', [0xF6, 0x73]), ";
"    ('\u{98CA}', [0x91, 0x41]), ('\u{98CB}', [0xF7, 0x75]), ('\u{98CC}', [0xF9, 0xB0]), ";
"    ('\u{98CE}', [0x8B, 0xF0]), ('\u{98DB}', [0xAD, 0xB8]), ('\u{98DC}', [0x96, 0x60]), ";
"    ('\u{98DE}', [0x8B, 0xF1]), ('\u{98DF}', [0xAD, 0xB9]), ('\u{98E0}', [0x99, 0xF6]), ";
"    ('\u{98E1}', [0x91, 0x49]), ('\u{98E2}', [0xB0, 0xA7]), ('\u{98E3}', [0xD4, 0x48]), ";
"    ('\u{98E5}', [0xD8, 0x4F]), ('\u{98E6}', [0x91, 0x4A]), ('\u{98E7}', [0xB6, 0xB8]), ";
"    ('\u{98E9}', [0xB6, 0xBB]), ('\u{98EA}', [0xB6, 0xB9]), ('\u{98EB}', [0xDC, 0xAE]), ";
"    ('\u{98EC}', [0x91, 0x4B]), ('\u{98ED}', [0xB6, 0xBD]), ('\u{98EF}', [0xB6, 0xBA]), ";
"    ('\u{98F1}', [0x9A, 0x64]), ('\u{98F2}', [0xB6, 0xBC]), ('\u{98F4}', [0xB9, 0x7E]), ";
"    ('\u{98F5}', [0x8A, 0xBF]), ('\u{98F6}', [0xE0, 0xE2]), ('\u{98F9}', [0xE0, 0xE3]), ";
"    ('\u{98FA}', [0xE8, 0xC0]), ('\u{98FC}', [0xB9, 0x7D]), ('\u{98FD}', [0xB9, 0xA1]), ";
"    ('\u{98FE}', [0xB9, 0xA2]), ('\u{9900}', [0xE4, 0xCF]), ('\u{9902}', [0xE4, 0xCE]), ";
"    ('\u{9903}', [0xBB, 0xE5]), ('\u{9905}', [0xBB, 0xE6]), ('\u{9907}', [0xE4, 0xD0]), ";
"    ('\u{9908}', [0xE8, 0xBF]), ('\u{9909}', [0xBB, 0xE8]), ('\u{990A}', [0xBE, 0x69]), ";
"    ('\u{990C}', [0xBB, 0xE7]), ('\u{990E}', [0x9A, 0x66]), ('\u{9910}', [0xC0, 0x5C]), ";
"    ('\u{9911}', [0xE8, 0xC1]), ('\u{9912}', [0xBE, 0x6B]), ('\u{9913}', [0xBE, 0x6A]), ";
"    ('\u{9914}', [0xE8, 0xC2]), ('\u{9915}', [0xE8, 0xC5]), ('\u{9916}', [0xE8, 0xC3]), ";
"    ('\u{9917}', [0xE8, 0xC4]), ('\u{9918}', [0xBE, 0x6C]), ('\u{9919}', [0x9A, 0x67]), ";
"    ('\u{991A}', [0xC0, 0x61]), ('\u{991B}', [0xC0, 0x5F]), ('\u{991C}', [0x9A, 0x69]), ";
"    ('\u{991E}', [0xC0, 0x5E]), ('\u{991F}', [0xEC, 0x5D]), ('\u{9921}', [0xC0, 0x60]), ";
"    ('\u{9924}', [0xEC, 0x5C]), ('\u{9925}', [0xEF, 0x4B]), ('\u{9927}', [0xEC, 0x5E]), ";
"    ('\u{9928}', [0xC0, 0x5D]), ('\u{9929}', [0xEC, 0x5F]), ('\u{992A}', [0xEF, 0x4E]), ";
"    ('\u{992B}', [0xEF, 0x4C]), ('\u{992C}', [0xEF, 0x4D]), ('\u{992D}', [0xEF, 0x52]), ";
"    ('\u{992E}', [0xC3, 0x4B]), ('\u{992F}', [0xEF, 0x51]), ('\u{9930}', [0xEF, 0x54]), ";
"    ('\u{9931}', [0xEF, 0x53]), ('\u{9932}', [0xEF, 0x50]), ('\u{9933}', [0xEF, 0x4F]), ";
"    ('\u{9935}', [0xC1, 0xFD]), ('\u{9937}', [0x9A, 0x6A]), ('\u{9938}', [0x96, 0x52]), ";
"    ('\u{9939}', [0x91, 0x4D]), ('\u{993A}', [0xF1, 0xAE]), ('\u{993B}', [0x96, 0x66]), ";
"    ('\u{993C}', [0xF1, 0xAD]), ('\u{993D}', [0xC3, 0x4A]), ('\u{993E}', [0xC3, 0x48]), ";
"    ('\u{993F}', [0xC3, 0x49]), ('\u{9940}', [0x9F, 0x7B]), ('\u{9941}', [0xF1, 0xAC]), ";
"    ('\u{9942}', [0x9A, 0x6B]), ('\u{9943}', [0xF3, 0xB1]), ('\u{9945}', [0xC4, 0x43]), ";
"    ('\u{9947}', [0xF3, 0xB0]), ('\u{9948}', [0xF3, 0xAF]), ('\u{9949}', [0xC4, 0x44]), ";
"    ('\u{994A}', [0xA0, 0x6C]), ('\u{994B}', [0xF5, 0x58]), ('\u{994C}', [0xF5, 0x57]), ";
"    ('\u{994D}', [0x96, 0x67]), ('\u{994E}', [0xF5, 0x55]), ('\u{9950}', [0xF5, 0x54]), ";
"    ('\u{9951}', [0xC4, 0xC8]), ('\u{9952}', [0xC4, 0xC7]), ('\u{9953}', [0xF5, 0x59]), ";
"    ('\u{9954}', [0xF7, 0x76]), ('\u{9955}', [0xC5, 0xB9]), ('\u{9956}', [0xF6, 0x77]), ";
"    ('\u{9957}', [0xC5, 0x57]), ('\u{9958}', [0xF6, 0x76]), ('\u{9959}', [0xF5, 0x56]), ";
"    ('\u{995B}', [0xF7, 0x77]), ('\u{995C}', [0xC5, 0xE4]), ('\u{995D}', [0x9A, 0x6C]), ";
"    ('\u{995E}', [0xC6, 0x61]), ('\u{995F}', [0xF9, 0x59]), ('\u{9961}', [0xF9, 0xB1]), ";
"    ('\u{9962}', [0x9A, 0x6D]), ('\u{9963}', [0x8B, 0xF2]), ('\u{9996}', [0xAD, 0xBA]), ";
"    ('\u{9997}', [0xD8, 0x50]), ('\u{9998}', [0xEF, 0x55]), ('\u{9999}', [0xAD, 0xBB]), ";
"    ('\u{999B}', [0x96, 0x6A]), ('\u{999C}', [0xE4, 0xD2]), ('\u{999D}', [0xE4, 0xD1]), ";
"    ('\u{999E}', [0xEC, 0x60]), ('\u{99A1}', [0xEF, 0x57]), ('\u{99A3}', [0xEF, 0x56]), ";
"    ('\u{99A4}', [0xFC, 0xEA]), ('\u{99A5}', [0xC3, 0x4C]), ('\u{99A6}', [0xF3, 0xB2]), ";
"    ('\u{99A7}', [0xF3, 0xB3]), ('\u{99A8}', [0xC4, 0xC9]), ('\u{99AA}', [0x96, 0x6C]), "
].
(* /repo/src/generated/whatwg/big5_whatwg_tables.rs.inc:7681-7936 *)
Definition big5_inc_30 : list line := [
"    ('\u{99AB}', [0xF9, 0xB2]), ('\u{99AC}', [0xB0, 0xA8]), ('\u{99AD}', [0xB6, 0xBF]), ";
"    ('\u{99AE}', [0xB6, 0xBE]), ('\u{99AF}', [0xE0, 0xE4]), ('\u{99B0}', [0xE0, 0xE6]), ";
"    ('\u{99B1}', [0xB9, 0xA4]), ('\u{99B2}', [0xE0, 0xE5]), ('\u{99B3}', [0xB9, 0xA3]), ";
"    ('\u{99B4}', [0xB9, 0xA5]), ('\u{99B5}', [0xE0, 0xE7]), ('\u{99B8}', [0x91, 0xC4]), ";
"    ('\u{99B9}', [0xE4, 0xD4]), ('\u{99BA}', [0xE4, 0xD6]), ('\u{99BB}', [0xE4, 0xD5]), ";
"    ('\u{99BC}', [0x96, 0x77]), ('\u{99BD}', [0xE4, 0xD8]), ('\u{99C1}', [0xBB, 0xE9]), ";
"    ('\u{99C2}', [0xE4, 0xD7]), ('\u{99C3}', [0xE4, 0xD3]), ('\u{99C4}', [0x99, 0xF4]), ";
"    ('\u{99C5}', [0x9A, 0x6F]), ('\u{99C7}', [0xE4, 0xD9]), ('\u{99C9}', [0xE8, 0xCC]), ";
"    ('\u{99CB}', [0xE8, 0xCF]), ('\u{99CC}', [0xE8, 0xD1]), ('\u{99CD}', [0xE8, 0xC7]), ";
"    ('\u{99CE}', [0xE8, 0xCB]), ('\u{99CF}', [0xE8, 0xC8]), ('\u{99D0}', [0xBE, 0x6E]), ";
"    ('\u{99D1}', [0xBE, 0x71]), ('\u{99D2}', [0xBE, 0x73]), ('\u{99D3}', [0xE8, 0xC9]), ";
"    ('\u{99D4}', [0xE8, 0xCA]), ('\u{99D5}', [0xBE, 0x72]), ('\u{99D6}', [0x9B, 0xC6]), ";
"    ('\u{99D7}', [0xE8, 0xD0]), ('\u{99D8}', [0xE8, 0xCE]), ('\u{99D9}', [0xBE, 0x74]), ";
"    ('\u{99DA}', [0x9F, 0xAB]), ('\u{99DB}', [0xBE, 0x70]), ('\u{99DC}', [0xE8, 0xC6]), ";
"    ('\u{99DD}', [0xBE, 0x6D]), ('\u{99DF}', [0xBE, 0x6F]), ('\u{99E0}', [0x8C, 0xBE]), ";
"    ('\u{99E1}', [0x8E, 0xC1]), ('\u{99E2}', [0xC0, 0x63]), ('\u{99E3}', [0xEC, 0x66]), ";
"    ('\u{99E4}', [0xEC, 0x64]), ('\u{99E5}', [0xEC, 0x63]), ('\u{99E6}', [0x95, 0x55]), ";
"    ('\u{99E7}', [0xEC, 0x69]), ('\u{99E9}', [0xEC, 0x68]), ('\u{99EA}', [0xEC, 0x67]), ";
"    ('\u{99EC}', [0xEC, 0x62]), ('\u{99ED}', [0xC0, 0x62]), ('\u{99EE}', [0xEC, 0x61]), ";
"    ('\u{99F0}', [0xEC, 0x65]), ('\u{99F1}', [0xC0, 0x64]), ('\u{99F4}', [0xEF, 0x5A]), ";
"    ('\u{99F5}', [0x91, 0x52]), ('\u{99F6}', [0xEF, 0x5E]), ('\u{99F7}', [0xEF, 0x5B]), ";
"    ('\u{99F8}', [0xEF, 0x5D]), ('\u{99F9}', [0xEF, 0x5C]), ('\u{99FA}', [0xEF, 0x59]), ";
"    ('\u{99FB}', [0xEF, 0x5F]), ('\u{99FC}', [0xEF, 0x62]), ('\u{99FD}', [0xEF, 0x60]), ";
"    ('\u{99FE}', [0xEF, 0x61]), ('\u{99FF}', [0xC2, 0x40]), ('\u{9A01}', [0xC1, 0xFE]), ";
"    ('\u{9A02}', [0xEF, 0x58]), ('\u{9A03}', [0xEF, 0x63]), ('\u{9A04}', [0xF1, 0xB3]), ";
"    ('\u{9A05}', [0xF1, 0xB6]), ('\u{9A06}', [0xF1, 0xB8]), ('\u{9A07}', [0xF1, 0xB7]), ";
"    ('\u{9A09}', [0xF1, 0xB1]), ('\u{9A0A}', [0xF1, 0xB5]), ('\u{9A0B}', [0xF1, 0xB0]), ";
"    ('\u{9A0C}', [0x91, 0x53]), ('\u{9A0D}', [0xF1, 0xB2]), ('\u{9A0E}', [0xC3, 0x4D]), ";
"    ('\u{9A0F}', [0xF1, 0xAF]), ('\u{9A10}', [0x91, 0x55]), ('\u{9A11}', [0xF1, 0xB4]), ";
"    ('\u{9A14}', [0xF3, 0xC0]), ('\u{9A15}', [0xF3, 0xB5]), ('\u{9A16}', [0xC4, 0x45]), ";
"    ('\u{9A19}', [0xC4, 0x46]), ('\u{9A1A}', [0xF3, 0xB4]), ('\u{9A1B}', [0xF3, 0xB9]), ";
"    ('\u{9A1C}', [0xF3, 0xBF]), ('\u{9A1D}', [0xF3, 0xB7]), ('\u{9A1E}', [0xF3, 0xBE]), ";
"    ('\u{9A1F}', [0x95, 0x5D]), ('\u{9A20}', [0xF3, 0xBB]), ('\u{9A21}', [0x96, 0x71]), ";
"    ('\u{9A22}', [0xF3, 0xBA]), ('\u{9A23}', [0xF3, 0xBD]), ('\u{9A24}', [0xF3, 0xB8]), ";
"    ('\u{9A25}', [0xF3, 0xB6]), ('\u{9A26}', [0x9C, 0x6D]), ('\u{9A27}', [0xF3, 0xBC]), ";
"    ('\u{9A29}', [0xF5, 0x60]), ('\u{9A2A}', [0xF5, 0x5E]), ('\u{9A2B}', [0xC4, 0xCA]), ";
"    ('\u{9A2C}', [0xF5, 0x5D]), ('\u{9A2D}', [0xF5, 0x63]), ('\u{9A2E}', [0xF5, 0x61]), ";
"    ('\u{9A2F}', [0x96, 0x73]), ('\u{9A30}', [0xC4, 0xCB]), ('\u{9A31}', [0xF5, 0x5C]), ";
"    ('\u{9A32}', [0xF5, 0x5A]), ('\u{9A34}', [0xF5, 0x5B]), ('\u{9A35}', [0xC4, 0xCD]), ";
"    ('\u{9A36}', [0xF5, 0x5F]), ('\u{9A37}', [0xC4, 0xCC]), ('\u{9A38}', [0xF5, 0x62]), ";
"    ('\u{9A39}', [0xF6, 0x78]), ('\u{9A3A}', [0xF6, 0x7E]), ('\u{9A3B}', [0x91, 0x54]), ";
"    ('\u{9A3C}', [0x9A, 0x71]), ('\u{9A3D}', [0xF6, 0x79]), ('\u{9A3E}', [0xC5, 0x5B]), ";
"    ('\u{9A3F}', [0xF6, 0xA1]), ('\u{9A40}', [0xC5, 0x5A]), ('\u{9A41}', [0xF6, 0x7D]), ";
"    ('\u{9A42}', [0xF6, 0x7C]), ('\u{9A43}', [0xC5, 0x59]), ('\u{9A44}', [0xF6, 0x7B]), ";
"    ('\u{9A45}', [0xC5, 0x58]), ('\u{9A46}', [0xF6, 0x7A]), ('\u{9A48}', [0xF7, 0x7D]), ";
"    ('\u{9A49}', [0xF7, 0xA1]), ('\u{9A4A}', [0xF7, 0x7E]), ('\u{9A4C}', [0xF7, 0x7B]), ";
"    ('\u{9A4D}', [0xC5, 0xBB]), ('\u{9A4E}', [0xF7, 0x78]), ('\u{9A4F}', [0xF7, 0x7C]), ";
"    ('\u{9A50}', [0xF7, 0xA3]), ('\u{9A52}', [0xF7, 0xA2]), ('\u{9A53}', [0xF7, 0x79]), ";
"    ('\u{9A54}', [0xF7, 0x7A]), ('\u{9A55}', [0xC5, 0xBA]), ('\u{9A56}', [0xF8, 0x52]), ";
"    ('\u{9A57}', [0xC5, 0xE7]), ('\u{9A58}', [0x91, 0x56]), ('\u{9A59}', [0xF8, 0x53]), ";
"    ('\u{9A5A}', [0xC5, 0xE5]), ('\u{9A5B}', [0xC5, 0xE6]), ('\u{9A5C}', [0x96, 0x6D]), ";
"    ('\u{9A5E}', [0xF8, 0xD3]), ('\u{9A5F}', [0xC6, 0x4A]), ('\u{9A60}', [0xF9, 0x76]), ";
"    ('\u{9A62}', [0xC6, 0x6A]), ('\u{9A63}', [0x95, 0x57]), ('\u{9A64}', [0xF9, 0xB3]), ";
"    ('\u{9A65}', [0xC6, 0x6B]), ('\u{9A66}', [0xF9, 0xB4]), ('\u{9A67}', [0xF9, 0xB5]), ";
"    ('\u{9A68}', [0xF9, 0xC3]), ('\u{9A69}', [0xF9, 0xC2]), ('\u{9A6A}', [0xC6, 0x7A]), ";
"    ('\u{9A6B}', [0xF9, 0xCD]), ('\u{9A6C}', [0x89, 0xC6]), ('\u{9A8F}', [0x89, 0xC7]), ";
"    ('\u{9AA8}', [0xB0, 0xA9]), ('\u{9AAB}', [0xE0, 0xE9]), ('\u{9AAD}', [0xE0, 0xE8]), ";
"    ('\u{9AAF}', [0xBB, 0xEA]), ('\u{9AB0}', [0xBB, 0xEB]), ('\u{9AB1}', [0xE4, 0xDA]), ";
"    ('\u{9AB2}', [0x8A, 0x6A]), ('\u{9AB3}', [0xE8, 0xD2]), ('\u{9AB4}', [0xEC, 0x6C]), ";
"    ('\u{9AB6}', [0x8B, 0x57]), ('\u{9AB7}', [0xBE, 0x75]), ('\u{9AB8}', [0xC0, 0x65]), ";
"    ('\u{9AB9}', [0xEC, 0x6A]), ('\u{9ABA}', [0x9F, 0xE1]), ('\u{9ABB}', [0xEC, 0x6D]), ";
"    ('\u{9ABC}', [0xC0, 0x66]), ('\u{9ABD}', [0x9B, 0x5F]), ('\u{9ABE}', [0xEF, 0x64]), ";
"    ('\u{9ABF}', [0xEC, 0x6B]), ('\u{9AC0}', [0xF1, 0xB9]), ('\u{9AC1}', [0xC3, 0x4E]), ";
"    ('\u{9AC2}', [0xF3, 0xC1]), ('\u{9AC6}', [0xF5, 0x66]), ('\u{9AC7}', [0xF5, 0x64]), ";
"    ('\u{9ACA}', [0xF5, 0x65]), ('\u{9ACD}', [0xF6, 0xA2]), ('\u{9ACF}', [0xC5, 0x5C]), ";
"    ('\u{9AD0}', [0xF7, 0xA4]), ('\u{9AD1}', [0xC5, 0xEA]), ('\u{9AD2}', [0xC5, 0xBC]), ";
"    ('\u{9AD3}', [0xC5, 0xE8]), ('\u{9AD4}', [0xC5, 0xE9]), ('\u{9AD5}', [0xF8, 0xD4]), ";
"    ('\u{9AD6}', [0xC6, 0x62]), ('\u{9AD7}', [0xA0, 0x5D]), ('\u{9AD8}', [0xB0, 0xAA]), ";
"    ('\u{9ADC}', [0xF1, 0xBA]), ('\u{9ADF}', [0xD4, 0x49]), ('\u{9AE0}', [0x91, 0x5B]), ";
"    ('\u{9AE1}', [0xB9, 0xA6]), ('\u{9AE2}', [0x91, 0x5C]), ('\u{9AE3}', [0xE4, 0xDB]), ";
"    ('\u{9AE6}', [0xBB, 0xEC]), ('\u{9AE7}', [0xE4, 0xDC]), ('\u{9AEB}', [0xE8, 0xD4]), ";
"    ('\u{9AEC}', [0xE8, 0xD3]), ('\u{9AED}', [0xC0, 0x68]), ('\u{9AEE}', [0xBE, 0x76]), ";
"    ('\u{9AEF}', [0xBE, 0x77]), ('\u{9AF1}', [0xE8, 0xD7]), ('\u{9AF2}', [0xE8, 0xD6]), ";
"    ('\u{9AF3}', [0xE8, 0xD5]), ('\u{9AF4}', [0x91, 0x5E]), ('\u{9AF6}', [0xEC, 0x6E]), ";
"    ('\u{9AF7}', [0xEC, 0x71]), ('\u{9AF9}', [0xEC, 0x70]), ('\u{9AFA}', [0xEC, 0x6F]), ";
"    ('\u{9AFB}', [0xC0, 0x67]), ('\u{9AFC}', [0xEF, 0x68]), ('\u{9AFD}', [0xEF, 0x66]), ";
"    ('\u{9AFE}', [0xEF, 0x65]), ('\u{9AFF}', [0x9F, 0x5C]), ('\u{9B01}', [0xEF, 0x67]), ";
"    ('\u{9B02}', [0x9F, 0x57]), ('\u{9B03}', [0xC3, 0x4F]), ('\u{9B04}', [0xF1, 0xBC]), ";
"    ('\u{9B05}', [0xF1, 0xBD]), ('\u{9B06}', [0xC3, 0x50]), ('\u{9B08}', [0xF1, 0xBB]), ";
"    ('\u{9B09}', [0x9F, 0x65]), ('\u{9B0A}', [0xF3, 0xC3]), ('\u{9B0B}', [0xF3, 0xC2]), ";
"    ('\u{9B0C}', [0xF3, 0xC5]), ('\u{9B0D}', [0xC4, 0x47]), ('\u{9B0E}', [0xF3, 0xC4]), ";
"    ('\u{9B0F}', [0x9A, 0x72]), ('\u{9B10}', [0xF5, 0x67]), ('\u{9B11}', [0xF5, 0x69]), ";
"    ('\u{9B12}', [0xF5, 0x68]), ('\u{9B14}', [0x91, 0x60]), ('\u{9B15}', [0xF6, 0xA3]), ";
"    ('\u{9B16}', [0xF6, 0xA6]), ('\u{9B17}', [0xF6, 0xA4]), ('\u{9B18}', [0xF6, 0xA5]), ";
"    ('\u{9B19}', [0xF7, 0xA5]), ('\u{9B1A}', [0xC5, 0xBD]), ('\u{9B1E}', [0xF8, 0x54]), ";
"    ('\u{9B1F}', [0xF8, 0x55]), ('\u{9B20}', [0xF8, 0x56]), ('\u{9B22}', [0xC6, 0x4B]), ";
"    ('\u{9B23}', [0xC6, 0x63]), ('\u{9B24}', [0xF9, 0xB6]), ('\u{9B25}', [0xB0, 0xAB]), ";
"    ('\u{9B27}', [0xBE, 0x78]), ('\u{9B28}', [0xC0, 0x69]), ('\u{9B29}', [0xF1, 0xBE]), ";
"    ('\u{9B2A}', [0x9F, 0x5E]), ('\u{9B2B}', [0xF7, 0xA6]), ('\u{9B2D}', [0x91, 0x61]), ";
"    ('\u{9B2E}', [0x9F, 0x60]), ('\u{9B2F}', [0xD4, 0x4A]), ('\u{9B31}', [0xC6, 0x7B]), ";
"    ('\u{9B32}', [0xB0, 0xAC]), ('\u{9B33}', [0xEC, 0x72]), ('\u{9B34}', [0x91, 0x64]), ";
"    ('\u{9B35}', [0xF1, 0xBF]), ('\u{9B37}', [0xF3, 0xC6]), ('\u{9B39}', [0x9F, 0x41]), ";
"    ('\u{9B3A}', [0xF6, 0xA7]), ('\u{9B3B}', [0xF7, 0xA7]), ('\u{9B3C}', [0xB0, 0xAD]), ";
"    ('\u{9B3E}', [0xE4, 0xDD]), ('\u{9B3F}', [0xE4, 0xDE]), ('\u{9B40}', [0x91, 0x69]), ";
"    ('\u{9B41}', [0xBB, 0xED]), ('\u{9B42}', [0xBB, 0xEE]), ('\u{9B43}', [0xE8, 0xD9]), ";
"    ('\u{9B44}', [0xBE, 0x7A]), ('\u{9B45}', [0xBE, 0x79]), ('\u{9B46}', [0xE8, 0xD8]), ";
"    ('\u{9B48}', [0xEF, 0x69]), ('\u{9B4A}', [0xF1, 0xC0]), ('\u{9B4B}', [0xF1, 0xC2]), ";
"    ('\u{9B4C}', [0xF1, 0xC1]), ('\u{9B4D}', [0xC3, 0x53]), ('\u{9B4E}', [0xC3, 0x52]), ";
"    ('\u{9B4F}', [0xC3, 0x51]), ('\u{9B50}', [0x91, 0x68]), ('\u{9B51}', [0xC5, 0x5E]), ";
"    ('\u{9B52}', [0xF6, 0xA8]), ('\u{9B54}', [0xC5, 0x5D]), ('\u{9B55}', [0xF7, 0xA9]), ";
"    ('\u{9B56}', [0xF7, 0xA8]), ('\u{9B58}', [0xC6, 0x4C]), ('\u{9B59}', [0xF8, 0xD5]), ";
"    ('\u{9B5A}', [0xB3, 0xBD]), ('\u{9B5B}', [0xE0, 0xEA]), ('\u{9B5F}', [0xE4, 0xE1]), ";
"    ('\u{9B60}', [0xE4, 0xDF]), ('\u{9B61}', [0xE4, 0xE0]), ('\u{9B64}', [0xE8, 0xE2]), ";
"    ('\u{9B66}', [0xE8, 0xDD]), ('\u{9B67}', [0xE8, 0xDA]), ('\u{9B68}', [0xE8, 0xE1]), ";
"    ('\u{9B69}', [0x9A, 0x74]), ('\u{9B6C}', [0xE8, 0xE3]), ('\u{9B6F}', [0xBE, 0x7C]), ";
"    ('\u{9B70}', [0xE8, 0xE0]), ('\u{9B71}', [0xE8, 0xDC]), ('\u{9B74}', [0xE8, 0xDB]), ";
"    ('\u{9B75}', [0xE8, 0xDF]), ('\u{9B76}', [0xE8, 0xDE]), ('\u{9B77}', [0xBE, 0x7B]), ";
"    ('\u{9B7A}', [0xEC, 0x7D]), ('\u{9B7B}', [0xEC, 0x78]), ('\u{9B7C}', [0xEC, 0x76]), ";
"    ('\u{9B7D}', [0xEC, 0xA1]), ('\u{9B7E}', [0xEC, 0x77]), ('\u{9B7F}', [0x96, 0xB2]), ";
"    ('\u{9B80}', [0xEC, 0x73]), ('\u{9B81}', [0x9A, 0x75]), ('\u{9B82}', [0xEC, 0x79]), ";
"    ('\u{9B83}', [0xFD, 0xA5]), ('\u{9B85}', [0xEC, 0x74]), ('\u{9B86}', [0xEF, 0x72]), ";
"    ('\u{9B87}', [0xEC, 0x75]), ('\u{9B88}', [0xEC, 0xA2]), ('\u{9B8B}', [0x9E, 0xE9]), ";
"    ('\u{9B8D}', [0x8B, 0xBA]), ('\u{9B8E}', [0x91, 0x6D]), ('\u{9B8F}', [0xA0, 0x60]), ";
"    ('\u{9B90}', [0xEC, 0x7C]), ('\u{9B91}', [0xC0, 0x6A]), ('\u{9B92}', [0xEC, 0x7B]), ";
"    ('\u{9B93}', [0xEC, 0x7A]), ('\u{9B95}', [0xEC, 0x7E]), ('\u{9B97}', [0x9F, 0xDE]), ";
"    ('\u{9B9A}', [0xEF, 0x6A]), ('\u{9B9B}', [0xEF, 0x6D]), ('\u{9B9D}', [0x9F, 0xC3]), ";
"    ('\u{9B9E}', [0xEF, 0x6C]), ('\u{9B9F}', [0x96, 0xB5]), ('\u{9BA0}', [0xEF, 0x74]), ";
"    ('\u{9BA1}', [0xEF, 0x6F]), ('\u{9BA2}', [0xEF, 0x73]), ('\u{9BA4}', [0xEF, 0x71]), ";
"    ('\u{9BA5}', [0xEF, 0x70]), ('\u{9BA6}', [0xEF, 0x6E]), ('\u{9BA8}', [0xEF, 0x6B]), ";
"    ('\u{9BAA}', [0xC2, 0x43]), ('\u{9BAB}', [0xC2, 0x42]), ('\u{9BAD}', [0xC2, 0x44]), ";
"    ('\u{9BAE}', [0xC2, 0x41]), ('\u{9BAF}', [0xEF, 0x75]), ('\u{9BB0}', [0xA0, 0x67]), ";
"    ('\u{9BB5}', [0xF1, 0xC8]), ('\u{9BB6}', [0xF1, 0xCB]), ('\u{9BB8}', [0xF1, 0xC9]), ";
"    ('\u{9BB9}', [0xF1, 0xCD]), ('\u{9BBD}', [0xF1, 0xCE]), ('\u{9BBF}', [0xF1, 0xC6]), ";
"    ('\u{9BC0}', [0xC3, 0x58]), ('\u{9BC1}', [0xF1, 0xC7]), ('\u{9BC3}', [0xF1, 0xC5]), ";
"    ('\u{9BC4}', [0xF1, 0xCC]), ('\u{9BC6}', [0xF1, 0xC4]), ('\u{9BC7}', [0xF1, 0xC3]), ";
"    ('\u{9BC8}', [0xC3, 0x57]), ('\u{9BC9}', [0xC3, 0x55]), ('\u{9BCA}', [0xC3, 0x54]), ";
"    ('\u{9BCF}', [0x96, 0xB3]), ('\u{9BD3}', [0xF1, 0xCA]), ('\u{9BD4}', [0xF3, 0xCF]), ";
"    ('\u{9BD5}', [0xF3, 0xD5]), ('\u{9BD6}', [0xC4, 0x4A]), ('\u{9BD7}', [0xF3, 0xD0]), ";
"    ('\u{9BD9}', [0xF3, 0xD3]), ('\u{9BDA}', [0xF3, 0xD7]), ('\u{9BDB}', [0xC4, 0x4B]), ";
"    ('\u{9BDC}', [0xF3, 0xD2]), ('\u{9BDD}', [0x9A, 0x76]), ('\u{9BDE}', [0xF3, 0xCA]), ";
"    ('\u{9BE0}', [0xF3, 0xC9]), ('\u{9BE1}', [0xF3, 0xD6]), ('\u{9BE2}', [0xF3, 0xCD]), ";
"    ('\u{9BE4}', [0xF3, 0xCB]), ('\u{9BE5}', [0xF3, 0xD4]), ('\u{9BE6}', [0xF3, 0xCC]), ";
"    ('\u{9BE7}', [0xC4, 0x49]), ('\u{9BE8}', [0xC4, 0x48]), ('\u{9BE9}', [0x95, 0xD5]), ";
"    ('\u{9BEA}', [0xF3, 0xC7]), ('\u{9BEB}', [0xF3, 0xC8]), ('\u{9BEC}', [0xF3, 0xD1]), ";
"    ('\u{9BED}', [0x9E, 0xCA]), ('\u{9BF0}', [0xF3, 0xCE]), ('\u{9BF1}', [0x9A, 0x77]), ";
"    ('\u{9BF4}', [0x9A, 0x78]), ('\u{9BF7}', [0xF5, 0x6C]), ('\u{9BF8}', [0xF5, 0x6F]), ";
"    ('\u{9BFD}', [0xC3, 0x56]), ('\u{9BFF}', [0x91, 0x70]), ('\u{9C02}', [0x91, 0x6F]), ";
"    ('\u{9C05}', [0xF5, 0x6D]), ('\u{9C06}', [0xF5, 0x73]), ('\u{9C07}', [0xF5, 0x71]), ";
"    ('\u{9C08}', [0xF5, 0x6B]), ('\u{9C09}', [0xF5, 0x76]), ('\u{9C0A}', [0x9F, 0xA3]), ";
"    ('\u{9C0B}', [0xF5, 0x6A]), ('\u{9C0C}', [0x91, 0x71]), ('\u{9C0D}', [0xC4, 0xCF]), ";
"    ('\u{9C0E}', [0xF5, 0x72]), ('\u{9C10}', [0x96, 0xB1]), ('\u{9C12}', [0xF5, 0x6E]), ";
"    ('\u{9C13}', [0xC4, 0xCE]), ('\u{9C14}', [0xF5, 0x75]), ('\u{9C15}', [0x9F, 0x63]), ";
"    ('\u{9C17}', [0xF5, 0x74]), ('\u{9C1B}', [0x9F, 0x67]), ('\u{9C1C}', [0xF6, 0xAB]), ";
"    ('\u{9C1D}', [0xF6, 0xAA]), ('\u{9C1F}', [0x8B, 0xB9]), ('\u{9C20}', [0x9A, 0x7A]), ";
"    ('\u{9C21}', [0xF6, 0xB1]), ('\u{9C23}', [0xF6, 0xAD]), ('\u{9C24}', [0xF6, 0xB0]), ";
"    ('\u{9C25}', [0xC5, 0x60]), ('\u{9C26}', [0x8B, 0x56]), ('\u{9C28}', [0xF6, 0xAE]), ";
"    ('\u{9C29}', [0xF6, 0xAF]), ('\u{9C2B}', [0xF6, 0xA9]), ('\u{9C2C}', [0xF6, 0xAC]), ";
"    ('\u{9C2D}', [0xC5, 0x5F]), ('\u{9C2F}', [0x9A, 0xDA]), ('\u{9C31}', [0xC5, 0xBF]), ";
"    ('\u{9C32}', [0xF7, 0xB4]), ('\u{9C33}', [0xF7, 0xAF]), ('\u{9C34}', [0xF7, 0xB3]), ";
"    ('\u{9C35}', [0x96, 0xB0]), ('\u{9C36}', [0xF7, 0xB6]), ('\u{9C37}', [0xF7, 0xB2]), ";
"    ('\u{9C39}', [0xF7, 0xAE]), ('\u{9C3A}', [0x9A, 0x7E]), ('\u{9C3B}', [0xC5, 0xC1]), ";
"    ('\u{9C3C}', [0xF7, 0xB1]), ('\u{9C3D}', [0xF7, 0xB5]), ('\u{9C3E}', [0xC5, 0xC0]), ";
"    ('\u{9C3F}', [0xF7, 0xAC]), ('\u{9C40}', [0xF5, 0x70]), ('\u{9C41}', [0xF7, 0xB0]), ";
"    ('\u{9C44}', [0xF7, 0xAD]), ('\u{9C45}', [0x9D, 0xDE]), ('\u{9C46}', [0xF7, 0xAA]), ";
"    ('\u{9C48}', [0xF7, 0xAB]), ('\u{9C49}', [0xC5, 0xBE]), ('\u{9C4A}', [0xF8, 0x5A]), ";
"    ('\u{9C4B}', [0xF8, 0x5C]), ('\u{9C4C}', [0xF8, 0x5F]), ('\u{9C4D}', [0xF8, 0x5B]), ";
"    ('\u{9C4E}', [0xF8, 0x60]), ('\u{9C4F}', [0x96, 0xAD]), ('\u{9C50}', [0xF8, 0x59]), ";
"    ('\u{9C52}', [0xF8, 0x57]), ('\u{9C53}', [0x96, 0xAE]), ('\u{9C54}', [0xC5, 0xEB]), ";
"    ('\u{9C55}', [0xF8, 0x5D]), ('\u{9C56}', [0xC5, 0xED]), ('\u{9C57}', [0xC5, 0xEC]), ";
"    ('\u{9C58}', [0xF8, 0x58]), ('\u{9C59}', [0xF8, 0x5E]), ('\u{9C5D}', [0x9E, 0xA1]), ";
"    ('\u{9C5E}', [0xF8, 0xDA]), ('\u{9C5F}', [0xC6, 0x4D]), ('\u{9C60}', [0xF8, 0xDB]), ";
"    ('\u{9C62}', [0xF8, 0xD9]), ('\u{9C63}', [0xF8, 0xD6]), ('\u{9C66}', [0xF8, 0xD8]), ";
"    ('\u{9C67}', [0xF8, 0xD7]), ('\u{9C68}', [0xF9, 0x5A]), ('\u{9C6D}', [0xF9, 0x5C]), ";
"    ('\u{9C6E}', [0xF9, 0x5B]), ('\u{9C71}', [0xF9, 0x79]), ('\u{9C72}', [0x9E, 0x50]), ";
"    ('\u{9C73}', [0xF9, 0x78]), ('\u{9C74}', [0xF9, 0x77]), ('\u{9C75}', [0xF9, 0x7A]), ";
"    ('\u{9C77}', [0xC6, 0x73]), ('\u{9C78}', [0xC6, 0x74]), ('\u{9C79}', [0xF9, 0xCA]), ";
"    ('\u{9C7A}', [0xF9, 0xCE]), ('\u{9C7B}', [0x96, 0xAF]), ('\u{9C7C}', [0x8B, 0xF4]), ";
"    ('\u{9CE5}', [0xB3, 0xBE]), ('\u{9CE6}', [0xDC, 0xAF]), ('\u{9CE7}', [0xE0, 0xED]), ";
"    ('\u{9CE9}', [0xB9, 0xA7]), ('\u{9CEA}', [0xE0, 0xEB]), ('\u{9CED}', [0xE0, 0xEC]), ";
"    ('\u{9CF1}', [0xE4, 0xE2]), ('\u{9CF2}', [0xE4, 0xE3]), ('\u{9CF3}', [0xBB, 0xF1]), ";
"    ('\u{9CF4}', [0xBB, 0xEF]), ('\u{9CF5}', [0xE4, 0xE4]), ('\u{9CF6}', [0xBB, 0xF0]), ";
"    ('\u{9CF7}', [0xE8, 0xE8]), ('\u{9CF9}', [0xE8, 0xEB]), ('\u{9CFA}', [0xE8, 0xE5]), ";
"    ('\u{9CFB}', [0xE8, 0xEC]), ('\u{9CFC}', [0xE8, 0xE4]), ('\u{9CFD}', [0xE8, 0xE6]), ";
"    ('\u{9CFF}', [0xE8, 0xE7]), ('\u{9D00}', [0xE8, 0xEA]), ('\u{9D02}', [0x9F, 0xA4]), ";
"    ('\u{9D03}', [0xBE, 0xA1]), ('\u{9D04}', [0xE8, 0xEF]), ('\u{9D05}', [0xE8, 0xEE]), ";
"    ('\u{9D06}', [0xBE, 0x7D]), ('\u{9D07}', [0xE8, 0xE9]), ('\u{9D08}', [0xE8, 0xED]), ";
"    ('\u{9D09}', [0xBE, 0x7E]), ('\u{9D0C}', [0x96, 0xBD]), ('\u{9D10}', [0xEC, 0xAC]), ";
"    ('\u{9D12}', [0xC0, 0x6F]), ('\u{9D14}', [0xEC, 0xA7]), ('\u{9D15}', [0xC0, 0x6B]), ";
"    ('\u{9D16}', [0x96, 0xF4]), ('\u{9D17}', [0xEC, 0xA4]), ('\u{9D18}', [0xEC, 0xAA]), ";
"    ('\u{9D19}', [0xEC, 0xAD]), ('\u{9D1B}', [0xC0, 0x70]), ('\u{9D1D}', [0xEC, 0xA9]), ";
"    ('\u{9D1E}', [0xEC, 0xA6]), ('\u{9D1F}', [0xEC, 0xAE]), ('\u{9D20}', [0xEC, 0xA5]), ";
"    ('\u{9D21}', [0x96, 0xB8]), ('\u{9D22}', [0xEC, 0xAB]), ('\u{9D23}', [0xC0, 0x6C]), ";
"    ('\u{9D25}', [0xEC, 0xA3]), ('\u{9D26}', [0xC0, 0x6D]), ('\u{9D28}', [0xC0, 0x6E]), ";
"    ('\u{9D29}', [0xEC, 0xA8]), ('\u{9D2D}', [0xEF, 0xA9]), ('\u{9D2E}', [0xEF, 0x7A]), ";
"    ('\u{9D2F}', [0xEF, 0x7B]), ('\u{9D30}', [0xEF, 0x7E]), ('\u{9D31}', [0xEF, 0x7C]), ";
"    ('\u{9D33}', [0xEF, 0x76]), ('\u{9D34}', [0xFA, 0xA1]), ('\u{9D36}', [0xEF, 0x79]), ";
"    ('\u{9D37}', [0xEF, 0xA5]), ('\u{9D38}', [0xEF, 0x7D]), ('\u{9D39}', [0x91, 0xA7]), ";
"    ('\u{9D3B}', [0xC2, 0x45]), ('\u{9D3D}', [0xEF, 0xA7]), ('\u{9D3E}', [0xEF, 0xA4]), ";
"    ('\u{9D3F}', [0xC2, 0x46]), ('\u{9D40}', [0xEF, 0xA6]), ('\u{9D41}', [0xEF, 0x77]), ";
"    ('\u{9D42}', [0xEF, 0xA2]), ('\u{9D43}', [0xEF, 0xA3]), ('\u{9D44}', [0xA0, 0x5E]), ";
"    ('\u{9D45}', [0xEF, 0xA1]), ('\u{9D49}', [0x9A, 0x7D]), ('\u{9D4A}', [0xF1, 0xD2]), ";
"    ('\u{9D4B}', [0xF1, 0xD4]), ('\u{9D4C}', [0xF1, 0xD7]), ('\u{9D4E}', [0x89, 0x48]), ";
"    ('\u{9D4F}', [0xF1, 0xD1]), ('\u{9D50}', [0x9E, 0xB1]), ('\u{9D51}', [0xC3, 0x59]), ";
"    ('\u{9D52}', [0xF1, 0xD9]), ('\u{9D53}', [0xF1, 0xD0]), ('\u{9D54}', [0xF1, 0xDA]), ";
"    ('\u{9D56}', [0xF1, 0xD6]), ('\u{9D57}', [0xF1, 0xD8]), ('\u{9D58}', [0xF1, 0xDC]), ";
"    ('\u{9D59}', [0xF1, 0xD5]), ('\u{9D5A}', [0xF1, 0xDD]), ('\u{9D5B}', [0xF1, 0xD3]), ";
"    ('\u{9D5C}', [0xF1, 0xCF]), ('\u{9D5D}', [0xC3, 0x5A]), ('\u{9D5E}', [0x9D, 0xDB]), ";
"    ('\u{9D5F}', [0xF1, 0xDB]), ('\u{9D60}', [0xC3, 0x5B]), ('\u{9D61}', [0xC4, 0x4D]), ";
"    ('\u{9D67}', [0xEF, 0x78]), ('\u{9D68}', [0xF3, 0xF1]), ('\u{9D69}', [0xF3, 0xE8]), ";
"    ('\u{9D6A}', [0xC4, 0x4F]), ('\u{9D6B}', [0xF3, 0xE4]), ('\u{9D6C}', [0xC4, 0x50]), ";
"    ('\u{9D6D}', [0x95, 0xBF]), ('\u{9D6E}', [0x8A, 0x73]), ('\u{9D6F}', [0xF3, 0xED]), ";
"    ('\u{9D70}', [0xF3, 0xE7]), ('\u{9D71}', [0xF3, 0xDD]), ('\u{9D72}', [0xC4, 0x4E]), ";
"    ('\u{9D73}', [0xF3, 0xEA]), ('\u{9D74}', [0xF3, 0xE5]), ('\u{9D75}', [0xF3, 0xE6]), ";
"    ('\u{9D77}', [0xF3, 0xD8]), ('\u{9D78}', [0xF3, 0xDF]), ('\u{9D79}', [0xF3, 0xEE]), ";
"    ('\u{9D7B}', [0xF3, 0xEB]), ('\u{9D7C}', [0x9E, 0xFE]), ('\u{9D7D}', [0xF3, 0xE3]), ";
"    ('\u{9D7E}', [0x91, 0x7A]), ('\u{9D7F}', [0xF3, 0xEF]), ('\u{9D80}', [0xF3, 0xDE]), ";
"    ('\u{9D81}', [0xF3, 0xD9]), ('\u{9D82}', [0xF3, 0xEC]), ('\u{9D83}', [0x91, 0x7B]), ";
"    ('\u{9D84}', [0xF3, 0xDB]), ('\u{9D85}', [0xF3, 0xE9]), ('\u{9D86}', [0xF3, 0xE0]), ";
"    ('\u{9D87}', [0xF3, 0xF0]), ('\u{9D88}', [0xF3, 0xDC]), ('\u{9D89}', [0xC4, 0x4C]), ";
"    ('\u{9D8A}', [0xF3, 0xDA]), ('\u{9D8B}', [0xF3, 0xE1]), ('\u{9D8C}', [0xF3, 0xE2]), ";
"    ('\u{9D90}', [0xF5, 0x7D]), ('\u{9D92}', [0xF5, 0x7B]), ('\u{9D93}', [0x9A, 0xA3]), ";
"    ('\u{9D94}', [0xF5, 0xA2]), ('\u{9D96}', [0xF5, 0xAE]), ('\u{9D97}', [0xF5, 0xA5]), ";
"    ('\u{9D98}', [0xF5, 0x7C]), ('\u{9D99}', [0xF5, 0x78]), ('\u{9D9A}', [0xF5, 0xA7]), ";
"    ('\u{9D9B}', [0xF5, 0x7E]), ('\u{9D9C}', [0xF5, 0xA3]), ('\u{9D9D}', [0xF5, 0x7A]), ";
"    ('\u{9D9E}', [0xF5, 0xAA]), ('\u{9D9F}', [0xF5, 0x77]), ('\u{9DA0}', [0xF5, 0xA1]), ";
"    ('\u{9DA1}', [0xF5, 0xA6]), ('\u{9DA2}', [0xF5, 0xA8]), ('\u{9DA3}', [0xF5, 0xAB]), ";
"    ('\u{9DA4}', [0xF5, 0x79]), ('\u{9DA5}', [0x96, 0xC2]), ('\u{9DA6}', [0xF5, 0xAF]), ";
"    ('\u{9DA7}', [0xF5, 0xB0]), ('\u{9DA8}', [0xF5, 0xA9]), ('\u{9DA9}', [0xF5, 0xAD]), ";
"    ('\u{9DAA}', [0xF5, 0xA4]), ('\u{9DAB}', [0x9F, 0x77]), ('\u{9DAC}', [0xF6, 0xC1]), ";
"    ('\u{9DAD}', [0xF6, 0xC4]), ('\u{9DAF}', [0xC5, 0x61]), ('\u{9DB1}', [0xF6, 0xC3]), ";
"    ('\u{9DB2}', [0xF6, 0xC8]), ('\u{9DB3}', [0xF6, 0xC6]), ('\u{9DB4}', [0xC5, 0x62]), ";
"    ('\u{9DB5}', [0xF6, 0xBD]), ('\u{9DB6}', [0xF6, 0xB3]), ('\u{9DB7}', [0xF6, 0xB2]), ";
"    ('\u{9DB8}', [0xC5, 0x64]), ('\u{9DB9}', [0xF6, 0xBF]), ('\u{9DBA}', [0xF6, 0xC0]), ";
"    ('\u{9DBB}', [0xF6, 0xBC]), ('\u{9DBC}', [0xF6, 0xB4]), ('\u{9DBD}', [0x9A, 0xA4]), ";
"    ('\u{9DBE}', [0xF6, 0xB9]), ('\u{9DBF}', [0xF5, 0xAC]), ('\u{9DC0}', [0x9A, 0xA5]), ";
"    ('\u{9DC1}', [0xF6, 0xB5]), ('\u{9DC2}', [0xC5, 0x63]), ('\u{9DC3}', [0xF6, 0xBB]), ";
"    ('\u{9DC4}', [0x91, 0xA1]), ('\u{9DC5}', [0xF6, 0xBA]), ('\u{9DC7}', [0xF6, 0xB6]), ";
"    ('\u{9DC8}', [0xF6, 0xC2]), ('\u{9DC9}', [0x89, 0xB8]), ('\u{9DCA}', [0xF6, 0xB7]), ";
"    ('\u{9DCB}', [0xF7, 0xBB]), ('\u{9DCC}', [0xF6, 0xC5]), ('\u{9DCD}', [0xF6, 0xC7]), ";
"    ('\u{9DCE}', [0xF6, 0xBE]), ('\u{9DCF}', [0xF6, 0xB8]), ('\u{9DD0}', [0xF7, 0xBC]), ";
"    ('\u{9DD1}', [0xF7, 0xBE]), ('\u{9DD2}', [0xF7, 0xB8]), ('\u{9DD3}', [0xC5, 0xC2]), ";
"    ('\u{9DD4}', [0x91, 0x73]), ('\u{9DD5}', [0xF7, 0xC5]), ('\u{9DD6}', [0xF7, 0xC3]), ";
"    ('\u{9DD7}', [0xC5, 0xC3]), ('\u{9DD8}', [0xF7, 0xC2]), ('\u{9DD9}', [0xF7, 0xC1]), ";
"    ('\u{9DDA}', [0xF7, 0xBA]), ('\u{9DDB}', [0xF7, 0xB7]), ('\u{9DDC}', [0xF7, 0xBD]), ";
"    ('\u{9DDD}', [0xF7, 0xC6]), ('\u{9DDE}', [0xF7, 0xB9]), ('\u{9DDF}', [0xF7, 0xBF]), ";
"    ('\u{9DE1}', [0xF8, 0x69]), ('\u{9DE2}', [0xF8, 0x6E]), ('\u{9DE3}', [0xF8, 0x64]), ";
"    ('\u{9DE4}', [0xF8, 0x67]), ('\u{9DE5}', [0xC5, 0xEE]), ('\u{9DE6}', [0xF8, 0x6B]), ";
"    ('\u{9DE8}', [0xF8, 0x72]), ('\u{9DE9}', [0xF7, 0xC0]), ('\u{9DEB}', [0xF8, 0x65]), ";
"    ('\u{9DEC}', [0xF8, 0x6F]), ('\u{9DED}', [0xF8, 0x73]), ('\u{9DEE}', [0xF8, 0x6A]), ";
"    ('\u{9DEF}', [0xF8, 0x63]), ('\u{9DF0}', [0x9C, 0x6B]), ('\u{9DF2}', [0xF8, 0x6C]), ";
"    ('\u{9DF3}', [0xF8, 0x71]), ('\u{9DF4}', [0xF8, 0x70]), ('\u{9DF5}', [0xF7, 0xC4]), ";
"    ('\u{9DF6}', [0xF8, 0x68]), ('\u{9DF7}', [0xF8, 0x62]), ('\u{9DF8}', [0xF8, 0x66]), ";
"    ('\u{9DF9}', [0xC6, 0x4E]), ('\u{9DFA}', [0xC6, 0x4F]), ('\u{9DFB}', [0xF8, 0x61]), ";
"    ('\u{9DFC}', [0x9A, 0xA6]), ('\u{9DFD}', [0xF8, 0xE6]), ('\u{9DFE}', [0xF8, 0xDD]), ";
"    ('\u{9DFF}', [0xF8, 0xE5]), ('\u{9E00}', [0xF8, 0xE2]), ('\u{9E01}', [0xF8, 0xE3]), ";
"    ('\u{9E02}', [0xF8, 0xDC]), ('\u{9E03}', [0xF8, 0xDF]), ('\u{9E04}', [0xF8, 0xE7]), ";
"    ('\u{9E05}', [0xF8, 0xE1]), ('\u{9E06}', [0xF8, 0xE0]), ('\u{9E07}', [0xF8, 0xDE]), ";
"    ('\u{9E09}', [0xF8, 0xE4]), ('\u{9E0A}', [0x89, 0xBD]), ('\u{9E0B}', [0xF9, 0x5D]), ";
"    ('\u{9E0C}', [0x89, 0xB9]), ('\u{9E0D}', [0xF9, 0x5E]), ('\u{9E0E}', [0x91, 0x7D]), ";
"    ('\u{9E0F}', [0xF9, 0x60]), ('\u{9E10}', [0xF9, 0x5F]), ('\u{9E11}', [0xF9, 0x62]), ";
"    ('\u{9E12}', [0xF9, 0x61]), ('\u{9E13}', [0xF9, 0x7C]), ('\u{9E14}', [0xF9, 0x7B]), ";
"    ('\u{9E15}', [0xF9, 0xB7]), ('\u{9E17}', [0xF9, 0xB8]), ('\u{9E18}', [0x96, 0xBB]), ";
"    ('\u{9E19}', [0xF9, 0xC5]), ('\u{9E1A}', [0xC6, 0x78]), ('\u{9E1B}', [0xC6, 0x7C]), ";
"    ('\u{9E1C}', [0x9F, 0xF2]), ('\u{9E1D}', [0xF9, 0xCF]), ('\u{9E1E}', [0xC6, 0x7D]), ";
"    ('\u{9E1F}', [0x8B, 0xF5]), ('\u{9E75}', [0xB3, 0xBF]), ('\u{9E79}', [0xC4, 0xD0]), ";
"    ('\u{9E7A}', [0xF6, 0xC9]), ('\u{9E7B}', [0x9A, 0xA9]), ('\u{9E7C}', [0xC6, 0x50]), "
].
(* /repo/src/generated/whatwg/big5_whatwg_tables.rs.inc:7937-8192 *)
Definition big5_inc_31 : list line := [
"    ('\u{9E7D}', [0xC6, 0x51]), ('\u{9E7F}', [0xB3, 0xC0]), ('\u{9E80}', [0xE0, 0xEE]), ";
"    ('\u{9E81}', [0x9F, 0x54]), ('\u{9E82}', [0xB9, 0xA8]), ('\u{9E83}', [0xE8, 0xF0]), ";
"    ('\u{9E84}', [0x9F, 0xE3]), ('\u{9E85}', [0x9E, 0xED]), ('\u{9E86}', [0xEC, 0xB0]), ";
"    ('\u{9E87}', [0xEC, 0xB1]), ('\u{9E88}', [0xEC, 0xAF]), ('\u{9E89}', [0xEF, 0xAB]), ";
"    ('\u{9E8A}', [0xEF, 0xAA]), ('\u{9E8B}', [0xC2, 0x47]), ('\u{9E8C}', [0xF1, 0xDF]), ";
"    ('\u{9E8D}', [0xEF, 0xAC]), ('\u{9E8E}', [0xF1, 0xDE]), ('\u{9E90}', [0x91, 0xAA]), ";
"    ('\u{9E91}', [0xF3, 0xF3]), ('\u{9E92}', [0xC4, 0x51]), ('\u{9E93}', [0xC4, 0x53]), ";
"    ('\u{9E94}', [0xF3, 0xF2]), ('\u{9E95}', [0x91, 0xAB]), ('\u{9E96}', [0xA0, 0x70]), ";
"    ('\u{9E97}', [0xC4, 0x52]), ('\u{9E98}', [0x9F, 0x6D]), ('\u{9E99}', [0xF5, 0xB1]), ";
"    ('\u{9E9A}', [0xF5, 0xB3]), ('\u{9E9B}', [0xF5, 0xB2]), ('\u{9E9C}', [0xF6, 0xCA]), ";
"    ('\u{9E9D}', [0xC5, 0x65]), ('\u{9E9E}', [0x91, 0xAC]), ('\u{9E9F}', [0xC5, 0xEF]), ";
"    ('\u{9EA0}', [0xF8, 0xE8]), ('\u{9EA1}', [0xF9, 0x63]), ('\u{9EA2}', [0x91, 0xAD]), ";
"    ('\u{9EA4}', [0xF9, 0xD2]), ('\u{9EA5}', [0xB3, 0xC1]), ('\u{9EA6}', [0xA0, 0xFD]), ";
"    ('\u{9EA7}', [0xE4, 0xE5]), ('\u{9EA8}', [0x9F, 0xE2]), ('\u{9EA9}', [0xBE, 0xA2]), ";
"    ('\u{9EAA}', [0x91, 0xAF]), ('\u{9EAB}', [0x9E, 0x41]), ('\u{9EAC}', [0x9A, 0xAA]), ";
"    ('\u{9EAD}', [0xEC, 0xB3]), ('\u{9EAE}', [0xEC, 0xB2]), ('\u{9EAF}', [0x91, 0xB0]), ";
"    ('\u{9EB0}', [0xEF, 0xAD]), ('\u{9EB1}', [0x9A, 0xAB]), ('\u{9EB4}', [0xC4, 0x54]), ";
"    ('\u{9EB5}', [0xC4, 0xD1]), ('\u{9EB6}', [0xF7, 0xC7]), ('\u{9EB7}', [0xF9, 0xCB]), ";
"    ('\u{9EBB}', [0xB3, 0xC2]), ('\u{9EBC}', [0xBB, 0xF2]), ('\u{9EBD}', [0x9A, 0xAC]), ";
"    ('\u{9EBE}', [0xBE, 0xA3]), ('\u{9EBF}', [0x9A, 0x4A]), ('\u{9EC0}', [0xF3, 0xF4]), ";
"    ('\u{9EC1}', [0x91, 0xB2]), ('\u{9EC2}', [0xF8, 0x74]), ('\u{9EC3}', [0xB6, 0xC0]), ";
"    ('\u{9EC4}', [0x8B, 0xF6]), ('\u{9EC6}', [0x9A, 0xAD]), ('\u{9EC7}', [0x89, 0xB6]), ";
"    ('\u{9EC8}', [0xEF, 0xAE]), ('\u{9ECC}', [0xC6, 0x64]), ('\u{9ECD}', [0xB6, 0xC1]), ";
"    ('\u{9ECE}', [0xBE, 0xA4]), ('\u{9ECF}', [0xC2, 0x48]), ('\u{9ED0}', [0xF8, 0x75]), ";
"    ('\u{9ED1}', [0xB6, 0xC2]), ('\u{9ED3}', [0xE8, 0xF1]), ('\u{9ED4}', [0xC0, 0x72]), ";
"    ('\u{9ED5}', [0xEC, 0xB4]), ('\u{9ED6}', [0xEC, 0xB5]), ('\u{9ED8}', [0xC0, 0x71]), ";
"    ('\u{9EDA}', [0xEF, 0xAF]), ('\u{9EDB}', [0xC2, 0x4C]), ('\u{9EDC}', [0xC2, 0x4A]), ";
"    ('\u{9EDD}', [0xC2, 0x4B]), ('\u{9EDE}', [0xC2, 0x49]), ('\u{9EDF}', [0xF1, 0xE0]), ";
"    ('\u{9EE0}', [0xC3, 0x5C]), ('\u{9EE2}', [0x9A, 0xAF]), ('\u{9EE4}', [0xF5, 0xB5]), ";
"    ('\u{9EE5}', [0xF5, 0xB4]), ('\u{9EE6}', [0xF5, 0xB7]), ('\u{9EE7}', [0xF5, 0xB6]), ";
"    ('\u{9EE8}', [0xC4, 0xD2]), ('\u{9EEB}', [0xF6, 0xCB]), ('\u{9EED}', [0xF6, 0xCD]), ";
"    ('\u{9EEE}', [0xF6, 0xCC]), ('\u{9EEF}', [0xC5, 0x66]), ('\u{9EF0}', [0xF7, 0xC8]), ";
"    ('\u{9EF1}', [0x9A, 0xB0]), ('\u{9EF2}', [0xF8, 0x76]), ('\u{9EF3}', [0xF8, 0x77]), ";
"    ('\u{9EF4}', [0xC5, 0xF0]), ('\u{9EF5}', [0xF9, 0x64]), ('\u{9EF6}', [0xF9, 0x7D]), ";
"    ('\u{9EF7}', [0xC6, 0x75]), ('\u{9EF8}', [0x9A, 0xB1]), ('\u{9EF9}', [0xDC, 0xB0]), ";
"    ('\u{9EFA}', [0xEC, 0xB6]), ('\u{9EFB}', [0xEF, 0xB0]), ('\u{9EFC}', [0xF3, 0xF5]), ";
"    ('\u{9EFD}', [0xE0, 0xEF]), ('\u{9EFE}', [0x9A, 0xA1]), ('\u{9EFF}', [0xEF, 0xB1]), ";
"    ('\u{9F00}', [0xF1, 0xE2]), ('\u{9F01}', [0xF1, 0xE1]), ('\u{9F02}', [0x91, 0xB9]), ";
"    ('\u{9F06}', [0xF8, 0x78]), ('\u{9F07}', [0xC6, 0x52]), ('\u{9F08}', [0x91, 0xBA]), ";
"    ('\u{9F09}', [0xF9, 0x65]), ('\u{9F0A}', [0xF9, 0x7E]), ('\u{9F0E}', [0xB9, 0xA9]), ";
"    ('\u{9F0F}', [0xE8, 0xF2]), ('\u{9F10}', [0xE8, 0xF3]), ('\u{9F12}', [0xEC, 0xB7]), ";
"    ('\u{9F13}', [0xB9, 0xAA]), ('\u{9F15}', [0xC3, 0x5D]), ('\u{9F16}', [0x91, 0xBF]), ";
"    ('\u{9F17}', [0x91, 0xBE]), ('\u{9F18}', [0xF6, 0xCF]), ('\u{9F19}', [0xC5, 0x67]), ";
"    ('\u{9F1A}', [0xF6, 0xD0]), ('\u{9F1B}', [0xF6, 0xCE]), ('\u{9F1C}', [0xF8, 0x79]), ";
"    ('\u{9F1E}', [0xF8, 0xE9]), ('\u{9F20}', [0xB9, 0xAB]), ('\u{9F22}', [0xEF, 0xB4]), ";
"    ('\u{9F23}', [0xEF, 0xB3]), ('\u{9F24}', [0xEF, 0xB2]), ('\u{9F25}', [0xF1, 0xE4]), ";
"    ('\u{9F26}', [0xA0, 0x41]), ('\u{9F27}', [0x8B, 0xB7]), ('\u{9F28}', [0xF1, 0xE8]), ";
"    ('\u{9F29}', [0xF1, 0xE7]), ('\u{9F2A}', [0xF1, 0xE6]), ('\u{9F2B}', [0xF1, 0xE5]), ";
"    ('\u{9F2C}', [0xC3, 0x5E]), ('\u{9F2D}', [0xF3, 0xF6]), ('\u{9F2E}', [0xF5, 0xB9]), ";
"    ('\u{9F2F}', [0xC4, 0xD3]), ('\u{9F30}', [0xF5, 0xB8]), ('\u{9F31}', [0xF6, 0xD1]), ";
"    ('\u{9F32}', [0xF7, 0xCB]), ('\u{9F33}', [0xF7, 0xCA]), ('\u{9F34}', [0xC5, 0xC4]), ";
"    ('\u{9F35}', [0xF7, 0xC9]), ('\u{9F36}', [0xF8, 0x7C]), ('\u{9F37}', [0xF8, 0x7B]), ";
"    ('\u{9F38}', [0xF8, 0x7A]), ('\u{9F39}', [0x91, 0xC0]), ('\u{9F3B}', [0xBB, 0xF3]), ";
"    ('\u{9F3D}', [0xEC, 0xB8]), ('\u{9F3E}', [0xC2, 0x4D]), ('\u{9F40}', [0xF3, 0xF7]), ";
"    ('\u{9F41}', [0xF3, 0xF8]), ('\u{9F42}', [0xF7, 0xCC]), ('\u{9F43}', [0xF8, 0x7D]), ";
"    ('\u{9F44}', [0x9A, 0xB3]), ('\u{9F45}', [0x91, 0xC3]), ('\u{9F46}', [0xF8, 0xEA]), ";
"    ('\u{9F47}', [0xF9, 0x66]), ('\u{9F48}', [0xF9, 0xB9]), ('\u{9F49}', [0xF9, 0xD4]), ";
"    ('\u{9F4A}', [0xBB, 0xF4]), ('\u{9F4B}', [0xC2, 0x4E]), ('\u{9F4C}', [0xF1, 0xE9]), ";
"    ('\u{9F4D}', [0xF3, 0xF9]), ('\u{9F4E}', [0xF6, 0xD2]), ('\u{9F4F}', [0xF8, 0x7E]), ";
"    ('\u{9F50}', [0xA0, 0xFC]), ('\u{9F52}', [0xBE, 0xA6]), ('\u{9F53}', [0x9F, 0xEE]), ";
"    ('\u{9F54}', [0xEF, 0xB5]), ('\u{9F55}', [0xF1, 0xEA]), ('\u{9F56}', [0xF3, 0xFA]), ";
"    ('\u{9F57}', [0xF3, 0xFB]), ('\u{9F58}', [0xF3, 0xFC]), ('\u{9F59}', [0xF5, 0xBE]), ";
"    ('\u{9F5A}', [0x9F, 0x69]), ('\u{9F5B}', [0xF5, 0xBA]), ('\u{9F5C}', [0xC5, 0x68]), ";
"    ('\u{9F5D}', [0xF5, 0xBD]), ('\u{9F5E}', [0xF5, 0xBC]), ('\u{9F5F}', [0xC4, 0xD4]), ";
"    ('\u{9F60}', [0xF5, 0xBB]), ('\u{9F61}', [0xC4, 0xD6]), ('\u{9F62}', [0x91, 0xC8]), ";
"    ('\u{9F63}', [0xC4, 0xD5]), ('\u{9F64}', [0xF6, 0xD4]), ('\u{9F65}', [0xF6, 0xD3]), ";
"    ('\u{9F66}', [0xC5, 0x69]), ('\u{9F67}', [0xC5, 0x6A]), ('\u{9F69}', [0x91, 0xC9]), ";
"    ('\u{9F6A}', [0xC5, 0xC6]), ('\u{9F6B}', [0xF7, 0xCD]), ('\u{9F6C}', [0xC5, 0xC5]), ";
"    ('\u{9F6E}', [0xF8, 0xA3]), ('\u{9F6F}', [0xF8, 0xA4]), ('\u{9F70}', [0xF8, 0xA2]), ";
"    ('\u{9F71}', [0xF8, 0xA1]), ('\u{9F72}', [0xC6, 0x54]), ('\u{9F74}', [0xF8, 0xEB]), ";
"    ('\u{9F75}', [0xF8, 0xEC]), ('\u{9F76}', [0xF8, 0xED]), ('\u{9F77}', [0xC6, 0x53]), ";
"    ('\u{9F78}', [0xF9, 0x67]), ('\u{9F79}', [0xF9, 0x6A]), ('\u{9F7A}', [0xF9, 0x69]), ";
"    ('\u{9F7B}', [0xF9, 0x68]), ('\u{9F7E}', [0xF9, 0xD3]), ('\u{9F7F}', [0x8D, 0xE6]), ";
"    ('\u{9F8D}', [0xC0, 0x73]), ('\u{9F8E}', [0x91, 0xCB]), ('\u{9F90}', [0xC3, 0x65]), ";
"    ('\u{9F91}', [0xF5, 0xBF]), ('\u{9F92}', [0xF6, 0xD5]), ('\u{9F94}', [0xC5, 0xC7]), ";
"    ('\u{9F95}', [0xF7, 0xCE]), ('\u{9F96}', [0x87, 0xAC]), ('\u{9F97}', [0x87, 0xA4]), ";
"    ('\u{9F98}', [0xF9, 0xD5]), ('\u{9F99}', [0x89, 0xC8]), ('\u{9F9C}', [0xC0, 0x74]), ";
"    ('\u{9F9F}', [0x8D, 0xAA]), ('\u{9FA0}', [0xEF, 0xB6]), ('\u{9FA2}', [0xF7, 0xCF]), ";
"    ('\u{9FA4}', [0xF9, 0xA1]), ('\u{9FA5}', [0x9F, 0xDD]), ('\u{9FA6}', [0x8C, 0x43]), ";
"    ('\u{9FA7}', [0x8C, 0x6D]), ('\u{9FA8}', [0x8C, 0x74]), ('\u{9FA9}', [0x8C, 0xB7]), ";
"    ('\u{9FAA}', [0x8C, 0xB9]), ('\u{9FAB}', [0x8C, 0xBB]), ('\u{9FAC}', [0x8C, 0xC0]), ";
"    ('\u{9FAD}', [0x8C, 0xD7]), ('\u{9FAE}', [0x8C, 0xD8]), ('\u{9FAF}', [0x8C, 0xDA]), ";
"    ('\u{9FB0}', [0xC8, 0xA1]), ('\u{9FB1}', [0xC8, 0xA3]), ('\u{9FB2}', [0x8C, 0xED]), ";
"    ('\u{9FB3}', [0x8D, 0x48]), ('\u{9FC7}', [0x87, 0xC2]), ('\u{9FC8}', [0x87, 0xD2]), ";
"    ('\u{9FC9}', [0x87, 0xD6]), ('\u{9FCA}', [0x87, 0xDA]), ('\u{9FCB}', [0x87, 0xDF]), ";
"    ('\u{F907}', [0x8B, 0xF8]), ('\u{FA0C}', [0xC9, 0x4A]), ('\u{FA0D}', [0xDD, 0xFC]), ";
"    ('\u{FE30}', [0xA1, 0x4A]), ('\u{FE31}', [0xA1, 0x57]), ('\u{FE33}', [0xA1, 0x59]), ";
"    ('\u{FE34}', [0xA1, 0x5B]), ('\u{FE35}', [0xA1, 0x5F]), ('\u{FE36}', [0xA1, 0x60]), ";
"    ('\u{FE37}', [0xA1, 0x63]), ('\u{FE38}', [0xA1, 0x64]), ('\u{FE39}', [0xA1, 0x67]), ";
"    ('\u{FE3A}', [0xA1, 0x68]), ('\u{FE3B}', [0xA1, 0x6B]), ('\u{FE3C}', [0xA1, 0x6C]), ";
"    ('\u{FE3D}', [0xA1, 0x6F]), ('\u{FE3E}', [0xA1, 0x70]), ('\u{FE3F}', [0xA1, 0x73]), ";
"    ('\u{FE40}', [0xA1, 0x74]), ('\u{FE41}', [0xA1, 0x77]), ('\u{FE42}', [0xA1, 0x78]), ";
"    ('\u{FE43}', [0xA1, 0x7B]), ('\u{FE44}', [0xA1, 0x7C]), ('\u{FE49}', [0xA1, 0xC6]), ";
"    ('\u{FE4A}', [0xA1, 0xC7]), ('\u{FE4B}', [0xA1, 0xCA]), ('\u{FE4C}', [0xA1, 0xCB]), ";
"    ('\u{FE4D}', [0xA1, 0xC8]), ('\u{FE4E}', [0xA1, 0xC9]), ('\u{FE4F}', [0xA1, 0x5C]), ";
"    ('\u{FE50}', [0xA1, 0x4D]), ('\u{FE51}', [0xA1, 0x4E]), ('\u{FE52}', [0xA1, 0x4F]), ";
"    ('\u{FE54}', [0xA1, 0x51]), ('\u{FE55}', [0xA1, 0x52]), ('\u{FE56}', [0xA1, 0x53]), ";
"    ('\u{FE57}', [0xA1, 0x54]), ('\u{FE59}', [0xA1, 0x7D]), ('\u{FE5A}', [0xA1, 0x7E]), ";
"    ('\u{FE5B}', [0xA1, 0xA1]), ('\u{FE5C}', [0xA1, 0xA2]), ('\u{FE5D}', [0xA1, 0xA3]), ";
"    ('\u{FE5E}', [0xA1, 0xA4]), ('\u{FE5F}', [0xA1, 0xCC]), ('\u{FE60}', [0xA1, 0xCD]), ";
"    ('\u{FE61}', [0xA1, 0xCE]), ('\u{FE62}', [0xA1, 0xDE]), ('\u{FE63}', [0xA1, 0xDF]), ";
"    ('\u{FE64}', [0xA1, 0xE0]), ('\u{FE65}', [0xA1, 0xE1]), ('\u{FE66}', [0xA1, 0xE2]), ";
"    ('\u{FE68}', [0xA2, 0x42]), ('\u{FE69}', [0xA2, 0x4C]), ('\u{FE6A}', [0xA2, 0x4D]), ";
"    ('\u{FE6B}', [0xA2, 0x4E]), ('\u{FF01}', [0xA1, 0x49]), ('\u{FF02}', [0xC8, 0xD0]), ";
"    ('\u{FF03}', [0xA1, 0xAD]), ('\u{FF04}', [0xA2, 0x43]), ('\u{FF05}', [0xA2, 0x48]), ";
"    ('\u{FF06}', [0xA1, 0xAE]), ('\u{FF07}', [0xC8, 0xCF]), ('\u{FF08}', [0xA1, 0x5D]), ";
"    ('\u{FF09}', [0xA1, 0x5E]), ('\u{FF0A}', [0xA1, 0xAF]), ('\u{FF0B}', [0xA1, 0xCF]), ";
"    ('\u{FF0C}', [0xA1, 0x41]), ('\u{FF0D}', [0xA1, 0xD0]), ('\u{FF0E}', [0xA1, 0x44]), ";
"    ('\u{FF0F}', [0xA1, 0xFE]), ('\u{FF10}', [0xA2, 0xAF]), ('\u{FF11}', [0xA2, 0xB0]), ";
"    ('\u{FF12}', [0xA2, 0xB1]), ('\u{FF13}', [0xA2, 0xB2]), ('\u{FF14}', [0xA2, 0xB3]), ";
"    ('\u{FF15}', [0xA2, 0xB4]), ('\u{FF16}', [0xA2, 0xB5]), ('\u{FF17}', [0xA2, 0xB6]), ";
"    ('\u{FF18}', [0xA2, 0xB7]), ('\u{FF19}', [0xA2, 0xB8]), ('\u{FF1A}', [0xA1, 0x47]), ";
"    ('\u{FF1B}', [0xA1, 0x46]), ('\u{FF1C}', [0xA1, 0xD5]), ('\u{FF1D}', [0xA1, 0xD7]), ";
"    ('\u{FF1E}', [0xA1, 0xD6]), ('\u{FF1F}', [0xA1, 0x48]), ('\u{FF20}', [0xA2, 0x49]), ";
"    ('\u{FF21}', [0xA2, 0xCF]), ('\u{FF22}', [0xA2, 0xD0]), ('\u{FF23}', [0xA2, 0xD1]), ";
"    ('\u{FF24}', [0xA2, 0xD2]), ('\u{FF25}', [0xA2, 0xD3]), ('\u{FF26}', [0xA2, 0xD4]), ";
"    ('\u{FF27}', [0xA2, 0xD5]), ('\u{FF28}', [0xA2, 0xD6]), ('\u{FF29}', [0xA2, 0xD7]), ";
"    ('\u{FF2A}', [0xA2, 0xD8]), ('\u{FF2B}', [0xA2, 0xD9]), ('\u{FF2C}', [0xA2, 0xDA]), ";
"    ('\u{FF2D}', [0xA2, 0xDB]), ('\u{FF2E}', [0xA2, 0xDC]), ('\u{FF2F}', [0xA2, 0xDD]), ";
"    ('\u{FF30}', [0xA2, 0xDE]), ('\u{FF31}', [0xA2, 0xDF]), ('\u{FF32}', [0xA2, 0xE0]), ";
"    ('\u{FF33}', [0xA2, 0xE1]), ('\u{FF34}', [0xA2, 0xE2]), ('\u{FF35}', [0xA2, 0xE3]), ";
"    ('\u{FF36}', [0xA2, 0xE4]), ('\u{FF37}', [0xA2, 0xE5]), ('\u{FF38}', [0xA2, 0xE6]), ";
"    ('\u{FF39}', [0xA2, 0xE7]), ('\u{FF3A}', [0xA2, 0xE8]), ('\u{FF3B}', [0xC6, 0xE4]), ";
"    ('\u{FF3C}', [0xA2, 0x40]), ('\u{FF3D}', [0xC6, 0xE5]), ('\u{FF3F}', [0xA1, 0xC4]), ";
"    ('\u{FF41}', [0xA2, 0xE9]), ('\u{FF42}', [0xA2, 0xEA]), ('\u{FF43}', [0xA2, 0xEB]), ";
"    ('\u{FF44}', [0xA2, 0xEC]), ('\u{FF45}', [0xA2, 0xED]), ('\u{FF46}', [0xA2, 0xEE]), ";
"    ('\u{FF47}', [0xA2, 0xEF]), ('\u{FF48}', [0xA2, 0xF0]), ('\u{FF49}', [0xA2, 0xF1]), ";
"    ('\u{FF4A}', [0xA2, 0xF2]), ('\u{FF4B}', [0xA2, 0xF3]), ('\u{FF4C}', [0xA2, 0xF4]), ";
"    ('\u{FF4D}', [0xA2, 0xF5]), ('\u{FF4E}', [0xA2, 0xF6]), ('\u{FF4F}', [0xA2, 0xF7]), ";
"    ('\u{FF50}', [0xA2, 0xF8]), ('\u{FF51}', [0xA2, 0xF9]), ('\u{FF52}', [0xA2, 0xFA]), ";
"    ('\u{FF53}', [0xA2, 0xFB]), ('\u{FF54}', [0xA2, 0xFC]), ('\u{FF55}', [0xA2, 0xFD]), ";
"    ('\u{FF56}', [0xA2, 0xFE]), ('\u{FF57}', [0xA3, 0x40]), ('\u{FF58}', [0xA3, 0x41]), ";
"    ('\u{FF59}', [0xA3, 0x42]), ('\u{FF5A}', [0xA3, 0x43]), ('\u{FF5B}', [0xA1, 0x61]), ";
"    ('\u{FF5C}', [0xA1, 0x55]), ('\u{FF5D}', [0xA1, 0x62]), ('\u{FF5E}', [0xA1, 0xE3]), ";
"    ('\u{FFE0}', [0xA2, 0x46]), ('\u{FFE1}', [0xA2, 0x47]), ('\u{FFE2}', [0xC8, 0xCD]), ";
"    ('\u{FFE3}', [0xA1, 0xC3]), ('\u{FFE4}', [0xC8, 0xCE]), ('\u{FFE5}', [0xA2, 0x44]), ";
"    ('\u{FFED}', [0xF9, 0xFE]), ('\u{20021}', [0x9C, 0x71]), ('\u{2003E}', [0x93, 0x75]), ";
"    ('\u{20046}', [0x93, 0x76]), ('\u{2004E}', [0x95, 0x48]), ('\u{20068}', [0x8E, 0xC6]), ";
"    ('\u{20086}', [0x8B, 0xC5]), ('\u{20087}', [0x8B, 0xFA]), ('\u{2008A}', [0xC8, 0x7C]), ";
"    ('\u{20094}', [0x9A, 0xB4]), ('\u{200CA}', [0x88, 0x4E]), ('\u{200CB}', [0x88, 0x4B]), ";
"    ('\u{200CC}', [0xC8, 0x7A]), ('\u{200CD}', [0x88, 0x48]), ('\u{200D1}', [0x88, 0x47]), ";
"    ('\u{200EE}', [0xA0, 0xF6]), ('\u{2010C}', [0x88, 0x45]), ('\u{2010E}', [0x88, 0x53]), ";
"    ('\u{20118}', [0xFC, 0xAD]), ('\u{201A4}', [0x8C, 0xF5]), ('\u{201A9}', [0x8A, 0xAD]), ";
"    ('\u{201AB}', [0x92, 0x72]), ('\u{201C1}', [0xFC, 0x47]), ('\u{201D4}', [0x94, 0xDF]), ";
"    ('\u{201F2}', [0x9F, 0xD1]), ('\u{20204}', [0xFB, 0xCB]), ('\u{2020C}', [0x92, 0x7D]), ";
"    ('\u{20214}', [0x98, 0xA4]), ('\u{20239}', [0x8C, 0xF9]), ('\u{2025B}', [0x94, 0xE7]), ";
"    ('\u{20274}', [0x90, 0xCB]), ('\u{20275}', [0x92, 0x7B]), ('\u{20299}', [0x94, 0xD8]), ";
"    ('\u{2029E}', [0xFC, 0x5F]), ('\u{202A0}', [0xFA, 0x54]), ('\u{202B7}', [0x9A, 0xB5]), ";
"    ('\u{202BF}', [0x96, 0xDA]), ('\u{202C0}', [0x92, 0x79]), ('\u{202E5}', [0xFA, 0x74]), ";
"    ('\u{2030A}', [0x92, 0x75]), ('\u{20325}', [0x8D, 0xFB]), ('\u{20341}', [0x8A, 0x49]), ";
"    ('\u{20345}', [0x92, 0xDF]), ('\u{20346}', [0x9B, 0x7C]), ('\u{20347}', [0xFA, 0x63]), ";
"    ('\u{2037E}', [0xFA, 0x60]), ('\u{2037F}', [0x92, 0x6D]), ('\u{20380}', [0xFA, 0x62]), ";
"    ('\u{203A0}', [0x9A, 0xB6]), ('\u{203A7}', [0x97, 0x6B]), ('\u{203B5}', [0xFD, 0x6A]), ";
"    ('\u{203C9}', [0xFD, 0x54]), ('\u{203CB}', [0x92, 0x73]), ('\u{203F5}', [0x97, 0xD8]), ";
"    ('\u{203FC}', [0x9F, 0xBB]), ('\u{20413}', [0x93, 0x42]), ('\u{20414}', [0x92, 0x76]), ";
"    ('\u{2041F}', [0xFA, 0x65]), ('\u{20465}', [0x92, 0x6C]), ('\u{20487}', [0xFA, 0x6E]), ";
"    ('\u{2048E}', [0x9E, 0xE0]), ('\u{20491}', [0x92, 0xC0]), ('\u{20492}', [0x92, 0xBF]), ";
"    ('\u{204A3}', [0x92, 0xBE]), ('\u{204D7}', [0x9A, 0xBA]), ('\u{204FC}', [0x8A, 0xB3]), ";
"    ('\u{204FE}', [0x97, 0x75]), ('\u{20547}', [0xFA, 0x40]), ('\u{2058E}', [0xFA, 0x76]), ";
"    ('\u{205A5}', [0xFB, 0xD0]), ('\u{205B3}', [0xFA, 0x7B]), ('\u{205C3}', [0xFE, 0x6D]), ";
"    ('\u{205CA}', [0x9B, 0xB3]), ('\u{205D0}', [0x89, 0xCC]), ('\u{205D5}', [0x9A, 0xBE]), ";
"    ('\u{205DF}', [0xFA, 0x42]), ('\u{205E0}', [0x92, 0xBC]), ('\u{205EB}', [0x94, 0x5C]), ";
"    ('\u{20611}', [0x9B, 0xB5]), ('\u{20615}', [0x9A, 0xBF]), ('\u{20619}', [0x98, 0xA7]), ";
"    ('\u{2061A}', [0x97, 0xA4]), ('\u{20630}', [0x90, 0xFD]), ('\u{20656}', [0xFC, 0x7B]), ";
"    ('\u{20676}', [0x9A, 0xC0]), ('\u{2070E}', [0x92, 0xC3]), ('\u{20731}', [0x8A, 0xAA]), ";
"    ('\u{20779}', [0x9B, 0xD0]), ('\u{2082C}', [0x95, 0x50]), ('\u{20873}', [0x92, 0xC6]), ";
"    ('\u{208D5}', [0x98, 0xA6]), ('\u{20916}', [0x95, 0x46]), ('\u{20923}', [0xFD, 0x63]), ";
"    ('\u{20954}', [0xFA, 0xC2]), ('\u{20979}', [0x9E, 0xC3]), ('\u{209E7}', [0x89, 0xB2]), ";
"    ('\u{20A11}', [0x9C, 0x66]), ('\u{20A50}', [0x90, 0x53]), ('\u{20A6F}', [0x8C, 0x62]), ";
"    ('\u{20A8A}', [0x87, 0xA8]), ('\u{20AB4}', [0x97, 0xC1]), ('\u{20AC2}', [0x9A, 0xC4]), ";
"    ('\u{20ACD}', [0x9A, 0xC5]), ('\u{20B0D}', [0x8E, 0xEF]), ('\u{20B8F}', [0xFA, 0xE9]), ";
"    ('\u{20B9F}', [0x8D, 0x40]), ('\u{20BA8}', [0x92, 0x62]), ('\u{20BA9}', [0x8A, 0xF7]), ";
"    ('\u{20BBF}', [0x9A, 0xC6]), ('\u{20BC6}', [0x92, 0xE1]), ('\u{20BCB}', [0x9A, 0xC9]), ";
"    ('\u{20BE2}', [0xFA, 0xC6]), ('\u{20BEB}', [0x97, 0xA5]), ('\u{20BFB}', [0x9A, 0xCB]), ";
"    ('\u{20BFF}', [0xFA, 0x72]), ('\u{20C0B}', [0x8A, 0x5E]), ('\u{20C0D}', [0x94, 0xE0]), ";
"    ('\u{20C20}', [0x92, 0xCC]), ('\u{20C34}', [0x8A, 0xE5]), ('\u{20C3A}', [0xFE, 0x5C]), ";
"    ('\u{20C3B}', [0x9A, 0xCC]), ('\u{20C41}', [0x9D, 0xF9]), ('\u{20C42}', [0x8A, 0x43]), ";
"    ('\u{20C43}', [0x8A, 0xA6]), ('\u{20C53}', [0x9A, 0xCD]), ('\u{20C65}', [0x9A, 0xCE]), ";
"    ('\u{20C77}', [0xFA, 0xEE]), ('\u{20C78}', [0x9B, 0xCC]), ('\u{20C7C}', [0x9A, 0xCF]), ";
"    ('\u{20C8D}', [0x9A, 0xD1]), ('\u{20C96}', [0x9D, 0xFA]), ('\u{20C9C}', [0x9D, 0x7C]), ";
"    ('\u{20CB5}', [0x9A, 0xD3]), ('\u{20CB8}', [0x97, 0xA6]), ('\u{20CCF}', [0x99, 0x5F]), ";
"    ('\u{20CD3}', [0xFB, 0xF6]), ('\u{20CD4}', [0x9F, 0xC5]), ('\u{20CD5}', [0x8A, 0x59]), ";
"    ('\u{20CD6}', [0x8B, 0x6B]), ('\u{20CDD}', [0x9A, 0xD4]), ('\u{20CED}', [0x9A, 0xD5]), ";
"    ('\u{20CFF}', [0x97, 0xA2]), ('\u{20D15}', [0x8A, 0x44]), ('\u{20D28}', [0x9F, 0x4A]), ";
"    ('\u{20D31}', [0x90, 0xA1]), ('\u{20D32}', [0xFD, 0xA4]), ('\u{20D46}', [0x8A, 0x64]), ";
"    ('\u{20D47}', [0x8A, 0xF2]), ('\u{20D48}', [0x8A, 0xF8]), ('\u{20D49}', [0x9D, 0xD8]), ";
"    ('\u{20D4C}', [0x94, 0xD6]), ('\u{20D4D}', [0xFA, 0xFE]), ('\u{20D4E}', [0xFB, 0xA7]), ";
"    ('\u{20D6F}', [0x9A, 0xD6]), ('\u{20D71}', [0x9F, 0x4D]), ('\u{20D74}', [0xFA, 0xF6]), ";
"    ('\u{20D7C}', [0x8A, 0x57]), ('\u{20D7E}', [0x8B, 0x43]), ('\u{20D7F}', [0x8B, 0x44]), ";
"    ('\u{20D96}', [0x8A, 0xB6]), ('\u{20D9C}', [0x8A, 0xC0]), ('\u{20DA7}', [0x9E, 0x54]), ";
"    ('\u{20DB2}', [0x9A, 0xD7]), ('\u{20DC8}', [0x9A, 0xD8]), ('\u{20E04}', [0x9A, 0xDC]), ";
"    ('\u{20E09}', [0x8A, 0xCA]), ('\u{20E0A}', [0x9E, 0xA8]), ('\u{20E0D}', [0x92, 0x63]), ";
"    ('\u{20E0E}', [0x9A, 0xDD]), ('\u{20E0F}', [0x8B, 0x65]), ('\u{20E10}', [0x8B, 0x6F]), ";
"    ('\u{20E11}', [0x8B, 0x7E]), ('\u{20E16}', [0x8F, 0x43]), ('\u{20E1D}', [0x92, 0xD0]), ";
"    ('\u{20E4C}', [0x8A, 0xF4]), ('\u{20E6D}', [0x9D, 0xBE]), ('\u{20E73}', [0x9A, 0xE1]), ";
"    ('\u{20E75}', [0xFC, 0xDE]), ('\u{20E76}', [0x9D, 0xFD]), ('\u{20E77}', [0x8B, 0x66]), ";
"    ('\u{20E78}', [0x8B, 0x70]), ('\u{20E79}', [0x8B, 0x75]), ('\u{20E7A}', [0x8A, 0xE4]), ";
"    ('\u{20E7B}', [0x8B, 0xA4]), ('\u{20E8C}', [0x8A, 0xED]), ('\u{20E96}', [0x8A, 0x5D]), ";
"    ('\u{20E98}', [0x8B, 0x48]), ('\u{20E9D}', [0x9D, 0xED]), ('\u{20EA2}', [0x9E, 0x40]), ";
"    ('\u{20EAA}', [0x8A, 0xEF]), ('\u{20EAB}', [0x8A, 0xF6]), ('\u{20EAC}', [0x9E, 0x76]), ";
"    ('\u{20EB6}', [0x9E, 0xE3]), ('\u{20ED7}', [0x9A, 0xDE]), ('\u{20ED8}', [0x8D, 0xFE]), ";
"    ('\u{20EDD}', [0xFA, 0xFC]), ('\u{20EF8}', [0x9C, 0xB1]), ('\u{20EF9}', [0x9E, 0x77]), ";
"    ('\u{20EFA}', [0x8B, 0x64]), ('\u{20EFB}', [0x8B, 0x67]), ('\u{20F1D}', [0x97, 0x4B]), ";
"    ('\u{20F26}', [0x96, 0x53]), ('\u{20F2D}', [0x9A, 0xE0]), ('\u{20F2E}', [0x8B, 0x4A]), ";
"    ('\u{20F30}', [0x8A, 0xF1]), ('\u{20F31}', [0x8A, 0xD7]), ('\u{20F3B}', [0xA0, 0xAB]), ";
"    ('\u{20F4C}', [0x8A, 0xB5]), ('\u{20F64}', [0x8A, 0x5F]), ('\u{20F8D}', [0x8A, 0xEE]), ";
"    ('\u{20F90}', [0x9A, 0xDF]), ('\u{20FAD}', [0x8A, 0xFE]), ('\u{20FB4}', [0x8A, 0x58]), ";
"    ('\u{20FB5}', [0x8B, 0xA3]), ('\u{20FB6}', [0x8B, 0xA7]), ('\u{20FBC}', [0x9A, 0xE3]), ";
"    ('\u{20FDF}', [0x92, 0x61]), ('\u{20FEA}', [0x9D, 0xD7]), ('\u{20FEB}', [0x9E, 0x7D]), ";
"    ('\u{20FEC}', [0x9E, 0xA7]), ('\u{20FED}', [0x9E, 0xAB]), ('\u{21014}', [0x90, 0x42]), ";
"    ('\u{2101D}', [0x8B, 0x79]), ('\u{2101E}', [0x8B, 0x7A]), ('\u{2104F}', [0x9A, 0xE6]), ";
"    ('\u{2105C}', [0x9A, 0xE5]), ('\u{2106F}', [0x8A, 0x7E]), ('\u{21075}', [0x9E, 0x44]), ";
"    ('\u{21076}', [0x9A, 0xE7]), ('\u{21077}', [0x8A, 0x7C]), ('\u{21078}', [0x8B, 0x71]), ";
"    ('\u{2107B}', [0x9A, 0xE9]), ('\u{21088}', [0x9A, 0xEA]), ('\u{21096}', [0x9A, 0xEB]), ";
"    ('\u{2109D}', [0x8A, 0xBD]), ('\u{210B4}', [0xFB, 0x4E]), ('\u{210BF}', [0x9A, 0xED]), ";
"    ('\u{210C0}', [0x8A, 0xF9]), ('\u{210C1}', [0x9E, 0x63]), ('\u{210C7}', [0x8B, 0x49]), ";
"    ('\u{210C8}', [0x8A, 0xCE]), ('\u{210C9}', [0x8B, 0x6E]), ('\u{210CF}', [0x8A, 0xE8]), ";
"    ('\u{210D3}', [0x9A, 0xEE]), ('\u{210E4}', [0x92, 0xCE]), ('\u{210F4}', [0x8A, 0x5A]), ";
"    ('\u{210F5}', [0x8B, 0x7B]), ('\u{210F6}', [0x8B, 0x7C]), ('\u{2112F}', [0x9A, 0xEF]), ";
"    ('\u{2113B}', [0x9A, 0xF0]), ('\u{2113D}', [0x8A, 0xFA]), ('\u{21145}', [0x89, 0x41]), ";
"    ('\u{21148}', [0x8B, 0x72]), ('\u{2114F}', [0x8A, 0xF3]), ('\u{21180}', [0x8B, 0xA8]), ";
"    ('\u{21187}', [0x9E, 0xAE]), ('\u{211D9}', [0x9E, 0x72]), ('\u{2123C}', [0xFB, 0x73]), ";
"    ('\u{2124F}', [0xFB, 0x5F]), ('\u{2127C}', [0x90, 0xBA]), ('\u{212A8}', [0x91, 0xFE]), ";
"    ('\u{212A9}', [0x9E, 0xF6]), ('\u{212B0}', [0x97, 0xED]), ('\u{212E3}', [0x9A, 0xF3]), ";
"    ('\u{212FE}', [0xA0, 0xEE]), ('\u{21302}', [0x96, 0x7C]), ('\u{21303}', [0x93, 0x45]), ";
"    ('\u{21304}', [0x98, 0x6E]), ('\u{21305}', [0xFA, 0x56]), ('\u{21336}', [0x9A, 0xF5]), ";
"    ('\u{2133A}', [0xFC, 0x4B]), ('\u{21375}', [0x9A, 0xF4]), ('\u{21376}', [0xFE, 0xDE]), ";
"    ('\u{2138E}', [0xFC, 0xB7]), ('\u{21398}', [0x97, 0xF1]), ('\u{2139C}', [0x97, 0xC7]), ";
"    ('\u{213C5}', [0x9C, 0xCB]), ('\u{213C6}', [0x92, 0x40]), ('\u{213ED}', [0x9C, 0xE8]), ";
"    ('\u{213FE}', [0x91, 0xFD]), ('\u{21413}', [0x97, 0x4E]), ('\u{21416}', [0xFB, 0x68]), ";
"    ('\u{21424}', [0x97, 0x6C]), ('\u{2143F}', [0x8C, 0xC2]), ('\u{21452}', [0x97, 0xE8]), ";
"    ('\u{21454}', [0xFB, 0x6A]), ('\u{21455}', [0x8B, 0x74]), ('\u{2148A}', [0x8E, 0xE7]), ";
"    ('\u{21497}', [0xFD, 0xC8]), ('\u{214B6}', [0x92, 0x41]), ('\u{214E8}', [0x96, 0xA1]), ";
"    ('\u{214FD}', [0x8E, 0xF3]), ('\u{21577}', [0x9A, 0xF7]), ('\u{21582}', [0x8F, 0xA6]), ";
"    ('\u{21596}', [0xFA, 0xD6]), ('\u{2160A}', [0x9C, 0xC7]), ('\u{21613}', [0xFA, 0xD7]), ";
"    ('\u{21619}', [0x9A, 0xF8]), ('\u{2163E}', [0xFB, 0xA1]), ('\u{21661}', [0x8E, 0xC5]), ";
"    ('\u{21692}', [0xFB, 0xA4]), ('\u{216B8}', [0xFB, 0xC2]), ('\u{216BA}', [0x9A, 0xC1]), ";
"    ('\u{216C0}', [0x91, 0xFA]), ('\u{216C1}', [0xFE, 0xDB]), ('\u{216C2}', [0x97, 0xAB]), ";
"    ('\u{216D3}', [0x91, 0x47]), ('\u{216D5}', [0xFB, 0xB1]), ('\u{216DF}', [0x8F, 0xEA]), ";
"    ('\u{216E6}', [0x94, 0xD2]), ('\u{216E7}', [0xFE, 0x61]), ('\u{216E8}', [0xFA, 0xCE]), ";
"    ('\u{216FA}', [0x92, 0xED]), ('\u{216FB}', [0x91, 0xF3]), ('\u{216FC}', [0x93, 0xC6]), ";
"    ('\u{216FE}', [0x93, 0x5A]), ('\u{2170D}', [0xFA, 0xFB]), ('\u{21710}', [0x92, 0xEF]), ";
"    ('\u{21726}', [0xFA, 0xC8]), ('\u{2173A}', [0x98, 0x47]), ('\u{2173B}', [0x93, 0x66]), ";
"    ('\u{2173C}', [0x98, 0x55]), ('\u{21757}', [0x96, 0xE6]), ('\u{2176C}', [0x9F, 0x43]), ";
"    ('\u{2176D}', [0x9F, 0xAA]), ('\u{2176E}', [0x94, 0xDA]), ('\u{2176F}', [0x92, 0xEE]), ";
"    ('\u{21770}', [0xFC, 0xAF]), ('\u{21771}', [0xFB, 0xFB]), ('\u{21773}', [0x8E, 0xF9]), ";
"    ('\u{21774}', [0x91, 0xF6]), ('\u{217AB}', [0x93, 0x64]), ('\u{217B0}', [0x94, 0xF5]), ";
"    ('\u{217B1}', [0x9C, 0xB6]), ('\u{217B2}', [0xFB, 0xAD]), ('\u{217B3}', [0x98, 0x4E]), ";
"    ('\u{217B4}', [0x8F, 0x44]), ('\u{217B5}', [0x96, 0xFD]), ('\u{217C3}', [0x9A, 0xF9]), ";
"    ('\u{217C7}', [0x9A, 0xFA]), ('\u{217D9}', [0x97, 0x69]), ('\u{217DA}', [0x95, 0xD4]), ";
"    ('\u{217DB}', [0x98, 0x4B]), ('\u{217DC}', [0xFB, 0xAA]), ('\u{217DF}', [0x98, 0x7C]), ";
"    ('\u{217EF}', [0x91, 0xEA]), ('\u{217F5}', [0x9D, 0xAF]), ('\u{217F6}', [0x9D, 0xC5]), ";
"    ('\u{217F8}', [0x91, 0xF1]), ('\u{217F9}', [0x8E, 0xB1]), ('\u{217FA}', [0x97, 0xA9]), ";
"    ('\u{217FB}', [0xFB, 0xAC]), ('\u{217FC}', [0xFC, 0xB8]), ('\u{21820}', [0x9C, 0xB9]), ";
"    ('\u{21828}', [0xFB, 0xB0]), ('\u{21829}', [0xFC, 0xD2]), ('\u{2182A}', [0x93, 0xCB]), ";
"    ('\u{2182D}', [0x9A, 0xFD]), ('\u{21839}', [0x91, 0xF4]), ('\u{2183A}', [0x8B, 0xAC]), "
].
(* /repo/src/generated/whatwg/big5_whatwg_tables.rs.inc:8193-8448 *)
Definition big5_inc_32 : list line := [
"    ('\u{2183B}', [0xA0, 0x55]), ('\u{21840}', [0x95, 0x74]), ('\u{21845}', [0x95, 0xBE]), ";
"    ('\u{21852}', [0x97, 0xAD]), ('\u{2185E}', [0x8E, 0xE9]), ('\u{21861}', [0x92, 0xF8]), ";
"    ('\u{21862}', [0x97, 0xBE]), ('\u{21863}', [0x91, 0x6C]), ('\u{21864}', [0x94, 0xAA]), ";
"    ('\u{21877}', [0xFC, 0x63]), ('\u{2187B}', [0x9D, 0xC6]), ('\u{21883}', [0x97, 0xB5]), ";
"    ('\u{21884}', [0x92, 0xB8]), ('\u{21885}', [0x91, 0xEF]), ('\u{2189E}', [0xFE, 0xA6]), ";
"    ('\u{2189F}', [0x97, 0x60]), ('\u{218A0}', [0x93, 0x58]), ('\u{218A1}', [0x95, 0x76]), ";
"    ('\u{218A2}', [0x8F, 0xAC]), ('\u{218BE}', [0x91, 0xEC]), ('\u{218BF}', [0x97, 0xB4]), ";
"    ('\u{218D1}', [0x91, 0xF7]), ('\u{218D6}', [0x97, 0x4A]), ('\u{218D7}', [0xFB, 0x49]), ";
"    ('\u{218D8}', [0x95, 0x78]), ('\u{218D9}', [0x93, 0xBC]), ('\u{218FA}', [0x91, 0xD6]), ";
"    ('\u{21903}', [0x93, 0x55]), ('\u{21904}', [0x93, 0x56]), ('\u{21905}', [0x98, 0x51]), ";
"    ('\u{21910}', [0x8F, 0xF8]), ('\u{21911}', [0xFB, 0xC0]), ('\u{21912}', [0x93, 0xF2]), ";
"    ('\u{21915}', [0x90, 0xD0]), ('\u{2191C}', [0x9C, 0x44]), ('\u{21922}', [0x92, 0x55]), ";
"    ('\u{21927}', [0x93, 0x63]), ('\u{2193B}', [0x91, 0xA5]), ('\u{21944}', [0xA0, 0xED]), ";
"    ('\u{21958}', [0xFD, 0x6B]), ('\u{2196A}', [0x9A, 0xFE]), ('\u{2197C}', [0x93, 0x51]), ";
"    ('\u{21980}', [0x8C, 0x57]), ('\u{21983}', [0xFA, 0x78]), ('\u{21988}', [0xFE, 0xA8]), ";
"    ('\u{21996}', [0x93, 0x50]), ('\u{219DB}', [0xFA, 0x4C]), ('\u{219F3}', [0x92, 0xF7]), ";
"    ('\u{21A2D}', [0x9B, 0x40]), ('\u{21A34}', [0xFB, 0xCE]), ('\u{21A45}', [0x9B, 0x41]), ";
"    ('\u{21A4B}', [0xFE, 0xAD]), ('\u{21A63}', [0x87, 0x61]), ('\u{21B44}', [0xFB, 0xD5]), ";
"    ('\u{21BC1}', [0x8B, 0xC2]), ('\u{21BC2}', [0x9A, 0x7C]), ('\u{21C2A}', [0x9B, 0x42]), ";
"    ('\u{21C70}', [0x9B, 0x43]), ('\u{21CA2}', [0x9E, 0x79]), ('\u{21CA5}', [0xFB, 0xD9]), ";
"    ('\u{21CAC}', [0x9B, 0x44]), ('\u{21D46}', [0xA0, 0xA7]), ('\u{21D53}', [0x87, 0x7B]), ";
"    ('\u{21D5E}', [0x87, 0x6E]), ('\u{21D90}', [0x9B, 0xF3]), ('\u{21DB6}', [0x8C, 0x79]), ";
"    ('\u{21DBA}', [0x93, 0x5E]), ('\u{21DCA}', [0x89, 0xCB]), ('\u{21DD1}', [0x9F, 0x53]), ";
"    ('\u{21DEB}', [0x93, 0xD7]), ('\u{21DF9}', [0xFB, 0xE1]), ('\u{21E1C}', [0xFE, 0xD0]), ";
"    ('\u{21E23}', [0x8C, 0xF1]), ('\u{21E37}', [0xFB, 0xE2]), ('\u{21E3D}', [0xFC, 0xE3]), ";
"    ('\u{21E89}', [0x90, 0x74]), ('\u{21EA4}', [0xFB, 0xE6]), ('\u{21EA8}', [0x9B, 0xB7]), ";
"    ('\u{21EC8}', [0x9B, 0x45]), ('\u{21ED5}', [0x9B, 0x47]), ('\u{21F0F}', [0x9F, 0x50]), ";
"    ('\u{21F15}', [0x9B, 0x48]), ('\u{21F6A}', [0xFC, 0x5B]), ('\u{21F9E}', [0x98, 0xA9]), ";
"    ('\u{21FA1}', [0x9C, 0xFD]), ('\u{21FE8}', [0x88, 0x4C]), ('\u{22045}', [0x9B, 0x4B]), ";
"    ('\u{22049}', [0xFB, 0xEC]), ('\u{2207E}', [0x8C, 0x69]), ('\u{2209A}', [0x9B, 0xA8]), ";
"    ('\u{220C7}', [0x8A, 0xD5]), ('\u{220FC}', [0xFA, 0x73]), ('\u{2212A}', [0xFD, 0x59]), ";
"    ('\u{2215B}', [0x91, 0xA2]), ('\u{22173}', [0xFB, 0xED]), ('\u{2217A}', [0x9C, 0xA9]), ";
"    ('\u{221A1}', [0x8A, 0xA8]), ('\u{221C1}', [0x8D, 0x42]), ('\u{221C3}', [0x9B, 0xC3]), ";
"    ('\u{22208}', [0x8A, 0xE1]), ('\u{2227C}', [0x9B, 0x4E]), ('\u{22321}', [0x95, 0xD0]), ";
"    ('\u{22325}', [0x90, 0x5F]), ('\u{223BD}', [0x97, 0xEE]), ('\u{223D0}', [0xFC, 0x4E]), ";
"    ('\u{223D7}', [0x9B, 0x4F]), ('\u{223FA}', [0x9B, 0x50]), ('\u{22465}', [0x9E, 0xC6]), ";
"    ('\u{22471}', [0xFC, 0x50]), ('\u{2248B}', [0xFD, 0x73]), ('\u{22491}', [0xFD, 0xA7]), ";
"    ('\u{224B0}', [0x9D, 0xA2]), ('\u{224BC}', [0x87, 0xD1]), ('\u{224C1}', [0x87, 0xD3]), ";
"    ('\u{224C9}', [0x87, 0xD4]), ('\u{224CC}', [0x87, 0xD5]), ('\u{224ED}', [0xFA, 0x58]), ";
"    ('\u{22513}', [0xFA, 0x5E]), ('\u{2251B}', [0xA0, 0x59]), ('\u{22530}', [0xFA, 0x75]), ";
"    ('\u{22554}', [0xFB, 0xBE]), ('\u{2258D}', [0x9C, 0xA2]), ('\u{225AF}', [0x93, 0x70]), ";
"    ('\u{225BE}', [0x93, 0x71]), ('\u{2261B}', [0x93, 0x77]), ('\u{2261C}', [0xFE, 0xEF]), ";
"    ('\u{2262B}', [0x93, 0x6D]), ('\u{22668}', [0xFC, 0x5D]), ('\u{2267A}', [0x90, 0xB8]), ";
"    ('\u{22696}', [0x8A, 0xFC]), ('\u{22698}', [0xFB, 0x41]), ('\u{226F4}', [0x9E, 0x6B]), ";
"    ('\u{226F5}', [0x94, 0xE3]), ('\u{226F6}', [0x8E, 0xE2]), ('\u{22712}', [0x8C, 0x7D]), ";
"    ('\u{22714}', [0x8E, 0xD7]), ('\u{2271B}', [0x9C, 0x4D]), ('\u{2271F}', [0x96, 0xA3]), ";
"    ('\u{2272A}', [0x9B, 0x51]), ('\u{22775}', [0x8A, 0xC3]), ('\u{22781}', [0x96, 0xAA]), ";
"    ('\u{22796}', [0x8C, 0xE2]), ('\u{227B4}', [0xFC, 0x68]), ('\u{227B5}', [0x8B, 0x6D]), ";
"    ('\u{227CD}', [0xFD, 0x67]), ('\u{22803}', [0x8A, 0xE9]), ('\u{2285F}', [0xFC, 0xA1]), ";
"    ('\u{22860}', [0x93, 0x6C]), ('\u{22871}', [0x9B, 0x52]), ('\u{228AD}', [0xFE, 0x70]), ";
"    ('\u{228C1}', [0xFC, 0xA8]), ('\u{228F7}', [0xFC, 0xE9]), ('\u{22926}', [0x9C, 0xB4]), ";
"    ('\u{22939}', [0x8A, 0xEA]), ('\u{2294F}', [0x9B, 0x53]), ('\u{22967}', [0x9B, 0x55]), ";
"    ('\u{2296B}', [0x96, 0xAB]), ('\u{22980}', [0xFC, 0xA7]), ('\u{22993}', [0x9B, 0x56]), ";
"    ('\u{22A66}', [0x8A, 0xBC]), ('\u{22ACF}', [0x8A, 0xCB]), ('\u{22AD5}', [0x9B, 0x57]), ";
"    ('\u{22AE6}', [0x89, 0xCD]), ('\u{22AE8}', [0x9B, 0x59]), ('\u{22B0E}', [0x9B, 0x5B]), ";
"    ('\u{22B22}', [0x93, 0xA5]), ('\u{22B3F}', [0x9B, 0x5D]), ('\u{22B43}', [0x9E, 0x4F]), ";
"    ('\u{22B6A}', [0x93, 0xA3]), ('\u{22BCA}', [0x8A, 0x7B]), ('\u{22BCE}', [0x8B, 0x42]), ";
"    ('\u{22C26}', [0x97, 0x50]), ('\u{22C27}', [0x8F, 0xB3]), ('\u{22C38}', [0x8A, 0x50]), ";
"    ('\u{22C4C}', [0x9B, 0x60]), ('\u{22C51}', [0x8B, 0x45]), ('\u{22C55}', [0x8B, 0x46]), ";
"    ('\u{22C62}', [0x9D, 0xFE]), ('\u{22C88}', [0x9B, 0x62]), ('\u{22C9B}', [0x93, 0x7B]), ";
"    ('\u{22CA1}', [0x93, 0xB1]), ('\u{22CA9}', [0x8A, 0x60]), ('\u{22CB2}', [0x8A, 0xD8]), ";
"    ('\u{22CB7}', [0x9B, 0x63]), ('\u{22CC2}', [0x8A, 0x69]), ('\u{22CC6}', [0x8A, 0x47]), ";
"    ('\u{22CC9}', [0x8A, 0xCC]), ('\u{22D07}', [0x93, 0x7C]), ('\u{22D08}', [0x9B, 0x65]), ";
"    ('\u{22D12}', [0x9B, 0x66]), ('\u{22D44}', [0x8A, 0x72]), ('\u{22D4C}', [0x8A, 0x7A]), ";
"    ('\u{22D67}', [0x93, 0xAF]), ('\u{22D8D}', [0x8A, 0xB0]), ('\u{22D95}', [0x9B, 0x68]), ";
"    ('\u{22DA0}', [0x9E, 0xA3]), ('\u{22DA3}', [0xFA, 0xEC]), ('\u{22DA4}', [0x8B, 0x77]), ";
"    ('\u{22DB7}', [0x9B, 0x67]), ('\u{22DEE}', [0x8B, 0x59]), ('\u{22E0D}', [0xFC, 0xB1]), ";
"    ('\u{22E36}', [0xFC, 0xBB]), ('\u{22E42}', [0x9B, 0x69]), ('\u{22E78}', [0x93, 0xA8]), ";
"    ('\u{22E8B}', [0x8A, 0xE0]), ('\u{22EB3}', [0x9E, 0x51]), ('\u{22EEF}', [0x8F, 0x5F]), ";
"    ('\u{22F74}', [0x9B, 0x6A]), ('\u{22FCC}', [0x9B, 0x6B]), ('\u{22FE3}', [0x97, 0xEC]), ";
"    ('\u{23033}', [0x9B, 0x6C]), ('\u{23044}', [0xFE, 0x4E]), ('\u{2304B}', [0xFD, 0xC2]), ";
"    ('\u{23066}', [0x9B, 0x6D]), ('\u{2307D}', [0x91, 0x67]), ('\u{2307E}', [0xFC, 0xCC]), ";
"    ('\u{2308E}', [0x93, 0xB6]), ('\u{230B7}', [0x90, 0xE4]), ('\u{230BC}', [0x90, 0xE5]), ";
"    ('\u{230DA}', [0x9E, 0xF2]), ('\u{23103}', [0x93, 0xCA]), ('\u{2313D}', [0x8B, 0xBC]), ";
"    ('\u{2317D}', [0x8F, 0x46]), ('\u{23182}', [0x93, 0xCF]), ('\u{231A4}', [0xFC, 0xDB]), ";
"    ('\u{231A5}', [0xFC, 0xDC]), ('\u{231B3}', [0x93, 0xC0]), ('\u{231C8}', [0xFC, 0xE6]), ";
"    ('\u{231C9}', [0x96, 0xE7]), ('\u{231EA}', [0x87, 0xA7]), ('\u{231F7}', [0xFC, 0xD8]), ";
"    ('\u{231F8}', [0xFC, 0xD9]), ('\u{231F9}', [0xFD, 0xA6]), ('\u{2320F}', [0x93, 0xCE]), ";
"    ('\u{23225}', [0x95, 0xF1]), ('\u{2322F}', [0x9C, 0xE9]), ('\u{23231}', [0xFC, 0xE4]), ";
"    ('\u{23232}', [0x94, 0xAF]), ('\u{23233}', [0xFA, 0x77]), ('\u{23234}', [0x93, 0xCC]), ";
"    ('\u{23256}', [0x8C, 0xE1]), ('\u{2325E}', [0x87, 0xA9]), ('\u{23262}', [0x90, 0x5A]), ";
"    ('\u{23281}', [0x8C, 0x54]), ('\u{23289}', [0x93, 0xBF]), ('\u{2328A}', [0xFB, 0x51]), ";
"    ('\u{232AB}', [0x93, 0xB9]), ('\u{232AC}', [0xFE, 0xD7]), ('\u{232AD}', [0x93, 0xB7]), ";
"    ('\u{232D2}', [0x93, 0xD9]), ('\u{232E0}', [0x93, 0xBB]), ('\u{232E1}', [0x93, 0xDA]), ";
"    ('\u{23300}', [0x98, 0xA3]), ('\u{2330A}', [0x90, 0xD1]), ('\u{2331F}', [0x9B, 0x6E]), ";
"    ('\u{233B4}', [0xFA, 0x70]), ('\u{233CC}', [0x9B, 0xEB]), ('\u{233DE}', [0x9B, 0x6F]), ";
"    ('\u{233E6}', [0xFC, 0xFC]), ('\u{233F4}', [0x8B, 0x40]), ('\u{233F5}', [0xA0, 0x7B]), ";
"    ('\u{233F9}', [0x8C, 0xA1]), ('\u{233FA}', [0x97, 0xF7]), ('\u{233FE}', [0x93, 0xE2]), ";
"    ('\u{23400}', [0xFC, 0xD6]), ('\u{2343F}', [0x95, 0x59]), ('\u{23450}', [0x93, 0xA6]), ";
"    ('\u{2346F}', [0xFD, 0x40]), ('\u{23472}', [0x93, 0x5F]), ('\u{234E5}', [0x97, 0xF2]), ";
"    ('\u{23519}', [0x9C, 0x76]), ('\u{23530}', [0x8E, 0xF8]), ('\u{23551}', [0x8C, 0xEB]), ";
"    ('\u{2355A}', [0x8F, 0x47]), ('\u{23567}', [0x9B, 0x74]), ('\u{23595}', [0x92, 0xB4]), ";
"    ('\u{23599}', [0x91, 0xED]), ('\u{2359C}', [0x96, 0xD2]), ('\u{235BB}', [0x87, 0xD8]), ";
"    ('\u{235CD}', [0xFD, 0x46]), ('\u{235CE}', [0x8F, 0x4F]), ('\u{235CF}', [0x95, 0x49]), ";
"    ('\u{235F3}', [0x9B, 0x75]), ('\u{23600}', [0xFA, 0x5C]), ('\u{23617}', [0x87, 0x51]), ";
"    ('\u{2361A}', [0x9B, 0x79]), ('\u{2363C}', [0xFD, 0x4B]), ('\u{23640}', [0x96, 0xD3]), ";
"    ('\u{23659}', [0xFD, 0x58]), ('\u{2365F}', [0x94, 0x5F]), ('\u{23677}', [0xA0, 0xF5]), ";
"    ('\u{2368E}', [0x87, 0xC7]), ('\u{2369E}', [0x87, 0x7C]), ('\u{236A6}', [0x92, 0x43]), ";
"    ('\u{236AD}', [0x97, 0xFA]), ('\u{236BA}', [0x9D, 0xD9]), ('\u{236DF}', [0x97, 0xF4]), ";
"    ('\u{236EE}', [0x92, 0x4D]), ('\u{23703}', [0xFD, 0x5B]), ('\u{23716}', [0x9B, 0x7A]), ";
"    ('\u{23720}', [0x9E, 0xD5]), ('\u{2372D}', [0xFA, 0xAE]), ('\u{2372F}', [0x9C, 0xC9]), ";
"    ('\u{2373F}', [0x92, 0x58]), ('\u{23766}', [0x8E, 0xC8]), ('\u{23781}', [0x94, 0xB4]), ";
"    ('\u{237A2}', [0x93, 0xE1]), ('\u{237BC}', [0x93, 0xDF]), ('\u{237C2}', [0xFC, 0xF0]), ";
"    ('\u{237D5}', [0x93, 0xEC]), ('\u{237D6}', [0x97, 0xF6]), ('\u{237D7}', [0x96, 0xCF]), ";
"    ('\u{2383A}', [0x93, 0xDE]), ('\u{239C2}', [0x8A, 0xCF]), ('\u{23AA7}', [0x9B, 0xA2]), ";
"    ('\u{23ADB}', [0xFD, 0x69]), ('\u{23AEE}', [0x93, 0x52]), ('\u{23AFA}', [0x98, 0xA2]), ";
"    ('\u{23B1A}', [0x8C, 0xE7]), ('\u{23B5A}', [0xFD, 0x6E]), ('\u{23C63}', [0x8C, 0xA4]), ";
"    ('\u{23C99}', [0xFA, 0x7C]), ('\u{23C9A}', [0x93, 0xFA]), ('\u{23C9B}', [0x90, 0x7C]), ";
"    ('\u{23CB5}', [0x8F, 0x67]), ('\u{23CB7}', [0x9D, 0xB7]), ('\u{23CC7}', [0xA0, 0xE9]), ";
"    ('\u{23CC8}', [0xFA, 0x4E]), ('\u{23CC9}', [0xFD, 0xA1]), ('\u{23CFC}', [0x9E, 0x74]), ";
"    ('\u{23CFD}', [0x9F, 0xBF]), ('\u{23CFE}', [0x9E, 0xCB]), ('\u{23CFF}', [0x9B, 0xB9]), ";
"    ('\u{23D40}', [0x9D, 0xD4]), ('\u{23D5B}', [0x97, 0xB9]), ('\u{23D7E}', [0x8E, 0xF1]), ";
"    ('\u{23D8F}', [0x95, 0x7B]), ('\u{23DB6}', [0x9E, 0xD2]), ('\u{23DB7}', [0x97, 0x53]), ";
"    ('\u{23DB8}', [0x96, 0xA4]), ('\u{23DB9}', [0x8F, 0xBE]), ('\u{23DBA}', [0x94, 0xD9]), ";
"    ('\u{23DBB}', [0x90, 0x58]), ('\u{23DBC}', [0xFD, 0x79]), ('\u{23DBD}', [0xFD, 0x7B]), ";
"    ('\u{23DE3}', [0x8E, 0xDA]), ('\u{23DF8}', [0x8E, 0xFA]), ('\u{23E06}', [0x87, 0x62]), ";
"    ('\u{23E11}', [0x9B, 0xA5]), ('\u{23E2C}', [0x9E, 0xD9]), ('\u{23E2D}', [0x97, 0xD4]), ";
"    ('\u{23E2E}', [0x90, 0xBB]), ('\u{23E2F}', [0xFD, 0xBC]), ('\u{23E30}', [0xFD, 0xC6]), ";
"    ('\u{23E31}', [0x92, 0x48]), ('\u{23E39}', [0x92, 0xB5]), ('\u{23E88}', [0x9D, 0xC1]), ";
"    ('\u{23E89}', [0x92, 0xB9]), ('\u{23E8A}', [0x92, 0xA6]), ('\u{23E8B}', [0x8F, 0x4B]), ";
"    ('\u{23EB9}', [0x9B, 0xA6]), ('\u{23EBF}', [0x92, 0xB6]), ('\u{23ED7}', [0x8E, 0x40]), ";
"    ('\u{23EF7}', [0x9E, 0xD8]), ('\u{23EF8}', [0x94, 0x5E]), ('\u{23EF9}', [0x98, 0x5F]), ";
"    ('\u{23EFA}', [0x94, 0xCE]), ('\u{23EFB}', [0x92, 0x4A]), ('\u{23EFC}', [0xFD, 0x70]), ";
"    ('\u{23F35}', [0x94, 0x67]), ('\u{23F41}', [0x8D, 0xEC]), ('\u{23F4A}', [0x9B, 0xD8]), ";
"    ('\u{23F61}', [0x87, 0x63]), ('\u{23F7F}', [0x94, 0x48]), ('\u{23F80}', [0xFA, 0xC1]), ";
"    ('\u{23F81}', [0x9C, 0xF7]), ('\u{23F82}', [0xFD, 0xBE]), ('\u{23F8F}', [0x8F, 0xDA]), ";
"    ('\u{23FB4}', [0xFD, 0xD9]), ('\u{23FB7}', [0xFC, 0x7E]), ('\u{23FC0}', [0x93, 0xF9]), ";
"    ('\u{23FC5}', [0xFA, 0x43]), ('\u{23FEB}', [0xFA, 0xEB]), ('\u{23FEC}', [0xFA, 0xC3]), ";
"    ('\u{23FED}', [0x97, 0xD3]), ('\u{23FEE}', [0x95, 0xF9]), ('\u{23FEF}', [0x9C, 0x48]), ";
"    ('\u{23FF0}', [0xFD, 0xD8]), ('\u{24011}', [0xA0, 0xD8]), ('\u{24039}', [0xFD, 0xD7]), ";
"    ('\u{2403A}', [0xFB, 0x4A]), ('\u{2403B}', [0x9B, 0xAF]), ('\u{2403C}', [0x94, 0x4B]), ";
"    ('\u{2403D}', [0xFD, 0xC9]), ('\u{24057}', [0x8E, 0xAC]), ('\u{24085}', [0xFD, 0xB2]), ";
"    ('\u{2408B}', [0x92, 0x5A]), ('\u{2408C}', [0xFC, 0xBD]), ('\u{2408D}', [0x92, 0xD9]), ";
"    ('\u{24091}', [0xFD, 0xD5]), ('\u{240C9}', [0x92, 0xDD]), ('\u{240E1}', [0x92, 0x59]), ";
"    ('\u{240EC}', [0x8C, 0xF0]), ('\u{24104}', [0x96, 0xBA]), ('\u{2410F}', [0x92, 0x5B]), ";
"    ('\u{24119}', [0x9B, 0xAB]), ('\u{2413F}', [0xFD, 0xDA]), ('\u{24140}', [0xFD, 0xDE]), ";
"    ('\u{24144}', [0xFD, 0xD3]), ('\u{2414E}', [0x8C, 0x46]), ('\u{24155}', [0xFD, 0xD6]), ";
"    ('\u{24156}', [0xFD, 0xDC]), ('\u{24157}', [0xFD, 0xDD]), ('\u{2415C}', [0x90, 0xFE]), ";
"    ('\u{2415F}', [0xFE, 0xA1]), ('\u{24161}', [0x87, 0xA5]), ('\u{24177}', [0x8B, 0xAD]), ";
"    ('\u{2417A}', [0x9C, 0xD8]), ('\u{241A3}', [0x9E, 0x6D]), ('\u{241A4}', [0xFD, 0x7C]), ";
"    ('\u{241A5}', [0xFB, 0x61]), ('\u{241AC}', [0x96, 0xF8]), ('\u{241B5}', [0x96, 0xF0]), ";
"    ('\u{241CD}', [0xFC, 0xF4]), ('\u{241E2}', [0xFE, 0x60]), ('\u{241FC}', [0x98, 0x52]), ";
"    ('\u{2421B}', [0x96, 0x4F]), ('\u{2424B}', [0x91, 0x6E]), ('\u{24256}', [0x98, 0x6D]), ";
"    ('\u{24259}', [0x98, 0x64]), ('\u{24276}', [0x94, 0x53]), ('\u{24277}', [0xFD, 0xEC]), ";
"    ('\u{24278}', [0xFB, 0x78]), ('\u{24284}', [0x95, 0xBA]), ('\u{24293}', [0x98, 0x5D]), ";
"    ('\u{24295}', [0x92, 0xF9]), ('\u{242A5}', [0x98, 0x5A]), ('\u{242BF}', [0x87, 0x50]), ";
"    ('\u{242C1}', [0xFD, 0xF6]), ('\u{242C9}', [0x93, 0xD0]), ('\u{242CA}', [0x98, 0x62]), ";
"    ('\u{242EE}', [0x9B, 0xAD]), ('\u{242FA}', [0x97, 0x4F]), ('\u{2430D}', [0x9B, 0xAE]), ";
"    ('\u{2431A}', [0x94, 0x52]), ('\u{24334}', [0x9B, 0xB0]), ('\u{24348}', [0x91, 0xD2]), ";
"    ('\u{24362}', [0x97, 0xEA]), ('\u{24363}', [0xFB, 0x6B]), ('\u{24364}', [0x91, 0xB1]), ";
"    ('\u{24365}', [0xFD, 0xF3]), ('\u{2438C}', [0x92, 0xCB]), ('\u{24396}', [0x9B, 0xB1]), ";
"    ('\u{2439C}', [0xFC, 0xEC]), ('\u{243BD}', [0x98, 0x6B]), ('\u{243C1}', [0x97, 0x51]), ";
"    ('\u{243E9}', [0x98, 0x71]), ('\u{243EA}', [0x95, 0xEF]), ('\u{243F2}', [0x9E, 0xF3]), ";
"    ('\u{243F8}', [0x91, 0xE8]), ('\u{24404}', [0x9B, 0xBA]), ('\u{24435}', [0xFB, 0x4C]), ";
"    ('\u{24436}', [0x92, 0x6A]), ('\u{2445A}', [0xFD, 0xF8]), ('\u{2445B}', [0x98, 0x61]), ";
"    ('\u{24473}', [0x91, 0xE7]), ('\u{24487}', [0x93, 0xED]), ('\u{24488}', [0x97, 0x44]), ";
"    ('\u{244B9}', [0x91, 0xE1]), ('\u{244BC}', [0xFB, 0xF5]), ('\u{244CE}', [0x98, 0x69]), ";
"    ('\u{244D3}', [0x8A, 0x62]), ('\u{244D6}', [0x9B, 0xBB]), ('\u{24505}', [0x8C, 0xA8]), ";
"    ('\u{24521}', [0x9C, 0x55]), ('\u{24578}', [0x8E, 0x77]), ('\u{245C8}', [0x8A, 0xB2]), ";
"    ('\u{24618}', [0x9E, 0xBC]), ('\u{2462A}', [0x93, 0xE6]), ('\u{24665}', [0x93, 0xA2]), ";
"    ('\u{24674}', [0x9B, 0xBD]), ('\u{24697}', [0x94, 0xB3]), ('\u{246D4}', [0x93, 0x7D]), ";
"    ('\u{24706}', [0x9E, 0x66]), ('\u{24725}', [0x94, 0x59]), ('\u{2472F}', [0x9B, 0xBF]), ";
"    ('\u{2478F}', [0x94, 0x58]), ('\u{247E0}', [0x9E, 0xA5]), ('\u{24812}', [0x9B, 0xC7]), ";
"    ('\u{24823}', [0xFE, 0x54]), ('\u{24882}', [0x8E, 0x74]), ('\u{248E9}', [0x8B, 0xD6]), ";
"    ('\u{248F0}', [0x94, 0xB6]), ('\u{248F1}', [0xFD, 0x74]), ('\u{248F2}', [0x98, 0xC0]), ";
"    ('\u{248F3}', [0x94, 0xA5]), ('\u{248FB}', [0x9B, 0xC8]), ('\u{248FF}', [0x95, 0xED]), ";
"    ('\u{24900}', [0xFD, 0x7E]), ('\u{24901}', [0xFB, 0xEB]), ('\u{2490C}', [0xFD, 0x7D]), ";
"    ('\u{24916}', [0x97, 0x6F]), ('\u{24917}', [0x94, 0x61]), ('\u{24919}', [0x9F, 0xC1]), ";
"    ('\u{2492F}', [0x95, 0xD7]), ('\u{24933}', [0xFA, 0x52]), ('\u{24934}', [0x9C, 0x58]), ";
"    ('\u{2493E}', [0x9F, 0x68]), ('\u{2493F}', [0x9B, 0xE7]), ('\u{24940}', [0xFC, 0xCE]), ";
"    ('\u{24941}', [0x96, 0xE8]), ('\u{24942}', [0xFA, 0x49]), ('\u{24943}', [0x97, 0xA1]), ";
"    ('\u{24962}', [0x95, 0x4D]), ('\u{24963}', [0x9E, 0xF8]), ('\u{24974}', [0xFE, 0x49]), ";
"    ('\u{24975}', [0x91, 0xCE]), ('\u{24976}', [0x97, 0x71]), ('\u{2497B}', [0x8C, 0xCF]), ";
"    ('\u{2497F}', [0xFD, 0xB1]), ('\u{24982}', [0xFC, 0x6E]), ('\u{24988}', [0x9C, 0xF2]), ";
"    ('\u{24989}', [0x93, 0xB8]), ('\u{2498A}', [0x90, 0x43]), ('\u{2498B}', [0x97, 0x59]), ";
"    ('\u{2498C}', [0x94, 0xD7]), ('\u{2498D}', [0xFE, 0x66]), ('\u{2498E}', [0x94, 0x7D]), ";
"    ('\u{2498F}', [0xFC, 0x6F]), ('\u{24994}', [0x92, 0x46]), ('\u{249A4}', [0xFA, 0x6D]), ";
"    ('\u{249A7}', [0x8E, 0xF7]), ('\u{249A9}', [0xFB, 0xB7]), ('\u{249AB}', [0x94, 0x7C]), ";
"    ('\u{249AC}', [0x92, 0xCD]), ('\u{249AD}', [0x97, 0xB2]), ('\u{249B7}', [0xFE, 0x65]), ";
"    ('\u{249B8}', [0x96, 0x7E]), ('\u{249B9}', [0x97, 0x58]), ('\u{249BA}', [0x9B, 0x77]), ";
"    ('\u{249BB}', [0x91, 0xCF]), ('\u{249C5}', [0x94, 0xA4]), ('\u{249D0}', [0x9C, 0xAD]), ";
"    ('\u{249DA}', [0x8B, 0xAB]), ('\u{249DE}', [0x96, 0xD5]), ('\u{249DF}', [0xFC, 0xB3]), ";
"    ('\u{249E3}', [0x93, 0xAE]), ('\u{249E5}', [0x97, 0x6D]), ('\u{249EC}', [0x94, 0x46]), ";
"    ('\u{249ED}', [0x95, 0xF7]), ('\u{249F6}', [0x9C, 0x46]), ('\u{249F7}', [0x95, 0x5B]), ";
"    ('\u{249F8}', [0x91, 0xD1]), ('\u{249F9}', [0x94, 0xF4]), ('\u{249FB}', [0xFE, 0x67]), ";
"    ('\u{24A0E}', [0x92, 0xA5]), ('\u{24A12}', [0xFE, 0xDF]), ('\u{24A13}', [0x8C, 0xAB]), ";
"    ('\u{24A15}', [0x9B, 0xC9]), ('\u{24A21}', [0xFC, 0xED]), ('\u{24A22}', [0xFD, 0xFA]), ";
"    ('\u{24A23}', [0xFC, 0xC8]), ('\u{24A24}', [0xFE, 0x62]), ('\u{24A25}', [0x91, 0xFC]), ";
"    ('\u{24A26}', [0xFE, 0x6B]), ('\u{24A27}', [0xFD, 0xF9]), ('\u{24A28}', [0xFC, 0xC7]), ";
"    ('\u{24A29}', [0x91, 0x4E]), ('\u{24A2A}', [0x9C, 0xB8]), ('\u{24A3E}', [0x97, 0x67]), ";
"    ('\u{24A42}', [0x95, 0xEE]), ('\u{24A45}', [0x9B, 0xB2]), ('\u{24A4A}', [0x94, 0x60]), ";
"    ('\u{24A4E}', [0x94, 0xA2]), ('\u{24A4F}', [0x98, 0x75]), ('\u{24A50}', [0x97, 0xAC]), ";
"    ('\u{24A51}', [0x91, 0xD3]), ('\u{24A5D}', [0x98, 0x7B]), ('\u{24A65}', [0x8E, 0xEB]), ";
"    ('\u{24A66}', [0x97, 0x6A]), ('\u{24A67}', [0x96, 0x5E]), ('\u{24A71}', [0x97, 0xEB]), ";
"    ('\u{24A77}', [0x9F, 0xF9]), ('\u{24A78}', [0x95, 0xF8]), ('\u{24A79}', [0xFE, 0xA2]), ";
"    ('\u{24A7A}', [0x8F, 0xE6]), ('\u{24A8C}', [0xFE, 0x7E]), ('\u{24A93}', [0x9D, 0xA4]), ";
"    ('\u{24A94}', [0x97, 0x68]), ('\u{24A95}', [0x8E, 0xEC]), ('\u{24A96}', [0x94, 0xBD]), ";
"    ('\u{24AA4}', [0x94, 0x5B]), ('\u{24AA5}', [0x9C, 0xF6]), ('\u{24AA6}', [0xFA, 0xA7]), ";
"    ('\u{24AA7}', [0x9B, 0xD9]), ('\u{24AB1}', [0xFA, 0x5D]), ('\u{24AB2}', [0x96, 0x56]), ";
"    ('\u{24AB3}', [0x97, 0x62]), ('\u{24ABA}', [0x94, 0xBA]), ('\u{24ABB}', [0xA0, 0x4F]), ";
"    ('\u{24ABC}', [0x92, 0xD8]), ('\u{24AC0}', [0x9B, 0xCB]), ('\u{24AC7}', [0x94, 0xBB]), ";
"    ('\u{24ACA}', [0x9D, 0x5F]), ('\u{24AD1}', [0x90, 0xCF]), ('\u{24ADF}', [0x94, 0x65]), ";
"    ('\u{24AE2}', [0x9F, 0x4C]), ('\u{24AE9}', [0x90, 0xD8]), ('\u{24B0F}', [0x8D, 0x5B]), ";
"    ('\u{24B6E}', [0x9E, 0xBE]), ('\u{24BF5}', [0xFB, 0x6D]), ('\u{24C09}', [0x95, 0xCA]), ";
"    ('\u{24C9E}', [0x9D, 0xC2]), ('\u{24C9F}', [0x97, 0xF8]), ('\u{24CC9}', [0x8F, 0xFC]), ";
"    ('\u{24CD9}', [0x94, 0x73]), ('\u{24D06}', [0x94, 0x74]), ('\u{24D13}', [0xFE, 0xB7]), ";
"    ('\u{24DB8}', [0x8A, 0x4B]), ('\u{24DEA}', [0x8A, 0x55]), ('\u{24DEB}', [0x8B, 0x69]), ";
"    ('\u{24E3B}', [0x8A, 0xDC]), ('\u{24E50}', [0x8B, 0x76]), ('\u{24EA5}', [0x9B, 0xCE]), ";
"    ('\u{24EA7}', [0x8A, 0x68]), ('\u{24F0E}', [0xA0, 0xF8]), ('\u{24F5C}', [0x98, 0xDF]), ";
"    ('\u{24F82}', [0xFE, 0xB5]), ('\u{24F86}', [0x9B, 0xCF]), ('\u{24F97}', [0x96, 0xFB]), ";
"    ('\u{24F9A}', [0x9B, 0xFB]), ('\u{24FA9}', [0x9E, 0xCE]), ('\u{24FB8}', [0x8E, 0xE5]), ";
"    ('\u{24FC2}', [0x9E, 0x7B]), ('\u{2502C}', [0x9B, 0xD2]), ('\u{25052}', [0x8A, 0xA5]), ";
"    ('\u{2509D}', [0xFE, 0xCE]), ('\u{2512B}', [0x8A, 0x45]), ('\u{25148}', [0x9D, 0xFC]), ";
"    ('\u{2517D}', [0xFE, 0xCF]), ('\u{2517E}', [0x8B, 0xA5]), ('\u{251CD}', [0x8C, 0x4A]), ";
"    ('\u{251E3}', [0x8A, 0xEC]), ('\u{251E6}', [0xFC, 0xE0]), ('\u{251E7}', [0x94, 0xAD]), ";
"    ('\u{25220}', [0xFE, 0xD5]), ('\u{25221}', [0x94, 0xAC]), ('\u{25250}', [0xFC, 0x5A]), ";
"    ('\u{25299}', [0x9B, 0xD6]), ('\u{252C7}', [0x8A, 0x6F]), ('\u{252D8}', [0x8B, 0xA9]), ";
"    ('\u{2530E}', [0x8E, 0x5F]), ('\u{25311}', [0x9D, 0xCB]), ('\u{25313}', [0xFC, 0xE7]), ";
"    ('\u{25419}', [0x9B, 0xD7]), ('\u{25425}', [0x93, 0xC8]), ('\u{2542F}', [0x91, 0xF0]), ";
"    ('\u{25430}', [0x8F, 0xE0]), ('\u{25446}', [0x9B, 0xDB]), ('\u{2546C}', [0x90, 0xED]), ";
"    ('\u{2546E}', [0x9B, 0xDC]), ('\u{2549A}', [0x8D, 0x53]), ('\u{25531}', [0xA0, 0xEC]), ";
"    ('\u{25535}', [0x98, 0xFA]), ('\u{2553F}', [0x9B, 0xE0]), ('\u{2555B}', [0x93, 0xC7]), ";
"    ('\u{2555C}', [0x92, 0x49]), ('\u{2555D}', [0x96, 0xE1]), ('\u{2555E}', [0x9B, 0xE2]), ";
"    ('\u{25562}', [0x9B, 0xE4]), ('\u{25565}', [0x8F, 0xE1]), ('\u{25566}', [0x9B, 0xE5]), ";
"    ('\u{25581}', [0x94, 0xC0]), ('\u{25584}', [0x93, 0xC3]), ('\u{2558F}', [0x93, 0xC5]), ";
"    ('\u{255B9}', [0x90, 0x79]), ('\u{255D5}', [0x97, 0x7B]), ('\u{255DB}', [0x90, 0x7E]), ";
"    ('\u{255E0}', [0xFE, 0xE6]), ('\u{25605}', [0xFE, 0x46]), ('\u{25635}', [0x9D, 0xB8]), ";
"    ('\u{25651}', [0x92, 0x70]), ('\u{25683}', [0x95, 0xA8]), ('\u{25695}', [0x8C, 0xB0]), ";
"    ('\u{256E3}', [0x94, 0xC8]), ('\u{256F6}', [0x98, 0xB9]), ('\u{25706}', [0x91, 0x40]), ";
"    ('\u{2571D}', [0xFC, 0xBE]), ('\u{25725}', [0x91, 0x57]), ('\u{2573D}', [0x8B, 0xB2]), ";
"    ('\u{25772}', [0xFA, 0xDF]), ('\u{257C7}', [0x9B, 0xE6]), ('\u{257DF}', [0x96, 0x43]), ";
"    ('\u{257E0}', [0x8E, 0x44]), ('\u{257E1}', [0x9C, 0x4F]), ('\u{25857}', [0xFE, 0xF4]), ";
"    ('\u{2585D}', [0x9B, 0xE8]), ('\u{25872}', [0x93, 0xDC]), ('\u{258C8}', [0x96, 0x6F]), ";
"    ('\u{258DE}', [0x87, 0xA1]), ('\u{258E1}', [0x8E, 0x4A]), ('\u{25903}', [0x9B, 0xED]), ";
"    ('\u{25946}', [0x92, 0xF6]), ('\u{25956}', [0x9D, 0xB9]), ('\u{259AC}', [0x8E, 0x4E]), ";
"    ('\u{259CC}', [0xFB, 0xCF]), ('\u{25A54}', [0x87, 0x60]), ('\u{25A95}', [0x9E, 0xC2]), ";
"    ('\u{25A9C}', [0x94, 0xE5]), ('\u{25AAE}', [0x9B, 0xF0]), ('\u{25AAF}', [0x94, 0xE4]), ";
"    ('\u{25AE9}', [0x95, 0x51]), ('\u{25B74}', [0x8B, 0xBB]), ('\u{25B89}', [0x9B, 0xF1]), ";
"    ('\u{25BB3}', [0x94, 0xF0]), ('\u{25BB4}', [0x8E, 0x64]), ('\u{25BC6}', [0x94, 0xEA]), ";
"    ('\u{25BE4}', [0x8F, 0x61]), ('\u{25BE8}', [0x9B, 0x64]), ('\u{25C01}', [0x8E, 0x5B]), ";
"    ('\u{25C06}', [0x9B, 0xF2]), ('\u{25C21}', [0x9F, 0xBE]), ('\u{25C4A}', [0x9D, 0xC9]), ";
"    ('\u{25C65}', [0x8E, 0x6C]), ('\u{25C91}', [0x8F, 0x73]), ('\u{25CA4}', [0x8C, 0xAF]), ";
"    ('\u{25CC0}', [0x8F, 0x75]), ('\u{25CC1}', [0x8E, 0x71]), ('\u{25CFE}', [0x8E, 0x60]), ";
"    ('\u{25D20}', [0x8E, 0x6A]), ('\u{25D30}', [0x8C, 0x4C]), ('\u{25D43}', [0x95, 0x52]), ";
"    ('\u{25D99}', [0x87, 0xCF]), ('\u{25DB9}', [0x87, 0xC0]), ('\u{25E0E}', [0x95, 0x54]), ";
"    ('\u{25E49}', [0x8A, 0xD4]), ('\u{25E81}', [0x9D, 0xBB]), ('\u{25E82}', [0x95, 0x43]), ";
"    ('\u{25E83}', [0x92, 0xFE]), ('\u{25EA6}', [0x94, 0xF2]), ('\u{25EBC}', [0x94, 0xF1]), ";
"    ('\u{25ED7}', [0xA0, 0xEA]), ('\u{25ED8}', [0x9D, 0xD2]), ('\u{25F1A}', [0xA0, 0xB1]), ";
"    ('\u{25F4B}', [0x91, 0xF8]), ('\u{25FE1}', [0x94, 0x62]), ('\u{25FE2}', [0x9B, 0xA4]), ";
"    ('\u{26021}', [0x87, 0x7D]), ('\u{26029}', [0x8E, 0xAD]), ('\u{26048}', [0x9E, 0xAD]), ";
"    ('\u{26064}', [0x96, 0xD0]), ('\u{26083}', [0xFE, 0xEE]), ('\u{26097}', [0x8A, 0xB4]), ";
"    ('\u{260A4}', [0x97, 0x57]), ('\u{260A5}', [0x8A, 0x77]), ('\u{26102}', [0x9B, 0xF7]), ";
"    ('\u{26121}', [0x8E, 0xB5]), ('\u{26159}', [0xA0, 0x6D]), ('\u{2615A}', [0x8E, 0xB6]), ";
"    ('\u{2615B}', [0x97, 0x56]), ('\u{2615C}', [0x95, 0x40]), ('\u{261AD}', [0xA0, 0xF3]), ";
"    ('\u{261AE}', [0x94, 0xBE]), ('\u{261B2}', [0x9B, 0xFA]), ('\u{261DD}', [0xFD, 0xDF]), ";
"    ('\u{26258}', [0x9D, 0xBC]), ('\u{26261}', [0x94, 0xFE]), ('\u{2626A}', [0x8B, 0xDB]), "
].
(* /repo/src/generated/whatwg/big5_whatwg_tables.rs.inc:8449-8645 *)
Definition big5_inc_33 : list line := [
"    ('\u{2626B}', [0xA0, 0xFE]), ('\u{262D0}', [0x8E, 0xC0]), ('\u{26335}', [0x9F, 0x47]), ";
"    ('\u{2634B}', [0x8B, 0xDE]), ('\u{2634C}', [0xA0, 0xFB]), ('\u{26351}', [0x8E, 0xC3]), ";
"    ('\u{263BE}', [0x96, 0x49]), ('\u{263F5}', [0xFE, 0xC2]), ('\u{263F8}', [0x95, 0x4C]), ";
"    ('\u{26402}', [0x9B, 0xFD]), ('\u{26410}', [0x90, 0xCC]), ('\u{26411}', [0x9C, 0x60]), ";
"    ('\u{26412}', [0x95, 0x4B]), ('\u{2644A}', [0x9B, 0xFE]), ('\u{26469}', [0x9C, 0x70]), ";
"    ('\u{26484}', [0x9C, 0x43]), ('\u{26488}', [0x9C, 0x47]), ('\u{26489}', [0x8E, 0xCC]), ";
"    ('\u{2648D}', [0x8E, 0x54]), ('\u{26498}', [0x8E, 0xE4]), ('\u{26512}', [0x9C, 0x49]), ";
"    ('\u{26572}', [0x8B, 0x5E]), ('\u{265A0}', [0x95, 0x5E]), ('\u{265AD}', [0x95, 0x5C]), ";
"    ('\u{265BF}', [0x9C, 0x4B]), ('\u{26612}', [0x8B, 0xE1]), ('\u{26626}', [0x8E, 0xD9]), ";
"    ('\u{266AF}', [0x9D, 0xB4]), ('\u{266B1}', [0x92, 0x5F]), ('\u{266B5}', [0x9C, 0x4C]), ";
"    ('\u{266DA}', [0x8A, 0xA1]), ('\u{266E8}', [0x8E, 0xDB]), ('\u{266FC}', [0x9C, 0x56]), ";
"    ('\u{26716}', [0x8A, 0xA2]), ('\u{26741}', [0x97, 0x54]), ('\u{26799}', [0x9C, 0x5E]), ";
"    ('\u{267B3}', [0x9E, 0xD4]), ('\u{267B4}', [0x95, 0x68]), ('\u{267CC}', [0xA0, 0xC3]), ";
"    ('\u{2681C}', [0x8A, 0xE6]), ('\u{26846}', [0xA0, 0xF7]), ('\u{2685E}', [0x9C, 0x61]), ";
"    ('\u{2686E}', [0x9C, 0x5F]), ('\u{26888}', [0xFC, 0x4D]), ('\u{2688A}', [0x9E, 0x5B]), ";
"    ('\u{26893}', [0x9E, 0x69]), ('\u{268C7}', [0x9C, 0x63]), ('\u{2690E}', [0xFE, 0xC7]), ";
"    ('\u{26911}', [0xFE, 0xC6]), ('\u{26926}', [0x9C, 0x67]), ('\u{26939}', [0x9C, 0x69]), ";
"    ('\u{26951}', [0x8B, 0xE2]), ('\u{269A8}', [0x91, 0x65]), ('\u{269B5}', [0x9C, 0xE7]), ";
"    ('\u{269F2}', [0x8A, 0x54]), ('\u{269FA}', [0x9C, 0x6C]), ('\u{26A2D}', [0x9C, 0x6E]), ";
"    ('\u{26A2E}', [0xFE, 0x5D]), ('\u{26A34}', [0x9C, 0x73]), ('\u{26A42}', [0x95, 0x6A]), ";
"    ('\u{26A51}', [0x95, 0x6D]), ('\u{26A52}', [0x8E, 0xF0]), ('\u{26B05}', [0x8F, 0x4D]), ";
"    ('\u{26B0A}', [0x8E, 0xF6]), ('\u{26B13}', [0xFA, 0xBC]), ('\u{26B15}', [0x8C, 0xD5]), ";
"    ('\u{26B23}', [0x87, 0x5E]), ('\u{26B28}', [0xFB, 0xDA]), ('\u{26B50}', [0x8B, 0x4C]), ";
"    ('\u{26B51}', [0xFD, 0x75]), ('\u{26B52}', [0x9B, 0xDD]), ('\u{26B53}', [0xFA, 0xF5]), ";
"    ('\u{26B5B}', [0x9C, 0x74]), ('\u{26B75}', [0x95, 0x45]), ('\u{26B82}', [0x96, 0xC6]), ";
"    ('\u{26B96}', [0x8F, 0x6A]), ('\u{26B97}', [0x8F, 0x4E]), ('\u{26B9D}', [0x9C, 0x78]), ";
"    ('\u{26BB3}', [0xFA, 0x55]), ('\u{26BC0}', [0x97, 0xE4]), ('\u{26BF7}', [0x9C, 0x41]), ";
"    ('\u{26C21}', [0x92, 0x5C]), ('\u{26C40}', [0x96, 0xFA]), ('\u{26C41}', [0x8C, 0xF6]), ";
"    ('\u{26C46}', [0x8D, 0x4D]), ('\u{26C7E}', [0xFB, 0x66]), ('\u{26C7F}', [0x8E, 0x65]), ";
"    ('\u{26C80}', [0x98, 0x49]), ('\u{26C81}', [0xFB, 0xA8]), ('\u{26C82}', [0x98, 0x42]), ";
"    ('\u{26CA4}', [0x9C, 0x7A]), ('\u{26CB7}', [0x97, 0xFB]), ('\u{26CB8}', [0x90, 0xCA]), ";
"    ('\u{26CBD}', [0x9C, 0x5B]), ('\u{26CC0}', [0x97, 0x4D]), ('\u{26CC3}', [0x8E, 0xD3]), ";
"    ('\u{26CD1}', [0x95, 0x61]), ('\u{26D22}', [0x9F, 0x4B]), ('\u{26D23}', [0x9F, 0xB5]), ";
"    ('\u{26D24}', [0x93, 0xD2]), ('\u{26D25}', [0xFD, 0xAA]), ('\u{26D26}', [0x98, 0x40]), ";
"    ('\u{26D27}', [0x91, 0x46]), ('\u{26D28}', [0x98, 0x67]), ('\u{26D29}', [0xFA, 0x5A]), ";
"    ('\u{26D2A}', [0xFB, 0xA9]), ('\u{26D51}', [0x98, 0x41]), ('\u{26D74}', [0x8C, 0xD3]), ";
"    ('\u{26DA0}', [0xFC, 0xFD]), ('\u{26DA1}', [0xFD, 0xAB]), ('\u{26DA2}', [0x91, 0xBD]), ";
"    ('\u{26DA3}', [0x8F, 0x4C]), ('\u{26DA4}', [0x96, 0xC9]), ('\u{26DA5}', [0x8F, 0x55]), ";
"    ('\u{26DA6}', [0xFB, 0xAE]), ('\u{26DA7}', [0x95, 0x6F]), ('\u{26DAE}', [0x9C, 0x7D]), ";
"    ('\u{26DDC}', [0xA0, 0xF0]), ('\u{26DEA}', [0x94, 0x6F]), ('\u{26DEB}', [0xFD, 0xAC]), ";
"    ('\u{26DF0}', [0x96, 0xCB]), ('\u{26E00}', [0x96, 0xCE]), ('\u{26E05}', [0xA0, 0x56]), ";
"    ('\u{26E07}', [0x9C, 0xE1]), ('\u{26E12}', [0x96, 0xC4]), ('\u{26E42}', [0x8F, 0x5E]), ";
"    ('\u{26E43}', [0x8F, 0x6C]), ('\u{26E44}', [0x8E, 0xA3]), ('\u{26E45}', [0xFB, 0xB3]), ";
"    ('\u{26E6E}', [0xFC, 0x53]), ('\u{26E72}', [0xFD, 0xB3]), ('\u{26E77}', [0x8F, 0x6B]), ";
"    ('\u{26E84}', [0x96, 0xCA]), ('\u{26E88}', [0x87, 0xCD]), ('\u{26E8B}', [0x87, 0x53]), ";
"    ('\u{26E99}', [0x8F, 0x79]), ('\u{26ED0}', [0x9E, 0x6F]), ('\u{26ED1}', [0xA0, 0xC5]), ";
"    ('\u{26ED2}', [0xFC, 0x78]), ('\u{26ED3}', [0x8E, 0x42]), ('\u{26ED4}', [0x8F, 0x5A]), ";
"    ('\u{26ED5}', [0x90, 0xC2]), ('\u{26ED6}', [0x8E, 0xA5]), ('\u{26ED7}', [0x90, 0x61]), ";
"    ('\u{26F26}', [0x92, 0x4F]), ('\u{26F73}', [0x93, 0x73]), ('\u{26F74}', [0xFD, 0xB5]), ";
"    ('\u{26F9F}', [0xFE, 0xCC]), ('\u{26FA1}', [0xFB, 0xBD]), ('\u{26FBE}', [0x8C, 0xD6]), ";
"    ('\u{26FDE}', [0x98, 0x43]), ('\u{26FDF}', [0x96, 0xC5]), ('\u{2700E}', [0x89, 0xBC]), ";
"    ('\u{2704B}', [0x9C, 0xA3]), ('\u{27052}', [0x92, 0x4B]), ('\u{27053}', [0x98, 0x4A]), ";
"    ('\u{27088}', [0x8F, 0xA4]), ('\u{270AD}', [0xA0, 0xF1]), ('\u{270AE}', [0x9E, 0xFB]), ";
"    ('\u{270AF}', [0x9C, 0xD2]), ('\u{270CD}', [0x8F, 0xA7]), ('\u{270D2}', [0x87, 0x54]), ";
"    ('\u{270F8}', [0xFC, 0x5C]), ('\u{27109}', [0x98, 0x45]), ('\u{2710C}', [0x90, 0x46]), ";
"    ('\u{2710D}', [0x8C, 0xD1]), ('\u{27126}', [0xFE, 0xFA]), ('\u{27127}', [0x95, 0x60]), ";
"    ('\u{27164}', [0x9F, 0x48]), ('\u{27165}', [0x92, 0x47]), ('\u{27175}', [0x90, 0xFB]), ";
"    ('\u{271CD}', [0x9C, 0xA4]), ('\u{2721B}', [0x95, 0x71]), ('\u{27267}', [0x87, 0x45]), ";
"    ('\u{27280}', [0x9C, 0xA6]), ('\u{27285}', [0x9C, 0xA7]), ('\u{2728B}', [0x9C, 0xAA]), ";
"    ('\u{272B2}', [0x9E, 0xD3]), ('\u{272B6}', [0x9E, 0x70]), ('\u{272E6}', [0x9C, 0xAC]), ";
"    ('\u{27352}', [0x87, 0x52]), ('\u{2739A}', [0x8F, 0xAE]), ('\u{273FF}', [0x8D, 0x50]), ";
"    ('\u{27422}', [0x95, 0x7D]), ('\u{27450}', [0x9C, 0xB0]), ('\u{27484}', [0x97, 0xB6]), ";
"    ('\u{27486}', [0xA0, 0xBD]), ('\u{27574}', [0x8A, 0xDF]), ('\u{275A3}', [0x9E, 0xAA]), ";
"    ('\u{275E0}', [0x8F, 0xBD]), ('\u{275E4}', [0x8F, 0xBF]), ('\u{275FD}', [0x93, 0x69]), ";
"    ('\u{275FE}', [0x9B, 0xA7]), ('\u{27607}', [0xC8, 0xA4]), ('\u{2760C}', [0xFE, 0xEA]), ";
"    ('\u{27632}', [0x9B, 0xE1]), ('\u{27639}', [0x8B, 0x41]), ('\u{27655}', [0x9D, 0xB6]), ";
"    ('\u{27656}', [0xA0, 0xEB]), ('\u{27657}', [0x9B, 0xA3]), ('\u{27694}', [0x8B, 0xA1]), ";
"    ('\u{2770F}', [0x8F, 0xC8]), ('\u{27735}', [0x89, 0x4C]), ('\u{27736}', [0x98, 0x60]), ";
"    ('\u{27741}', [0x94, 0xC7]), ('\u{2775E}', [0x8B, 0x58]), ('\u{27784}', [0x95, 0xAB]), ";
"    ('\u{27785}', [0x95, 0xAA]), ('\u{277CC}', [0x9C, 0xC3]), ('\u{27858}', [0x9C, 0xC4]), ";
"    ('\u{27870}', [0x93, 0xD6]), ('\u{2789D}', [0x9D, 0xAC]), ('\u{278B2}', [0x8B, 0xE6]), ";
"    ('\u{278C8}', [0x8A, 0x71]), ('\u{27924}', [0x8F, 0xD1]), ('\u{27967}', [0x99, 0xD5]), ";
"    ('\u{2797A}', [0x90, 0xF4]), ('\u{279A0}', [0x8A, 0xA3]), ('\u{279DD}', [0x9C, 0xCE]), ";
"    ('\u{279FD}', [0x9C, 0xD4]), ('\u{27A0A}', [0x9C, 0xD5]), ('\u{27A0E}', [0xFB, 0xC8]), ";
"    ('\u{27A3E}', [0x9D, 0xB3]), ('\u{27A53}', [0xFC, 0x70]), ('\u{27A59}', [0x8F, 0xD7]), ";
"    ('\u{27A79}', [0x9B, 0x73]), ('\u{27A84}', [0xFA, 0x5B]), ('\u{27ABD}', [0x8F, 0xD2]), ";
"    ('\u{27ABE}', [0x90, 0x64]), ('\u{27AF4}', [0x98, 0xB6]), ('\u{27B06}', [0x96, 0x68]), ";
"    ('\u{27B0B}', [0x9C, 0xD6]), ('\u{27B18}', [0x98, 0xBD]), ('\u{27B38}', [0x8F, 0xDC]), ";
"    ('\u{27B39}', [0xFE, 0xF6]), ('\u{27B3A}', [0x8F, 0xD9]), ('\u{27B48}', [0x95, 0x41]), ";
"    ('\u{27B65}', [0x87, 0xCA]), ('\u{27BEF}', [0x87, 0x6C]), ('\u{27BF4}', [0x97, 0xF3]), ";
"    ('\u{27C12}', [0x9B, 0xF8]), ('\u{27C6C}', [0x87, 0x5A]), ('\u{27CB1}', [0x87, 0x48]), ";
"    ('\u{27CC5}', [0x87, 0x4A]), ('\u{27D2F}', [0x9E, 0x6C]), ('\u{27D53}', [0x8F, 0xF2]), ";
"    ('\u{27D54}', [0x8F, 0xEE]), ('\u{27D66}', [0x9C, 0xD7]), ('\u{27D73}', [0x9E, 0x6E]), ";
"    ('\u{27D84}', [0x8A, 0x40]), ('\u{27D8F}', [0x8F, 0xEF]), ('\u{27D98}', [0x8F, 0xF4]), ";
"    ('\u{27DBD}', [0x8F, 0xF5]), ('\u{27DDC}', [0x95, 0xC2]), ('\u{27E4D}', [0x98, 0x6A]), ";
"    ('\u{27E4F}', [0x97, 0xCF]), ('\u{27F2E}', [0x9E, 0xE5]), ('\u{27FF9}', [0x9E, 0x7C]), ";
"    ('\u{28002}', [0x90, 0x41]), ('\u{28009}', [0x9C, 0xDB]), ('\u{2801E}', [0x94, 0x41]), ";
"    ('\u{28023}', [0x9C, 0xE6]), ('\u{28024}', [0x9D, 0xB0]), ('\u{28048}', [0x9C, 0xEA]), ";
"    ('\u{28083}', [0x9C, 0xED]), ('\u{28090}', [0x9C, 0xFA]), ('\u{280BD}', [0x8B, 0x62]), ";
"    ('\u{280BE}', [0x8A, 0x4E]), ('\u{280E8}', [0x9C, 0xCA]), ('\u{280E9}', [0x8A, 0x66]), ";
"    ('\u{280F4}', [0x9C, 0xFB]), ('\u{2812E}', [0x9C, 0xFC]), ('\u{2814F}', [0x9C, 0xFE]), ";
"    ('\u{2815D}', [0x8A, 0x53]), ('\u{2816F}', [0x9C, 0xE5]), ('\u{28189}', [0x9D, 0x40]), ";
"    ('\u{281AF}', [0x9D, 0x41]), ('\u{281BC}', [0x90, 0x45]), ('\u{28207}', [0x8B, 0x73]), ";
"    ('\u{28218}', [0x97, 0xCA]), ('\u{2821A}', [0x9D, 0x42]), ('\u{28256}', [0x8A, 0x61]), ";
"    ('\u{2827C}', [0x8B, 0xAE]), ('\u{2829B}', [0x8A, 0xD2]), ('\u{282CD}', [0x8B, 0xA2]), ";
"    ('\u{282E2}', [0x9D, 0xF2]), ('\u{28306}', [0x9D, 0x43]), ('\u{28318}', [0x9C, 0xDF]), ";
"    ('\u{2832F}', [0x9D, 0x44]), ('\u{2833A}', [0x8E, 0xCA]), ('\u{28365}', [0x90, 0x4E]), ";
"    ('\u{2836D}', [0x8E, 0xB3]), ('\u{2837D}', [0x9F, 0xF5]), ('\u{2838A}', [0x9D, 0x45]), ";
"    ('\u{28412}', [0x90, 0x4F]), ('\u{28468}', [0x9D, 0x47]), ('\u{2846C}', [0x89, 0xCA]), ";
"    ('\u{28473}', [0x9C, 0xB5]), ('\u{28482}', [0xFB, 0xFE]), ('\u{28501}', [0x90, 0x5E]), ";
"    ('\u{2853C}', [0x90, 0x63]), ('\u{2853D}', [0x90, 0x57]), ('\u{2856C}', [0x90, 0x66]), ";
"    ('\u{285E8}', [0x9B, 0xC0]), ('\u{285F4}', [0xFC, 0xE5]), ('\u{28600}', [0x91, 0x62]), ";
"    ('\u{2860B}', [0x90, 0x67]), ('\u{28625}', [0x8F, 0xA1]), ('\u{2863B}', [0x8F, 0xA2]), ";
"    ('\u{286AA}', [0x9D, 0x48]), ('\u{286AB}', [0xFA, 0xD3]), ('\u{286B2}', [0x8D, 0x4F]), ";
"    ('\u{286BC}', [0x90, 0x5D]), ('\u{286D8}', [0x90, 0xB9]), ('\u{286E6}', [0x90, 0x6B]), ";
"    ('\u{2870F}', [0x8C, 0x5C]), ('\u{28713}', [0x90, 0x69]), ('\u{28804}', [0xFE, 0x57]), ";
"    ('\u{2882B}', [0xFE, 0x55]), ('\u{2890D}', [0x87, 0xA6]), ('\u{28933}', [0x90, 0x73]), ";
"    ('\u{28948}', [0x9B, 0xEF]), ('\u{28949}', [0x9C, 0xF0]), ('\u{28956}', [0x9D, 0x4B]), ";
"    ('\u{28964}', [0xFE, 0xD9]), ('\u{28968}', [0xFE, 0xDA]), ('\u{2896C}', [0x91, 0xE0]), ";
"    ('\u{2896D}', [0x8D, 0x43]), ('\u{2897E}', [0x91, 0xD8]), ('\u{28989}', [0x96, 0x46]), ";
"    ('\u{289A8}', [0x93, 0x60]), ('\u{289AA}', [0xFA, 0x53]), ('\u{289AB}', [0x9C, 0xD3]), ";
"    ('\u{289B8}', [0x9D, 0x4E]), ('\u{289BC}', [0xFB, 0x40]), ('\u{289C0}', [0x8D, 0xE2]), ";
"    ('\u{289DC}', [0x94, 0x42]), ('\u{289DE}', [0x90, 0x56]), ('\u{289E1}', [0x98, 0x65]), ";
"    ('\u{289E3}', [0x8C, 0x6C]), ('\u{289E4}', [0xFA, 0x4A]), ('\u{289E7}', [0x9D, 0x50]), ";
"    ('\u{289E8}', [0x9D, 0x52]), ('\u{289F9}', [0x95, 0xAF]), ('\u{289FA}', [0x97, 0x5A]), ";
"    ('\u{289FB}', [0x93, 0x49]), ('\u{289FC}', [0x97, 0x47]), ('\u{28A0F}', [0xA0, 0xF4]), ";
"    ('\u{28A16}', [0x97, 0x78]), ('\u{28A25}', [0x8F, 0xCF]), ('\u{28A29}', [0xFC, 0x60]), ";
"    ('\u{28A32}', [0x8C, 0x4E]), ('\u{28A36}', [0xFC, 0x56]), ('\u{28A44}', [0x91, 0xDC]), ";
"    ('\u{28A45}', [0x96, 0x61]), ('\u{28A46}', [0x92, 0xEC]), ('\u{28A47}', [0x93, 0x5D]), ";
"    ('\u{28A48}', [0x8E, 0xDE]), ('\u{28A49}', [0x96, 0xFE]), ('\u{28A4A}', [0xFD, 0x4F]), ";
"    ('\u{28A4B}', [0x95, 0xDE]), ('\u{28A59}', [0x98, 0xB0]), ('\u{28A5A}', [0xA0, 0x40]), ";
"    ('\u{28A81}', [0x97, 0xBD]), ('\u{28A82}', [0x97, 0x7D]), ('\u{28A83}', [0x97, 0xF5]), ";
"    ('\u{28A9A}', [0x9B, 0xAC]), ('\u{28A9B}', [0xFA, 0xDA]), ('\u{28A9C}', [0x92, 0xC2]), ";
"    ('\u{28AC0}', [0x97, 0xB1]), ('\u{28AC6}', [0x90, 0x7B]), ('\u{28ACB}', [0x93, 0xFE]), ";
"    ('\u{28ACC}', [0x94, 0x7B]), ('\u{28ACE}', [0x97, 0x77]), ('\u{28ADE}', [0xFA, 0xBE]), ";
"    ('\u{28ADF}', [0xFD, 0x43]), ('\u{28AE0}', [0x90, 0xC6]), ('\u{28AE1}', [0x90, 0xA4]), ";
"    ('\u{28AE2}', [0x90, 0xA8]), ('\u{28AE3}', [0x94, 0xA9]), ('\u{28AE5}', [0x90, 0xA9]), ";
"    ('\u{28AEA}', [0x8C, 0x65]), ('\u{28AFC}', [0x95, 0xE0]), ('\u{28B0C}', [0x90, 0x7D]), ";
"    ('\u{28B13}', [0x92, 0x65]), ('\u{28B21}', [0xFD, 0xBA]), ('\u{28B22}', [0x93, 0xC4]), ";
"    ('\u{28B2B}', [0xFE, 0xED]), ('\u{28B2C}', [0x9D, 0xAB]), ('\u{28B2D}', [0xA0, 0xE3]), ";
"    ('\u{28B2F}', [0x96, 0x48]), ('\u{28B46}', [0x9D, 0x53]), ('\u{28B4C}', [0x8A, 0xA9]), ";
"    ('\u{28B4E}', [0x9B, 0xC5]), ('\u{28B50}', [0x96, 0x5D]), ('\u{28B63}', [0x97, 0x5F]), ";
"    ('\u{28B64}', [0x96, 0x5F]), ('\u{28B65}', [0x96, 0x6E]), ('\u{28B66}', [0xFB, 0x5D]), ";
"    ('\u{28B6C}', [0x9D, 0xB1]), ('\u{28B8F}', [0xFE, 0xA3]), ('\u{28B99}', [0x9D, 0xB2]), ";
"    ('\u{28B9C}', [0x95, 0xAE]), ('\u{28B9D}', [0xFC, 0xA3]), ('\u{28BB9}', [0x87, 0x69]), ";
"    ('\u{28BC2}', [0xA0, 0xA2]), ('\u{28BC5}', [0x96, 0x55]), ('\u{28BD4}', [0x9D, 0x54]), ";
"    ('\u{28BD7}', [0x93, 0x41]), ('\u{28BD9}', [0x95, 0xAD]), ('\u{28BDA}', [0x91, 0xD5]), ";
"    ('\u{28BE7}', [0x97, 0x7A]), ('\u{28BE8}', [0xFD, 0xFC]), ('\u{28BE9}', [0x8E, 0x47]), ";
"    ('\u{28BEA}', [0x93, 0xFD]), ('\u{28BEB}', [0x90, 0xA5]), ('\u{28BEC}', [0x90, 0xAC]), ";
"    ('\u{28BF5}', [0x95, 0xAC]), ('\u{28BFF}', [0x90, 0xAE]), ('\u{28C03}', [0xFE, 0xA5]), ";
"    ('\u{28C09}', [0x9D, 0x56]), ('\u{28C1C}', [0x97, 0xE3]), ('\u{28C1D}', [0x95, 0xE2]), ";
"    ('\u{28C23}', [0x94, 0x66]), ('\u{28C26}', [0x96, 0x47]), ('\u{28C2B}', [0x91, 0xB8]), ";
"    ('\u{28C30}', [0x9C, 0xEC]), ('\u{28C39}', [0x90, 0xAD]), ('\u{28C3B}', [0x95, 0xE3]), ";
"    ('\u{28CCA}', [0x8B, 0x4F]), ('\u{28CCD}', [0x8A, 0xE3]), ('\u{28CD2}', [0x8B, 0x4D]), ";
"    ('\u{28D34}', [0x95, 0xEA]), ('\u{28D99}', [0x8B, 0x4E]), ('\u{28DB9}', [0x8C, 0xC1]), ";
"    ('\u{28E0F}', [0x8B, 0xED]), ('\u{28E36}', [0x91, 0xD9]), ('\u{28E39}', [0xA0, 0xA4]), ";
"    ('\u{28E65}', [0x95, 0xF5]), ('\u{28E66}', [0x95, 0xF4]), ('\u{28E97}', [0x9F, 0xB3]), ";
"    ('\u{28EAC}', [0xFE, 0xAF]), ('\u{28EB2}', [0xFE, 0x72]), ('\u{28EB3}', [0x92, 0x7A]), ";
"    ('\u{28ED9}', [0xFE, 0xAC]), ('\u{28EE7}', [0x95, 0xF3]), ('\u{28FC5}', [0x9D, 0x58]), ";
"    ('\u{29079}', [0x8D, 0x46]), ('\u{29088}', [0x93, 0x72]), ('\u{2908B}', [0x91, 0xC5]), ";
"    ('\u{29093}', [0x96, 0x42]), ('\u{290AF}', [0x90, 0xCD]), ('\u{290B0}', [0x95, 0xFE]), ";
"    ('\u{290B1}', [0x91, 0x59]), ('\u{290C0}', [0x9C, 0x65]), ('\u{290E4}', [0x97, 0xCC]), ";
"    ('\u{290E5}', [0x90, 0xCE]), ('\u{290EC}', [0x9D, 0x59]), ('\u{290ED}', [0xFC, 0xF5]), ";
"    ('\u{2910D}', [0xFE, 0xFD]), ('\u{29110}', [0x9D, 0x5B]), ('\u{2913C}', [0x9D, 0x5C]), ";
"    ('\u{2914D}', [0x93, 0x7E]), ('\u{2915B}', [0x98, 0xAC]), ('\u{2915E}', [0x9D, 0x5E]), ";
"    ('\u{29170}', [0xFD, 0xD0]), ('\u{2919C}', [0xFD, 0x60]), ('\u{291A8}', [0x9C, 0xCF]), ";
"    ('\u{291D5}', [0x90, 0xDD]), ('\u{291EB}', [0x90, 0xE0]), ('\u{2941D}', [0x90, 0xF3]), ";
"    ('\u{29420}', [0x98, 0xB1]), ('\u{29433}', [0x90, 0xF0]), ('\u{2943F}', [0x93, 0xBD]), ";
"    ('\u{29448}', [0x95, 0xB7]), ('\u{294D0}', [0x9F, 0x46]), ('\u{294D9}', [0x8E, 0x4B]), ";
"    ('\u{294DA}', [0x96, 0x58]), ('\u{294E5}', [0x8A, 0x4C]), ('\u{294E7}', [0x9D, 0x63]), ";
"    ('\u{2959E}', [0x9E, 0xCF]), ('\u{295B0}', [0x9D, 0x65]), ('\u{295B8}', [0x9D, 0x66]), ";
"    ('\u{295D7}', [0x96, 0x5A]), ('\u{295E9}', [0x9D, 0x64]), ('\u{295F4}', [0x8A, 0x6C]), ";
"    ('\u{29720}', [0x8A, 0xD9]), ('\u{29732}', [0x9D, 0x67]), ('\u{297D4}', [0x8A, 0x70]), ";
"    ('\u{29810}', [0x8B, 0xF3]), ('\u{29857}', [0x91, 0x50]), ('\u{298A4}', [0x9C, 0xC1]), ";
"    ('\u{298D1}', [0x9D, 0x68]), ('\u{298EA}', [0x93, 0xA7]), ('\u{298F1}', [0x96, 0x74]), ";
"    ('\u{298FA}', [0x8C, 0xFD]), ('\u{29903}', [0xA0, 0xEF]), ('\u{29905}', [0x91, 0x51]), ";
"    ('\u{2992F}', [0x96, 0xC1]), ('\u{29945}', [0x87, 0x77]), ('\u{29947}', [0x8C, 0x64]), ";
"    ('\u{29948}', [0x96, 0x76]), ('\u{29949}', [0x9D, 0x69]), ('\u{2995D}', [0xFC, 0xA4]), ";
"    ('\u{2996A}', [0x9D, 0x6A]), ('\u{2999D}', [0x92, 0x4E]), ('\u{299C3}', [0x9D, 0x6B]), ";
"    ('\u{299C9}', [0x9B, 0xC1]), ('\u{29A28}', [0x9D, 0x6C]), ('\u{29A4D}', [0x8A, 0x65]), ";
"    ('\u{29B05}', [0x91, 0x5D]), ('\u{29B0E}', [0x9D, 0x6D]), ('\u{29BD5}', [0x91, 0x5A]), ";
"    ('\u{29C73}', [0x8C, 0x42]), ('\u{29CAD}', [0x9C, 0xC0]), ('\u{29D3E}', [0x91, 0x6A]), ";
"    ('\u{29D5A}', [0x9D, 0x6E]), ('\u{29D7C}', [0x9E, 0xA6]), ('\u{29D98}', [0x9D, 0xCD]), ";
"    ('\u{29D9B}', [0x9D, 0x6F]), ('\u{29DF6}', [0x89, 0xBB]), ('\u{29E06}', [0x9E, 0xF9]), ";
"    ('\u{29E2D}', [0x96, 0xB4]), ('\u{29E68}', [0x91, 0x72]), ('\u{29EAC}', [0x9E, 0xC8]), ";
"    ('\u{29EB0}', [0x87, 0x71]), ('\u{29EC3}', [0x8B, 0x55]), ('\u{29EF8}', [0x9D, 0x71]), ";
"    ('\u{29F23}', [0x9D, 0x72]), ('\u{29F30}', [0x9E, 0xCC]), ('\u{29FB7}', [0x91, 0x74]), ";
"    ('\u{29FDE}', [0x9E, 0xD0]), ('\u{2A014}', [0x90, 0x5C]), ('\u{2A087}', [0x8E, 0xD2]), ";
"    ('\u{2A0B9}', [0x91, 0xA8]), ('\u{2A0E1}', [0x91, 0x77]), ('\u{2A0ED}', [0x96, 0xBF]), ";
"    ('\u{2A0F3}', [0x96, 0xC0]), ('\u{2A0F8}', [0x8F, 0xB1]), ('\u{2A0FE}', [0x96, 0xB7]), ";
"    ('\u{2A107}', [0x8C, 0x55]), ('\u{2A123}', [0x91, 0x78]), ('\u{2A133}', [0x89, 0xBE]), ";
"    ('\u{2A134}', [0x91, 0x7C]), ('\u{2A150}', [0xFB, 0x77]), ('\u{2A192}', [0x91, 0x75]), ";
"    ('\u{2A193}', [0x91, 0xA3]), ('\u{2A1AB}', [0x91, 0x76]), ('\u{2A1B4}', [0x96, 0xBE]), ";
"    ('\u{2A1B5}', [0x8D, 0x49]), ('\u{2A1DF}', [0x91, 0x79]), ('\u{2A1F5}', [0x96, 0xB6]), ";
"    ('\u{2A220}', [0x91, 0xA4]), ('\u{2A233}', [0x91, 0xA6]), ('\u{2A293}', [0x9D, 0x75]), ";
"    ('\u{2A29F}', [0x90, 0x52]), ('\u{2A2B2}', [0xA0, 0x45]), ('\u{2A2B4}', [0x91, 0xA9]), ";
"    ('\u{2A2B6}', [0x98, 0xAA]), ('\u{2A2BA}', [0x8C, 0x5F]), ('\u{2A2BD}', [0x8B, 0xAA]), ";
"    ('\u{2A2DF}', [0x9C, 0xDD]), ('\u{2A2FF}', [0x9D, 0x77]), ('\u{2A351}', [0x87, 0x56]), ";
"    ('\u{2A3A9}', [0x89, 0x40]), ('\u{2A434}', [0x9E, 0xEC]), ('\u{2A45B}', [0x93, 0xAA]), ";
"    ('\u{2A5C6}', [0x94, 0x78]), ('\u{2A5CB}', [0x9D, 0x7A]), ('\u{2A601}', [0x8A, 0xC9]), ";
"    ('\u{2A632}', [0x8B, 0x4B]), ('\u{2A64A}', [0x9F, 0xEC]), ('\u{2A65B}', [0x8A, 0xE2]), ";
"    ('\u{2A6A9}', [0x9E, 0x75]), ('\u{2ADFF}', [0x87, 0xDC]), ('\u{2F825}', [0x98, 0x74]), ";
"    ('\u{2F83B}', [0x9A, 0xC8]), ('\u{2F840}', [0xA0, 0x47]), ('\u{2F878}', [0x8B, 0xC3]), ";
"    ('\u{2F894}', [0xFC, 0x48]), ('\u{2F8A6}', [0xFC, 0x77]), ('\u{2F8CD}', [0x9C, 0x52]), ";
"    ('\u{2F994}', [0x8E, 0xFD]), ('\u{2F9B2}', [0x8F, 0xA8]), ('\u{2F9BC}', [0x95, 0x7A]), ";
"    ('\u{2F9D4}', [0x8F, 0xF0]), ";
"];"
].
(* /repo/src/generated/whatwg/big5_whatwg_tables.rs.inc *)
Definition big5_inc : list line :=
  big5_inc_0 ++
  big5_inc_1 ++
  big5_inc_2 ++
  big5_inc_3 ++
  big5_inc_4 ++
  big5_inc_5 ++
  big5_inc_6 ++
  big5_inc_7 ++
  big5_inc_8 ++
  big5_inc_9 ++
  big5_inc_10 ++
  big5_inc_11 ++
  big5_inc_12 ++
  big5_inc_13 ++
  big5_inc_14 ++
  big5_inc_15 ++
  big5_inc_16 ++
  big5_inc_17 ++
  big5_inc_18 ++
  big5_inc_19 ++
  big5_inc_20 ++
  big5_inc_21 ++
  big5_inc_22 ++
  big5_inc_23 ++
  big5_inc_24 ++
  big5_inc_25 ++
  big5_inc_26 ++
  big5_inc_27 ++
  big5_inc_28 ++
  big5_inc_29 ++
  big5_inc_30 ++
  big5_inc_31 ++
  big5_inc_32 ++
  big5_inc_33.
Global Opaque big5_inc.

