(* Generated by tools/gen_tables.py: a literal transcription, no computation. *)
From Coq Require Import List NArith ZArith String.
Import ListNotations.
Local Open Scope Z_scope.
Definition MASK_MAP_0 : list (list Z) := [
[(-1);389;385;377;365;349;329;305;277;245;209;169;125;(-1);(-1);(-1)];
[77;1322;1310;1286;1250;1202;1142;1070;986;890;782;662;530;(-1);(-1);(-1)];
[76;1319;1307;1283;1247;1199;1139;1067;983;887;779;659;527;(-1);(-1);(-1)];
[74;1316;1304;1280;1244;1196;1136;1064;980;884;776;656;524;(-1);(-1);(-1)];
[(-1);(-1);381;373;361;345;325;301;273;241;205;165;121;(-1);(-1);(-1)];
[1325;71;1298;1274;1238;1190;1130;1058;974;878;770;650;518;(-1);(-1);(-1)];
[1324;70;1295;1271;1235;1187;1127;1055;971;875;767;647;515;(-1);(-1);(-1)];
[1323;68;1292;1268;1232;1184;1124;1052;968;872;764;644;512;(-1);(-1);(-1)];
[(-1);(-1);(-1);369;357;341;321;297;269;237;201;161;117;(-1);(-1);(-1)];
[1313;1301;65;1262;1226;1178;1118;1046;962;866;758;638;506;(-1);(-1);(-1)];
[1312;1300;64;1259;1223;1175;1115;1043;959;863;755;635;503;(-1);(-1);(-1)];
[1311;1299;62;1256;1220;1172;1112;1040;956;860;752;632;500;(-1);(-1);(-1)];
[(-1);(-1);(-1);(-1);353;337;317;293;265;233;197;157;113;(-1);(-1);(-1)];
[1289;1277;1265;59;1214;1166;1106;1034;950;854;746;626;494;(-1);(-1);(-1)];
[1288;1276;1264;58;1211;1163;1103;1031;947;851;743;623;491;(-1);(-1);(-1)];
[1287;1275;1263;56;1208;1160;1100;1028;944;848;740;620;488;(-1);(-1);(-1)];
[(-1);(-1);(-1);(-1);(-1);333;313;289;261;229;193;153;109;(-1);(-1);(-1)];
[1253;1241;1229;1217;53;1154;1094;1022;938;842;734;614;482;(-1);(-1);(-1)];
[1252;1240;1228;1216;52;1151;1091;1019;935;839;731;611;479;(-1);(-1);(-1)];
[1251;1239;1227;1215;50;1148;1088;1016;932;836;728;608;476;(-1);(-1);(-1)];
[(-1);(-1);(-1);(-1);(-1);(-1);309;285;257;225;189;149;105;(-1);(-1);(-1)];
[1205;1193;1181;1169;1157;47;1082;1010;926;830;722;602;470;(-1);(-1);(-1)];
[1204;1192;1180;1168;1156;46;1079;1007;923;827;719;599;467;(-1);(-1);(-1)];
[1203;1191;1179;1167;1155;44;1076;1004;920;824;716;596;464;(-1);(-1);(-1)];
[(-1);(-1);(-1);(-1);(-1);(-1);(-1);281;253;221;185;145;101;(-1);(-1);(-1)];
[1145;1133;1121;1109;1097;1085;41;998;914;818;710;590;458;(-1);(-1);(-1)];
[1144;1132;1120;1108;1096;1084;40;995;911;815;707;587;455;(-1);(-1);(-1)];
[1143;1131;1119;1107;1095;1083;38;992;908;812;704;584;452;(-1);(-1);(-1)];
[(-1);(-1);(-1);(-1);(-1);(-1);(-1);(-1);249;217;181;141;97;(-1);(-1);(-1)];
[1073;1061;1049;1037;1025;1013;1001;35;902;806;698;578;446;(-1);(-1);(-1)];
[1072;1060;1048;1036;1024;1012;1000;34;899;803;695;575;443;(-1);(-1);(-1)];
[1071;1059;1047;1035;1023;1011;999;32;896;800;692;572;440;(-1);(-1);(-1)];
[(-1);(-1);(-1);(-1);(-1);(-1);(-1);(-1);(-1);213;177;137;93;(-1);(-1);(-1)];
[989;977;965;953;941;929;917;905;29;794;686;566;434;(-1);(-1);(-1)];
[988;976;964;952;940;928;916;904;28;791;683;563;431;(-1);(-1);(-1)];
[987;975;963;951;939;927;915;903;26;788;680;560;428;(-1);(-1);(-1)];
[(-1);(-1);(-1);(-1);(-1);(-1);(-1);(-1);(-1);(-1);173;133;89;(-1);(-1);(-1)];
[893;881;869;857;845;833;821;809;797;23;674;554;422;(-1);(-1);(-1)];
[892;880;868;856;844;832;820;808;796;22;671;551;419;(-1);(-1);(-1)];
[891;879;867;855;843;831;819;807;795;20;668;548;416;(-1);(-1);(-1)];
[(-1);(-1);(-1);(-1);(-1);(-1);(-1);(-1);(-1);(-1);(-1);129;85;(-1);(-1);(-1)];
[785;773;761;749;737;725;713;701;689;677;17;542;410;(-1);(-1);(-1)];
[784;772;760;748;736;724;712;700;688;676;16;539;407;(-1);(-1);(-1)];
[783;771;759;747;735;723;711;699;687;675;14;536;404;(-1);(-1);(-1)];
[(-1);(-1);(-1);(-1);(-1);(-1);(-1);(-1);(-1);(-1);(-1);(-1);81;(-1);(-1);(-1)];
[665;653;641;629;617;605;593;581;569;557;545;11;398;(-1);(-1);(-1)];
[664;652;640;628;616;604;592;580;568;556;544;10;395;(-1);(-1);(-1)];
[663;651;639;627;615;603;591;579;567;555;543;8;392;(-1);(-1);(-1)];
[(-1);(-1);(-1);(-1);(-1);(-1);(-1);(-1);(-1);(-1);(-1);(-1);(-1);(-1);(-1);(-1)];
[533;521;509;497;485;473;461;449;437;425;413;401;5;(-1);(-1);(-1)];
[532;520;508;496;484;472;460;448;436;424;412;400;4;(-1);(-1);(-1)];
[531;519;507;495;483;471;459;447;435;423;411;399;2;(-1);(-1);(-1)];
[(-1);(-1);(-1);(-1);(-1);(-1);(-1);(-1);(-1);(-1);(-1);(-1);(-1);(-1);(-1);(-1)];
[(-1);(-1);(-1);(-1);(-1);(-1);(-1);(-1);(-1);(-1);(-1);(-1);(-1);(-1);(-1);(-1)];
[(-1);(-1);(-1);(-1);(-1);(-1);(-1);(-1);(-1);(-1);(-1);(-1);(-1);(-1);(-1);(-1)];
[(-1);(-1);(-1);(-1);(-1);(-1);(-1);(-1);(-1);(-1);(-1);(-1);(-1);(-1);(-1);(-1)];
[(-1);(-1);(-1);(-1);(-1);(-1);(-1);(-1);(-1);(-1);(-1);(-1);(-1);(-1);(-1);(-1)];
[(-1);(-1);(-1);(-1);(-1);(-1);(-1);(-1);(-1);(-1);(-1);(-1);(-1);(-1);(-1);(-1)];
[(-1);(-1);(-1);(-1);(-1);(-1);(-1);(-1);(-1);(-1);(-1);(-1);(-1);(-1);(-1);(-1)];
[(-1);(-1);(-1);(-1);(-1);(-1);(-1);(-1);(-1);(-1);(-1);(-1);(-1);(-1);(-1);(-1)];
[(-1);(-1);(-1);(-1);(-1);(-1);(-1);(-1);(-1);(-1);(-1);(-1);(-1);(-1);(-1);(-1)];
[(-1);(-1);(-1);(-1);(-1);(-1);(-1);(-1);(-1);(-1);(-1);(-1);(-1);(-1);(-1);(-1)];
[(-1);(-1);(-1);(-1);(-1);(-1);(-1);(-1);(-1);(-1);(-1);(-1);(-1);(-1);(-1);(-1)];
[(-1);(-1);(-1);(-1);(-1);(-1);(-1);(-1);(-1);(-1);(-1);(-1);(-1);(-1);(-1);(-1)];
[(-1);(-1);(-1);(-1);(-1);(-1);(-1);(-1);(-1);(-1);(-1);(-1);(-1);(-1);(-1);(-1)];
[(-1);388;384;376;364;348;328;304;276;244;208;168;124;(-1);(-1);(-1)];
[75;1318;1306;1282;1246;1198;1138;1066;982;886;778;658;526;(-1);(-1);(-1)];
[73;1315;1303;1279;1243;1195;1135;1063;979;883;775;655;523;(-1);(-1);(-1)];
[(-1);(-1);(-1);(-1);(-1);(-1);(-1);(-1);(-1);(-1);(-1);(-1);(-1);(-1);(-1);(-1)];
[(-1);(-1);380;372;360;344;324;300;272;240;204;164;120;(-1);(-1);(-1)];
[1321;69;1294;1270;1234;1186;1126;1054;970;874;766;646;514;(-1);(-1);(-1)];
[1320;67;1291;1267;1231;1183;1123;1051;967;871;763;643;511;(-1);(-1);(-1)];
[(-1);(-1);(-1);(-1);(-1);(-1);(-1);(-1);(-1);(-1);(-1);(-1);(-1);(-1);(-1);(-1)];
[(-1);(-1);(-1);368;356;340;320;296;268;236;200;160;116;(-1);(-1);(-1)];
[1309;1297;63;1258;1222;1174;1114;1042;958;862;754;634;502;(-1);(-1);(-1)];
[1308;1296;61;1255;1219;1171;1111;1039;955;859;751;631;499;(-1);(-1);(-1)];
[(-1);(-1);(-1);(-1);(-1);(-1);(-1);(-1);(-1);(-1);(-1);(-1);(-1);(-1);(-1);(-1)];
[(-1);(-1);(-1);(-1);352;336;316;292;264;232;196;156;112;(-1);(-1);(-1)];
[1285;1273;1261;57;1210;1162;1102;1030;946;850;742;622;490;(-1);(-1);(-1)];
[1284;1272;1260;55;1207;1159;1099;1027;943;847;739;619;487;(-1);(-1);(-1)];
[(-1);(-1);(-1);(-1);(-1);(-1);(-1);(-1);(-1);(-1);(-1);(-1);(-1);(-1);(-1);(-1)];
[(-1);(-1);(-1);(-1);(-1);332;312;288;260;228;192;152;108;(-1);(-1);(-1)];
[1249;1237;1225;1213;51;1150;1090;1018;934;838;730;610;478;(-1);(-1);(-1)];
[1248;1236;1224;1212;49;1147;1087;1015;931;835;727;607;475;(-1);(-1);(-1)];
[(-1);(-1);(-1);(-1);(-1);(-1);(-1);(-1);(-1);(-1);(-1);(-1);(-1);(-1);(-1);(-1)];
[(-1);(-1);(-1);(-1);(-1);(-1);308;284;256;224;188;148;104;(-1);(-1);(-1)];
[1201;1189;1177;1165;1153;45;1078;1006;922;826;718;598;466;(-1);(-1);(-1)];
[1200;1188;1176;1164;1152;43;1075;1003;919;823;715;595;463;(-1);(-1);(-1)];
[(-1);(-1);(-1);(-1);(-1);(-1);(-1);(-1);(-1);(-1);(-1);(-1);(-1);(-1);(-1);(-1)];
[(-1);(-1);(-1);(-1);(-1);(-1);(-1);280;252;220;184;144;100;(-1);(-1);(-1)];
[1141;1129;1117;1105;1093;1081;39;994;910;814;706;586;454;(-1);(-1);(-1)];
[1140;1128;1116;1104;1092;1080;37;991;907;811;703;583;451;(-1);(-1);(-1)];
[(-1);(-1);(-1);(-1);(-1);(-1);(-1);(-1);(-1);(-1);(-1);(-1);(-1);(-1);(-1);(-1)];
[(-1);(-1);(-1);(-1);(-1);(-1);(-1);(-1);248;216;180;140;96;(-1);(-1);(-1)];
[1069;1057;1045;1033;1021;1009;997;33;898;802;694;574;442;(-1);(-1);(-1)];
[1068;1056;1044;1032;1020;1008;996;31;895;799;691;571;439;(-1);(-1);(-1)];
[(-1);(-1);(-1);(-1);(-1);(-1);(-1);(-1);(-1);(-1);(-1);(-1);(-1);(-1);(-1);(-1)];
[(-1);(-1);(-1);(-1);(-1);(-1);(-1);(-1);(-1);212;176;136;92;(-1);(-1);(-1)];
[985;973;961;949;937;925;913;901;27;790;682;562;430;(-1);(-1);(-1)];
[984;972;960;948;936;924;912;900;25;787;679;559;427;(-1);(-1);(-1)];
[(-1);(-1);(-1);(-1);(-1);(-1);(-1);(-1);(-1);(-1);(-1);(-1);(-1);(-1);(-1);(-1)];
[(-1);(-1);(-1);(-1);(-1);(-1);(-1);(-1);(-1);(-1);172;132;88;(-1);(-1);(-1)];
[889;877;865;853;841;829;817;805;793;21;670;550;418;(-1);(-1);(-1)];
[888;876;864;852;840;828;816;804;792;19;667;547;415;(-1);(-1);(-1)];
[(-1);(-1);(-1);(-1);(-1);(-1);(-1);(-1);(-1);(-1);(-1);(-1);(-1);(-1);(-1);(-1)];
[(-1);(-1);(-1);(-1);(-1);(-1);(-1);(-1);(-1);(-1);(-1);128;84;(-1);(-1);(-1)];
[781;769;757;745;733;721;709;697;685;673;15;538;406;(-1);(-1);(-1)];
[780;768;756;744;732;720;708;696;684;672;13;535;403;(-1);(-1);(-1)];
[(-1);(-1);(-1);(-1);(-1);(-1);(-1);(-1);(-1);(-1);(-1);(-1);(-1);(-1);(-1);(-1)];
[(-1);(-1);(-1);(-1);(-1);(-1);(-1);(-1);(-1);(-1);(-1);(-1);80;(-1);(-1);(-1)];
[661;649;637;625;613;601;589;577;565;553;541;9;394;(-1);(-1);(-1)];
[660;648;636;624;612;600;588;576;564;552;540;7;391;(-1);(-1);(-1)];
[(-1);(-1);(-1);(-1);(-1);(-1);(-1);(-1);(-1);(-1);(-1);(-1);(-1);(-1);(-1);(-1)];
[(-1);(-1);(-1);(-1);(-1);(-1);(-1);(-1);(-1);(-1);(-1);(-1);(-1);(-1);(-1);(-1)];
[529;517;505;493;481;469;457;445;433;421;409;397;3;(-1);(-1);(-1)];
[528;516;504;492;480;468;456;444;432;420;408;396;1;(-1);(-1);(-1)];
[(-1);(-1);(-1);(-1);(-1);(-1);(-1);(-1);(-1);(-1);(-1);(-1);(-1);(-1);(-1);(-1)];
[(-1);(-1);(-1);(-1);(-1);(-1);(-1);(-1);(-1);(-1);(-1);(-1);(-1);(-1);(-1);(-1)];
[(-1);(-1);(-1);(-1);(-1);(-1);(-1);(-1);(-1);(-1);(-1);(-1);(-1);(-1);(-1);(-1)];
[(-1);(-1);(-1);(-1);(-1);(-1);(-1);(-1);(-1);(-1);(-1);(-1);(-1);(-1);(-1);(-1)];
[(-1);(-1);(-1);(-1);(-1);(-1);(-1);(-1);(-1);(-1);(-1);(-1);(-1);(-1);(-1);(-1)];
[(-1);(-1);(-1);(-1);(-1);(-1);(-1);(-1);(-1);(-1);(-1);(-1);(-1);(-1);(-1);(-1)];
[(-1);(-1);(-1);(-1);(-1);(-1);(-1);(-1);(-1);(-1);(-1);(-1);(-1);(-1);(-1);(-1)];
[(-1);(-1);(-1);(-1);(-1);(-1);(-1);(-1);(-1);(-1);(-1);(-1);(-1);(-1);(-1);(-1)];
[(-1);(-1);(-1);(-1);(-1);(-1);(-1);(-1);(-1);(-1);(-1);(-1);(-1);(-1);(-1);(-1)];
[(-1);(-1);(-1);(-1);(-1);(-1);(-1);(-1);(-1);(-1);(-1);(-1);(-1);(-1);(-1);(-1)];
[(-1);(-1);(-1);(-1);(-1);(-1);(-1);(-1);(-1);(-1);(-1);(-1);(-1);(-1);(-1);(-1)];
[(-1);(-1);(-1);(-1);(-1);(-1);(-1);(-1);(-1);(-1);(-1);(-1);(-1);(-1);(-1);(-1)];
[(-1);(-1);(-1);(-1);(-1);(-1);(-1);(-1);(-1);(-1);(-1);(-1);(-1);(-1);(-1);(-1)];
[(-1);(-1);(-1);(-1);(-1);(-1);(-1);(-1);(-1);(-1);(-1);(-1);(-1);(-1);(-1);(-1)];
[(-1);387;383;375;363;347;327;303;275;243;207;167;123;(-1);(-1);(-1)];
[72;1314;1302;1278;1242;1194;1134;1062;978;882;774;654;522;(-1);(-1);(-1)];
[(-1);(-1);(-1);(-1);(-1);(-1);(-1);(-1);(-1);(-1);(-1);(-1);(-1);(-1);(-1);(-1)];
[(-1);(-1);(-1);(-1);(-1);(-1);(-1);(-1);(-1);(-1);(-1);(-1);(-1);(-1);(-1);(-1)];
[(-1);(-1);379;371;359;343;323;299;271;239;203;163;119;(-1);(-1);(-1)];
[1317;66;1290;1266;1230;1182;1122;1050;966;870;762;642;510;(-1);(-1);(-1)];
[(-1);(-1);(-1);(-1);(-1);(-1);(-1);(-1);(-1);(-1);(-1);(-1);(-1);(-1);(-1);(-1)];
[(-1);(-1);(-1);(-1);(-1);(-1);(-1);(-1);(-1);(-1);(-1);(-1);(-1);(-1);(-1);(-1)];
[(-1);(-1);(-1);367;355;339;319;295;267;235;199;159;115;(-1);(-1);(-1)];
[1305;1293;60;1254;1218;1170;1110;1038;954;858;750;630;498;(-1);(-1);(-1)];
[(-1);(-1);(-1);(-1);(-1);(-1);(-1);(-1);(-1);(-1);(-1);(-1);(-1);(-1);(-1);(-1)];
[(-1);(-1);(-1);(-1);(-1);(-1);(-1);(-1);(-1);(-1);(-1);(-1);(-1);(-1);(-1);(-1)];
[(-1);(-1);(-1);(-1);351;335;315;291;263;231;195;155;111;(-1);(-1);(-1)];
[1281;1269;1257;54;1206;1158;1098;1026;942;846;738;618;486;(-1);(-1);(-1)];
[(-1);(-1);(-1);(-1);(-1);(-1);(-1);(-1);(-1);(-1);(-1);(-1);(-1);(-1);(-1);(-1)];
[(-1);(-1);(-1);(-1);(-1);(-1);(-1);(-1);(-1);(-1);(-1);(-1);(-1);(-1);(-1);(-1)];
[(-1);(-1);(-1);(-1);(-1);331;311;287;259;227;191;151;107;(-1);(-1);(-1)];
[1245;1233;1221;1209;48;1146;1086;1014;930;834;726;606;474;(-1);(-1);(-1)];
[(-1);(-1);(-1);(-1);(-1);(-1);(-1);(-1);(-1);(-1);(-1);(-1);(-1);(-1);(-1);(-1)];
[(-1);(-1);(-1);(-1);(-1);(-1);(-1);(-1);(-1);(-1);(-1);(-1);(-1);(-1);(-1);(-1)];
[(-1);(-1);(-1);(-1);(-1);(-1);307;283;255;223;187;147;103;(-1);(-1);(-1)];
[1197;1185;1173;1161;1149;42;1074;1002;918;822;714;594;462;(-1);(-1);(-1)];
[(-1);(-1);(-1);(-1);(-1);(-1);(-1);(-1);(-1);(-1);(-1);(-1);(-1);(-1);(-1);(-1)];
[(-1);(-1);(-1);(-1);(-1);(-1);(-1);(-1);(-1);(-1);(-1);(-1);(-1);(-1);(-1);(-1)];
[(-1);(-1);(-1);(-1);(-1);(-1);(-1);279;251;219;183;143;99;(-1);(-1);(-1)];
[1137;1125;1113;1101;1089;1077;36;990;906;810;702;582;450;(-1);(-1);(-1)];
[(-1);(-1);(-1);(-1);(-1);(-1);(-1);(-1);(-1);(-1);(-1);(-1);(-1);(-1);(-1);(-1)];
[(-1);(-1);(-1);(-1);(-1);(-1);(-1);(-1);(-1);(-1);(-1);(-1);(-1);(-1);(-1);(-1)];
[(-1);(-1);(-1);(-1);(-1);(-1);(-1);(-1);247;215;179;139;95;(-1);(-1);(-1)];
[1065;1053;1041;1029;1017;1005;993;30;894;798;690;570;438;(-1);(-1);(-1)];
[(-1);(-1);(-1);(-1);(-1);(-1);(-1);(-1);(-1);(-1);(-1);(-1);(-1);(-1);(-1);(-1)];
[(-1);(-1);(-1);(-1);(-1);(-1);(-1);(-1);(-1);(-1);(-1);(-1);(-1);(-1);(-1);(-1)];
[(-1);(-1);(-1);(-1);(-1);(-1);(-1);(-1);(-1);211;175;135;91;(-1);(-1);(-1)];
[981;969;957;945;933;921;909;897;24;786;678;558;426;(-1);(-1);(-1)];
[(-1);(-1);(-1);(-1);(-1);(-1);(-1);(-1);(-1);(-1);(-1);(-1);(-1);(-1);(-1);(-1)];
[(-1);(-1);(-1);(-1);(-1);(-1);(-1);(-1);(-1);(-1);(-1);(-1);(-1);(-1);(-1);(-1)];
[(-1);(-1);(-1);(-1);(-1);(-1);(-1);(-1);(-1);(-1);171;131;87;(-1);(-1);(-1)];
[885;873;861;849;837;825;813;801;789;18;666;546;414;(-1);(-1);(-1)];
[(-1);(-1);(-1);(-1);(-1);(-1);(-1);(-1);(-1);(-1);(-1);(-1);(-1);(-1);(-1);(-1)];
[(-1);(-1);(-1);(-1);(-1);(-1);(-1);(-1);(-1);(-1);(-1);(-1);(-1);(-1);(-1);(-1)];
[(-1);(-1);(-1);(-1);(-1);(-1);(-1);(-1);(-1);(-1);(-1);127;83;(-1);(-1);(-1)];
[777;765;753;741;729;717;705;693;681;669;12;534;402;(-1);(-1);(-1)];
[(-1);(-1);(-1);(-1);(-1);(-1);(-1);(-1);(-1);(-1);(-1);(-1);(-1);(-1);(-1);(-1)];
[(-1);(-1);(-1);(-1);(-1);(-1);(-1);(-1);(-1);(-1);(-1);(-1);(-1);(-1);(-1);(-1)];
[(-1);(-1);(-1);(-1);(-1);(-1);(-1);(-1);(-1);(-1);(-1);(-1);79;(-1);(-1);(-1)];
[657;645;633;621;609;597;585;573;561;549;537;6;390;(-1);(-1);(-1)];
[(-1);(-1);(-1);(-1);(-1);(-1);(-1);(-1);(-1);(-1);(-1);(-1);(-1);(-1);(-1);(-1)];
[(-1);(-1);(-1);(-1);(-1);(-1);(-1);(-1);(-1);(-1);(-1);(-1);(-1);(-1);(-1);(-1)];
[(-1);(-1);(-1);(-1);(-1);(-1);(-1);(-1);(-1);(-1);(-1);(-1);(-1);(-1);(-1);(-1)];
[525;513;501;489;477;465;453;441;429;417;405;393;0;(-1);(-1);(-1)];
[(-1);(-1);(-1);(-1);(-1);(-1);(-1);(-1);(-1);(-1);(-1);(-1);(-1);(-1);(-1);(-1)];
[(-1);(-1);(-1);(-1);(-1);(-1);(-1);(-1);(-1);(-1);(-1);(-1);(-1);(-1);(-1);(-1)];
[(-1);(-1);(-1);(-1);(-1);(-1);(-1);(-1);(-1);(-1);(-1);(-1);(-1);(-1);(-1);(-1)];
[(-1);(-1);(-1);(-1);(-1);(-1);(-1);(-1);(-1);(-1);(-1);(-1);(-1);(-1);(-1);(-1)];
[(-1);(-1);(-1);(-1);(-1);(-1);(-1);(-1);(-1);(-1);(-1);(-1);(-1);(-1);(-1);(-1)];
[(-1);(-1);(-1);(-1);(-1);(-1);(-1);(-1);(-1);(-1);(-1);(-1);(-1);(-1);(-1);(-1)];
[(-1);(-1);(-1);(-1);(-1);(-1);(-1);(-1);(-1);(-1);(-1);(-1);(-1);(-1);(-1);(-1)];
[(-1);(-1);(-1);(-1);(-1);(-1);(-1);(-1);(-1);(-1);(-1);(-1);(-1);(-1);(-1);(-1)];
[(-1);(-1);(-1);(-1);(-1);(-1);(-1);(-1);(-1);(-1);(-1);(-1);(-1);(-1);(-1);(-1)];
[(-1);(-1);(-1);(-1);(-1);(-1);(-1);(-1);(-1);(-1);(-1);(-1);(-1);(-1);(-1);(-1)];
[(-1);(-1);(-1);(-1);(-1);(-1);(-1);(-1);(-1);(-1);(-1);(-1);(-1);(-1);(-1);(-1)];
[(-1);(-1);(-1);(-1);(-1);(-1);(-1);(-1);(-1);(-1);(-1);(-1);(-1);(-1);(-1);(-1)];
[(-1);(-1);(-1);(-1);(-1);(-1);(-1);(-1);(-1);(-1);(-1);(-1);(-1);(-1);(-1);(-1)];
[(-1);(-1);(-1);(-1);(-1);(-1);(-1);(-1);(-1);(-1);(-1);(-1);(-1);(-1);(-1);(-1)];
[(-1);(-1);(-1);(-1);(-1);(-1);(-1);(-1);(-1);(-1);(-1);(-1);(-1);(-1);(-1);(-1)];
[(-1);386;382;374;362;346;326;302;274;242;206;166;122;(-1);(-1);(-1)];
[(-1);(-1);(-1);(-1);(-1);(-1);(-1);(-1);(-1);(-1);(-1);(-1);(-1);(-1);(-1);(-1)];
[(-1);(-1);(-1);(-1);(-1);(-1);(-1);(-1);(-1);(-1);(-1);(-1);(-1);(-1);(-1);(-1)];
[(-1);(-1);(-1);(-1);(-1);(-1);(-1);(-1);(-1);(-1);(-1);(-1);(-1);(-1);(-1);(-1)];
[(-1);(-1);378;370;358;342;322;298;270;238;202;162;118;(-1);(-1);(-1)];
[(-1);(-1);(-1);(-1);(-1);(-1);(-1);(-1);(-1);(-1);(-1);(-1);(-1);(-1);(-1);(-1)];
[(-1);(-1);(-1);(-1);(-1);(-1);(-1);(-1);(-1);(-1);(-1);(-1);(-1);(-1);(-1);(-1)];
[(-1);(-1);(-1);(-1);(-1);(-1);(-1);(-1);(-1);(-1);(-1);(-1);(-1);(-1);(-1);(-1)];
[(-1);(-1);(-1);366;354;338;318;294;266;234;198;158;114;(-1);(-1);(-1)];
[(-1);(-1);(-1);(-1);(-1);(-1);(-1);(-1);(-1);(-1);(-1);(-1);(-1);(-1);(-1);(-1)];
[(-1);(-1);(-1);(-1);(-1);(-1);(-1);(-1);(-1);(-1);(-1);(-1);(-1);(-1);(-1);(-1)];
[(-1);(-1);(-1);(-1);(-1);(-1);(-1);(-1);(-1);(-1);(-1);(-1);(-1);(-1);(-1);(-1)];
[(-1);(-1);(-1);(-1);350;334;314;290;262;230;194;154;110;(-1);(-1);(-1)];
[(-1);(-1);(-1);(-1);(-1);(-1);(-1);(-1);(-1);(-1);(-1);(-1);(-1);(-1);(-1);(-1)];
[(-1);(-1);(-1);(-1);(-1);(-1);(-1);(-1);(-1);(-1);(-1);(-1);(-1);(-1);(-1);(-1)];
[(-1);(-1);(-1);(-1);(-1);(-1);(-1);(-1);(-1);(-1);(-1);(-1);(-1);(-1);(-1);(-1)];
[(-1);(-1);(-1);(-1);(-1);330;310;286;258;226;190;150;106;(-1);(-1);(-1)];
[(-1);(-1);(-1);(-1);(-1);(-1);(-1);(-1);(-1);(-1);(-1);(-1);(-1);(-1);(-1);(-1)];
[(-1);(-1);(-1);(-1);(-1);(-1);(-1);(-1);(-1);(-1);(-1);(-1);(-1);(-1);(-1);(-1)];
[(-1);(-1);(-1);(-1);(-1);(-1);(-1);(-1);(-1);(-1);(-1);(-1);(-1);(-1);(-1);(-1)];
[(-1);(-1);(-1);(-1);(-1);(-1);306;282;254;222;186;146;102;(-1);(-1);(-1)];
[(-1);(-1);(-1);(-1);(-1);(-1);(-1);(-1);(-1);(-1);(-1);(-1);(-1);(-1);(-1);(-1)];
[(-1);(-1);(-1);(-1);(-1);(-1);(-1);(-1);(-1);(-1);(-1);(-1);(-1);(-1);(-1);(-1)];
[(-1);(-1);(-1);(-1);(-1);(-1);(-1);(-1);(-1);(-1);(-1);(-1);(-1);(-1);(-1);(-1)];
[(-1);(-1);(-1);(-1);(-1);(-1);(-1);278;250;218;182;142;98;(-1);(-1);(-1)];
[(-1);(-1);(-1);(-1);(-1);(-1);(-1);(-1);(-1);(-1);(-1);(-1);(-1);(-1);(-1);(-1)];
[(-1);(-1);(-1);(-1);(-1);(-1);(-1);(-1);(-1);(-1);(-1);(-1);(-1);(-1);(-1);(-1)];
[(-1);(-1);(-1);(-1);(-1);(-1);(-1);(-1);(-1);(-1);(-1);(-1);(-1);(-1);(-1);(-1)];
[(-1);(-1);(-1);(-1);(-1);(-1);(-1);(-1);246;214;178;138;94;(-1);(-1);(-1)];
[(-1);(-1);(-1);(-1);(-1);(-1);(-1);(-1);(-1);(-1);(-1);(-1);(-1);(-1);(-1);(-1)];
[(-1);(-1);(-1);(-1);(-1);(-1);(-1);(-1);(-1);(-1);(-1);(-1);(-1);(-1);(-1);(-1)];
[(-1);(-1);(-1);(-1);(-1);(-1);(-1);(-1);(-1);(-1);(-1);(-1);(-1);(-1);(-1);(-1)];
[(-1);(-1);(-1);(-1);(-1);(-1);(-1);(-1);(-1);210;174;134;90;(-1);(-1);(-1)];
[(-1);(-1);(-1);(-1);(-1);(-1);(-1);(-1);(-1);(-1);(-1);(-1);(-1);(-1);(-1);(-1)];
[(-1);(-1);(-1);(-1);(-1);(-1);(-1);(-1);(-1);(-1);(-1);(-1);(-1);(-1);(-1);(-1)];
[(-1);(-1);(-1);(-1);(-1);(-1);(-1);(-1);(-1);(-1);(-1);(-1);(-1);(-1);(-1);(-1)];
[(-1);(-1);(-1);(-1);(-1);(-1);(-1);(-1);(-1);(-1);170;130;86;(-1);(-1);(-1)];
[(-1);(-1);(-1);(-1);(-1);(-1);(-1);(-1);(-1);(-1);(-1);(-1);(-1);(-1);(-1);(-1)];
[(-1);(-1);(-1);(-1);(-1);(-1);(-1);(-1);(-1);(-1);(-1);(-1);(-1);(-1);(-1);(-1)];
[(-1);(-1);(-1);(-1);(-1);(-1);(-1);(-1);(-1);(-1);(-1);(-1);(-1);(-1);(-1);(-1)];
[(-1);(-1);(-1);(-1);(-1);(-1);(-1);(-1);(-1);(-1);(-1);126;82;(-1);(-1);(-1)];
[(-1);(-1);(-1);(-1);(-1);(-1);(-1);(-1);(-1);(-1);(-1);(-1);(-1);(-1);(-1);(-1)];
[(-1);(-1);(-1);(-1);(-1);(-1);(-1);(-1);(-1);(-1);(-1);(-1);(-1);(-1);(-1);(-1)];
[(-1);(-1);(-1);(-1);(-1);(-1);(-1);(-1);(-1);(-1);(-1);(-1);(-1);(-1);(-1);(-1)];
[(-1);(-1);(-1);(-1);(-1);(-1);(-1);(-1);(-1);(-1);(-1);(-1);78]]%Z.
(* src/map.rs:1-181 MASK_MAP : [i16; 3837] *)
Definition MASK_MAP : list Z := List.concat (MASK_MAP_0).
Definition CARD_MAP_0 : list (list Z) := [
[72;73;74;386;1317;1320;1323;382;1305;1308;1311;374;1281;1284;1287;362];
[1245;1248;1251;346;1197;1200;1203;326;1137;1140;1143;302;1065;1068;1071;274];
[981;984;987;242;885;888;891;206;777;780;783;166;657;660;663;122];
[525;528;531;75;76;1314;387;1321;1324;1302;383;1309;1312;1278;375;1285];
[1288;1242;363;1249;1252;1194;347;1201;1204;1134;327;1141;1144;1062;303;1069];
[1072;978;275;985;988;882;243;889;892;774;207;781;784;654;167;661];
[664;522;123;529;532;77;1315;1318;388;1325;1303;1306;384;1313;1279;1282];
[376;1289;1243;1246;364;1253;1195;1198;348;1205;1135;1138;328;1145;1063;1066];
[304;1073;979;982;276;989;883;886;244;893;775;778;208;785;655;658];
[168;665;523;526;124;533;1316;1319;1322;389;1304;1307;1310;385;1280;1283];
[1286;377;1244;1247;1250;365;1196;1199;1202;349;1136;1139;1142;329;1064;1067];
[1070;305;980;983;986;277;884;887;890;245;776;779;782;209;656;659];
[662;169;524;527;530;125;66;67;68;378;1293;1296;1299;370;1269;1272];
[1275;358;1233;1236;1239;342;1185;1188;1191;322;1125;1128;1131;298;1053;1056];
[1059;270;969;972;975;238;873;876;879;202;765;768;771;162;645;648];
[651;118;513;516;519;69;70;1290;379;1297;1300;1266;371;1273;1276;1230];
[359;1237;1240;1182;343;1189;1192;1122;323;1129;1132;1050;299;1057;1060;966];
[271;973;976;870;239;877;880;762;203;769;772;642;163;649;652;510];
[119;517;520;71;1291;1294;380;1301;1267;1270;372;1277;1231;1234;360;1241];
[1183;1186;344;1193;1123;1126;324;1133;1051;1054;300;1061;967;970;272;977];
[871;874;240;881;763;766;204;773;643;646;164;653;511;514;120;521];
[1292;1295;1298;381;1268;1271;1274;373;1232;1235;1238;361;1184;1187;1190;345];
[1124;1127;1130;325;1052;1055;1058;301;968;971;974;273;872;875;878;241];
[764;767;770;205;644;647;650;165;512;515;518;121;60;61;62;366];
[1257;1260;1263;354;1221;1224;1227;338;1173;1176;1179;318;1113;1116;1119;294];
[1041;1044;1047;266;957;960;963;234;861;864;867;198;753;756;759;158];
[633;636;639;114;501;504;507;63;64;1254;367;1261;1264;1218;355;1225];
[1228;1170;339;1177;1180;1110;319;1117;1120;1038;295;1045;1048;954;267;961];
[964;858;235;865;868;750;199;757;760;630;159;637;640;498;115;505];
[508;65;1255;1258;368;1265;1219;1222;356;1229;1171;1174;340;1181;1111;1114];
[320;1121;1039;1042;296;1049;955;958;268;965;859;862;236;869;751;754];
[200;761;631;634;160;641;499;502;116;509;1256;1259;1262;369;1220;1223];
[1226;357;1172;1175;1178;341;1112;1115;1118;321;1040;1043;1046;297;956;959];
[962;269;860;863;866;237;752;755;758;201;632;635;638;161;500;503];
[506;117;54;55;56;350;1209;1212;1215;334;1161;1164;1167;314;1101;1104];
[1107;290;1029;1032;1035;262;945;948;951;230;849;852;855;194;741;744];
[747;154;621;624;627;110;489;492;495;57;58;1206;351;1213;1216;1158];
[335;1165;1168;1098;315;1105;1108;1026;291;1033;1036;942;263;949;952;846];
[231;853;856;738;195;745;748;618;155;625;628;486;111;493;496;59];
[1207;1210;352;1217;1159;1162;336;1169;1099;1102;316;1109;1027;1030;292;1037];
[943;946;264;953;847;850;232;857;739;742;196;749;619;622;156;629];
[487;490;112;497;1208;1211;1214;353;1160;1163;1166;337;1100;1103;1106;317];
[1028;1031;1034;293;944;947;950;265;848;851;854;233;740;743;746;197];
[620;623;626;157;488;491;494;113;48;49;50;330;1149;1152;1155;310];
[1089;1092;1095;286;1017;1020;1023;258;933;936;939;226;837;840;843;190];
[729;732;735;150;609;612;615;106;477;480;483;51;52;1146;331;1153];
[1156;1086;311;1093;1096;1014;287;1021;1024;930;259;937;940;834;227;841];
[844;726;191;733;736;606;151;613;616;474;107;481;484;53;1147;1150];
[332;1157;1087;1090;312;1097;1015;1018;288;1025;931;934;260;941;835;838];
[228;845;727;730;192;737;607;610;152;617;475;478;108;485;1148;1151];
[1154;333;1088;1091;1094;313;1016;1019;1022;289;932;935;938;261;836;839];
[842;229;728;731;734;193;608;611;614;153;476;479;482;109;42;43];
[44;306;1077;1080;1083;282;1005;1008;1011;254;921;924;927;222;825;828];
[831;186;717;720;723;146;597;600;603;102;465;468;471;45;46;1074];
[307;1081;1084;1002;283;1009;1012;918;255;925;928;822;223;829;832;714];
[187;721;724;594;147;601;604;462;103;469;472;47;1075;1078;308;1085];
[1003;1006;284;1013;919;922;256;929;823;826;224;833;715;718;188;725];
[595;598;148;605;463;466;104;473;1076;1079;1082;309;1004;1007;1010;285];
[920;923;926;257;824;827;830;225;716;719;722;189;596;599;602;149];
[464;467;470;105;36;37;38;278;993;996;999;250;909;912;915;218];
[813;816;819;182;705;708;711;142;585;588;591;98;453;456;459;39];
[40;990;279;997;1000;906;251;913;916;810;219;817;820;702;183;709];
[712;582;143;589;592;450;99;457;460;41;991;994;280;1001;907;910];
[252;917;811;814;220;821;703;706;184;713;583;586;144;593;451;454];
[100;461;992;995;998;281;908;911;914;253;812;815;818;221;704;707];
[710;185;584;587;590;145;452;455;458;101;30;31;32;246;897;900];
[903;214;801;804;807;178;693;696;699;138;573;576;579;94;441;444];
[447;33;34;894;247;901;904;798;215;805;808;690;179;697;700;570];
[139;577;580;438;95;445;448;35;895;898;248;905;799;802;216;809];
[691;694;180;701;571;574;140;581;439;442;96;449;896;899;902;249];
[800;803;806;217;692;695;698;181;572;575;578;141;440;443;446;97];
[24;25;26;210;789;792;795;174;681;684;687;134;561;564;567;90];
[429;432;435;27;28;786;211;793;796;678;175;685;688;558;135;565];
[568;426;91;433;436;29;787;790;212;797;679;682;176;689;559;562];
[136;569;427;430;92;437;788;791;794;213;680;683;686;177;560;563];
[566;137;428;431;434;93;18;19;20;170;669;672;675;130;549;552];
[555;86;417;420;423;21;22;666;171;673;676;546;131;553;556;414];
[87;421;424;23;667;670;172;677;547;550;132;557;415;418;88;425];
[668;671;674;173;548;551;554;133;416;419;422;89;12;13;14;126];
[537;540;543;82;405;408;411;15;16;534;127;541;544;402;83;409];
[412;17;535;538;128;545;403;406;84;413;536;539;542;129;404;407];
[410;85;6;7;8;78;393;396;399;9;10;390;79;397;400;11];
[391;394;80;401;392;395;398;81;0;1;2;3;4;5]]%Z.
(* src/map.rs:183-258 CARD_MAP : [i16; 1326] *)
Definition CARD_MAP : list Z := List.concat (CARD_MAP_0).
