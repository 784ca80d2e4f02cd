(* Generated by tools/gen_tables.py: a literal transcription, no computation. *)
From Coq Require Import List NArith ZArith String.
Import ListNotations.
Local Open Scope N_scope.
Definition LOOKUP_FLUSH_0 : list (list N) := [
[0;0;0;24577;0;24578;24579;24580;0;24581;24582;24583;24584;24585;24586;24587];
[0;24588;24589;24590;24591;24592;24593;24594;24595;24596;24597;24598;24599;24600;24601;36866];
[0;24602;24603;24604;24605;24606;24607;24608;24609;24610;24611;24612;24613;24614;24615;24616];
[24617;24618;24619;24620;24621;24622;24623;24624;24625;24626;24627;24628;24629;24630;36867;36867];
[0;24631;24632;24633;24634;24635;24636;24637;24638;24639;24640;24641;24642;24643;24644;24645];
[24646;24647;24648;24649;24650;24651;24652;24653;24654;24655;24656;24657;24658;24659;24660;36866];
[24661;24662;24663;24664;24665;24666;24667;24668;24669;24670;24671;24672;24673;24674;24675;24675];
[24676;24677;24678;24679;24680;24681;24682;24682;24683;24684;24685;24685;36868;36868;36868;36868];
[0;24686;24687;24688;24689;24690;24691;24692;24693;24694;24695;24696;24697;24698;24699;24700];
[24701;24702;24703;24704;24705;24706;24707;24708;24709;24710;24711;24712;24713;24714;24715;36866];
[24716;24717;24718;24719;24720;24721;24722;24723;24724;24725;24726;24727;24728;24729;24730;24730];
[24731;24732;24733;24734;24735;24736;24737;24737;24738;24739;24740;24740;24741;24741;36867;36867];
[24742;24743;24744;24745;24746;24747;24748;24749;24750;24751;24752;24753;24754;24755;24756;24756];
[24757;24758;24759;24760;24761;24762;24763;24763;24764;24765;24766;24766;24767;24767;24767;36866];
[24768;24769;24770;24771;24772;24773;24774;24774;24775;24776;24777;24777;24778;24778;24778;24778];
[24779;24780;24781;24781;24782;24782;24782;24782;36869;36869;36869;36869;36869;36869;36869;0];
[0;24783;24784;24785;24786;24787;24788;24789;24790;24791;24792;24793;24794;24795;24796;24797];
[24798;24799;24800;24801;24802;24803;24804;24805;24806;24807;24808;24809;24810;24811;24812;36866];
[24813;24814;24815;24816;24817;24818;24819;24820;24821;24822;24823;24824;24825;24826;24827;24827];
[24828;24829;24830;24831;24832;24833;24834;24834;24835;24836;24837;24837;24838;24838;36867;36867];
[24839;24840;24841;24842;24843;24844;24845;24846;24847;24848;24849;24850;24851;24852;24853;24853];
[24854;24855;24856;24857;24858;24859;24860;24860;24861;24862;24863;24863;24864;24864;24864;36866];
[24865;24866;24867;24868;24869;24870;24871;24871;24872;24873;24874;24874;24875;24875;24875;24875];
[24876;24877;24878;24878;24879;24879;24879;24879;24880;24880;24880;24880;36868;36868;36868;0];
[24881;24882;24883;24884;24885;24886;24887;24888;24889;24890;24891;24892;24893;24894;24895;24895];
[24896;24897;24898;24899;24900;24901;24902;24902;24903;24904;24905;24905;24906;24906;24906;36866];
[24907;24908;24909;24910;24911;24912;24913;24913;24914;24915;24916;24916;24917;24917;24917;24917];
[24918;24919;24920;24920;24921;24921;24921;24921;24922;24922;24922;24922;24922;24922;36867;0];
[24923;24924;24925;24926;24927;24928;24929;24929;24930;24931;24932;24932;24933;24933;24933;24933];
[24934;24935;24936;24936;24937;24937;24937;24937;24938;24938;24938;24938;24938;24938;24938;0];
[24939;24940;24941;24941;24942;24942;24942;24942;24943;24943;24943;24943;24943;24943;24943;0];
[36870;36870;36870;36870;36870;36870;36870;0;36870;36870;36870;0;36870;0;0;0];
[0;24944;24945;24946;24947;24948;24949;24950;24951;24952;24953;24954;24955;24956;24957;24958];
[24959;24960;24961;24962;24963;24964;24965;24966;24967;24968;24969;24970;24971;24972;24973;36866];
[24974;24975;24976;24977;24978;24979;24980;24981;24982;24983;24984;24985;24986;24987;24988;24988];
[24989;24990;24991;24992;24993;24994;24995;24995;24996;24997;24998;24998;24999;24999;36867;36867];
[25000;25001;25002;25003;25004;25005;25006;25007;25008;25009;25010;25011;25012;25013;25014;25014];
[25015;25016;25017;25018;25019;25020;25021;25021;25022;25023;25024;25024;25025;25025;25025;36866];
[25026;25027;25028;25029;25030;25031;25032;25032;25033;25034;25035;25035;25036;25036;25036;25036];
[25037;25038;25039;25039;25040;25040;25040;25040;25041;25041;25041;25041;36868;36868;36868;0];
[25042;25043;25044;25045;25046;25047;25048;25049;25050;25051;25052;25053;25054;25055;25056;25056];
[25057;25058;25059;25060;25061;25062;25063;25063;25064;25065;25066;25066;25067;25067;25067;36866];
[25068;25069;25070;25071;25072;25073;25074;25074;25075;25076;25077;25077;25078;25078;25078;25078];
[25079;25080;25081;25081;25082;25082;25082;25082;25083;25083;25083;25083;25083;25083;36867;0];
[25084;25085;25086;25087;25088;25089;25090;25090;25091;25092;25093;25093;25094;25094;25094;25094];
[25095;25096;25097;25097;25098;25098;25098;25098;25099;25099;25099;25099;25099;25099;25099;0];
[25100;25101;25102;25102;25103;25103;25103;25103;25104;25104;25104;25104;25104;25104;25104;0];
[25105;25105;25105;25105;25105;25105;25105;0;36869;36869;36869;0;36869;0;0;0];
[25106;25107;25108;25109;25110;25111;25112;25113;25114;25115;25116;25117;25118;25119;25120;25120];
[25121;25122;25123;25124;25125;25126;25127;25127;25128;25129;25130;25130;25131;25131;25131;36866];
[25132;25133;25134;25135;25136;25137;25138;25138;25139;25140;25141;25141;25142;25142;25142;25142];
[25143;25144;25145;25145;25146;25146;25146;25146;25147;25147;25147;25147;25147;25147;36867;0];
[25148;25149;25150;25151;25152;25153;25154;25154;25155;25156;25157;25157;25158;25158;25158;25158];
[25159;25160;25161;25161;25162;25162;25162;25162;25163;25163;25163;25163;25163;25163;25163;0];
[25164;25165;25166;25166;25167;25167;25167;25167;25168;25168;25168;25168;25168;25168;25168;0];
[25169;25169;25169;25169;25169;25169;25169;0;25169;25169;25169;0;36868;0;0;0];
[25170;25171;25172;25173;25174;25175;25176;25176;25177;25178;25179;25179;25180;25180;25180;25180];
[25181;25182;25183;25183;25184;25184;25184;25184;25185;25185;25185;25185;25185;25185;25185;0];
[25186;25187;25188;25188;25189;25189;25189;25189;25190;25190;25190;25190;25190;25190;25190;0];
[25191;25191;25191;25191;25191;25191;25191;0;25191;25191;25191;0;25191;0;0;0];
[25192;25193;25194;25194;25195;25195;25195;25195;25196;25196;25196;25196;25196;25196;25196;0];
[25197;25197;25197;25197;25197;25197;25197;0;25197;25197;25197;0;25197;0;0;0];
[36871;36871;36871;36871;36871;36871;36871;0;36871;36871;36871;0;36871;0;0;0];
[36871;36871;36871;0;36871;0;0;0;36871;0;0;0;0;0;0;0];
[0;25198;25199;25200;25201;25202;25203;25204;25205;25206;25207;25208;25209;25210;25211;25212];
[25213;25214;25215;25216;25217;25218;25219;25220;25221;25222;25223;25224;25225;25226;25227;36866];
[25228;25229;25230;25231;25232;25233;25234;25235;25236;25237;25238;25239;25240;25241;25242;25242];
[25243;25244;25245;25246;25247;25248;25249;25249;25250;25251;25252;25252;25253;25253;36867;36867];
[25254;25255;25256;25257;25258;25259;25260;25261;25262;25263;25264;25265;25266;25267;25268;25268];
[25269;25270;25271;25272;25273;25274;25275;25275;25276;25277;25278;25278;25279;25279;25279;36866];
[25280;25281;25282;25283;25284;25285;25286;25286;25287;25288;25289;25289;25290;25290;25290;25290];
[25291;25292;25293;25293;25294;25294;25294;25294;25295;25295;25295;25295;36868;36868;36868;0];
[25296;25297;25298;25299;25300;25301;25302;25303;25304;25305;25306;25307;25308;25309;25310;25310];
[25311;25312;25313;25314;25315;25316;25317;25317;25318;25319;25320;25320;25321;25321;25321;36866];
[25322;25323;25324;25325;25326;25327;25328;25328;25329;25330;25331;25331;25332;25332;25332;25332];
[25333;25334;25335;25335;25336;25336;25336;25336;25337;25337;25337;25337;25337;25337;36867;0];
[25338;25339;25340;25341;25342;25343;25344;25344;25345;25346;25347;25347;25348;25348;25348;25348];
[25349;25350;25351;25351;25352;25352;25352;25352;25353;25353;25353;25353;25353;25353;25353;0];
[25354;25355;25356;25356;25357;25357;25357;25357;25358;25358;25358;25358;25358;25358;25358;0];
[25359;25359;25359;25359;25359;25359;25359;0;36869;36869;36869;0;36869;0;0;0];
[25360;25361;25362;25363;25364;25365;25366;25367;25368;25369;25370;25371;25372;25373;25374;25374];
[25375;25376;25377;25378;25379;25380;25381;25381;25382;25383;25384;25384;25385;25385;25385;36866];
[25386;25387;25388;25389;25390;25391;25392;25392;25393;25394;25395;25395;25396;25396;25396;25396];
[25397;25398;25399;25399;25400;25400;25400;25400;25401;25401;25401;25401;25401;25401;36867;0];
[25402;25403;25404;25405;25406;25407;25408;25408;25409;25410;25411;25411;25412;25412;25412;25412];
[25413;25414;25415;25415;25416;25416;25416;25416;25417;25417;25417;25417;25417;25417;25417;0];
[25418;25419;25420;25420;25421;25421;25421;25421;25422;25422;25422;25422;25422;25422;25422;0];
[25423;25423;25423;25423;25423;25423;25423;0;25423;25423;25423;0;36868;0;0;0];
[25424;25425;25426;25427;25428;25429;25430;25430;25431;25432;25433;25433;25434;25434;25434;25434];
[25435;25436;25437;25437;25438;25438;25438;25438;25439;25439;25439;25439;25439;25439;25439;0];
[25440;25441;25442;25442;25443;25443;25443;25443;25444;25444;25444;25444;25444;25444;25444;0];
[25445;25445;25445;25445;25445;25445;25445;0;25445;25445;25445;0;25445;0;0;0];
[25446;25447;25448;25448;25449;25449;25449;25449;25450;25450;25450;25450;25450;25450;25450;0];
[25451;25451;25451;25451;25451;25451;25451;0;25451;25451;25451;0;25451;0;0;0];
[25452;25452;25452;25452;25452;25452;25452;0;25452;25452;25452;0;25452;0;0;0];
[36870;36870;36870;0;36870;0;0;0;36870;0;0;0;0;0;0;0];
[25453;25454;25455;25456;25457;25458;25459;25460;25461;25462;25463;25464;25465;25466;25467;25467];
[25468;25469;25470;25471;25472;25473;25474;25474;25475;25476;25477;25477;25478;25478;25478;36866];
[25479;25480;25481;25482;25483;25484;25485;25485;25486;25487;25488;25488;25489;25489;25489;25489];
[25490;25491;25492;25492;25493;25493;25493;25493;25494;25494;25494;25494;25494;25494;36867;0];
[25495;25496;25497;25498;25499;25500;25501;25501;25502;25503;25504;25504;25505;25505;25505;25505];
[25506;25507;25508;25508;25509;25509;25509;25509;25510;25510;25510;25510;25510;25510;25510;0];
[25511;25512;25513;25513;25514;25514;25514;25514;25515;25515;25515;25515;25515;25515;25515;0];
[25516;25516;25516;25516;25516;25516;25516;0;25516;25516;25516;0;36868;0;0;0];
[25517;25518;25519;25520;25521;25522;25523;25523;25524;25525;25526;25526;25527;25527;25527;25527];
[25528;25529;25530;25530;25531;25531;25531;25531;25532;25532;25532;25532;25532;25532;25532;0];
[25533;25534;25535;25535;25536;25536;25536;25536;25537;25537;25537;25537;25537;25537;25537;0];
[25538;25538;25538;25538;25538;25538;25538;0;25538;25538;25538;0;25538;0;0;0];
[25539;25540;25541;25541;25542;25542;25542;25542;25543;25543;25543;25543;25543;25543;25543;0];
[25544;25544;25544;25544;25544;25544;25544;0;25544;25544;25544;0;25544;0;0;0];
[25545;25545;25545;25545;25545;25545;25545;0;25545;25545;25545;0;25545;0;0;0];
[25545;25545;25545;0;25545;0;0;0;36869;0;0;0;0;0;0;0];
[25546;25547;25548;25549;25550;25551;25552;25552;25553;25554;25555;25555;25556;25556;25556;25556];
[25557;25558;25559;25559;25560;25560;25560;25560;25561;25561;25561;25561;25561;25561;25561;0];
[25562;25563;25564;25564;25565;25565;25565;25565;25566;25566;25566;25566;25566;25566;25566;0];
[25567;25567;25567;25567;25567;25567;25567;0;25567;25567;25567;0;25567;0;0;0];
[25568;25569;25570;25570;25571;25571;25571;25571;25572;25572;25572;25572;25572;25572;25572;0];
[25573;25573;25573;25573;25573;25573;25573;0;25573;25573;25573;0;25573;0;0;0];
[25574;25574;25574;25574;25574;25574;25574;0;25574;25574;25574;0;25574;0;0;0];
[25574;25574;25574;0;25574;0;0;0;25574;0;0;0;0;0;0;0];
[25575;25576;25577;25577;25578;25578;25578;25578;25579;25579;25579;25579;25579;25579;25579;0];
[25580;25580;25580;25580;25580;25580;25580;0;25580;25580;25580;0;25580;0;0;0];
[25581;25581;25581;25581;25581;25581;25581;0;25581;25581;25581;0;25581;0;0;0];
[25581;25581;25581;0;25581;0;0;0;25581;0;0;0;0;0;0;0];
[36872;36872;36872;36872;36872;36872;36872;0;36872;36872;36872;0;36872;0;0;0];
[36872;36872;36872;0;36872;0;0;0;36872;0;0;0;0;0;0;0];
[36872;36872;36872;0;36872;0;0;0;36872;0;0;0;0;0;0;0];
[36872;0;0;0;0;0;0;0;0;0;0;0;0;0;0;0];
[0;25582;25583;25584;25585;25586;25587;25588;25589;25590;25591;25592;25593;25594;25595;25596];
[25597;25598;25599;25600;25601;25602;25603;25604;25605;25606;25607;25608;25609;25610;25611;36866];
[25612;25613;25614;25615;25616;25617;25618;25619;25620;25621;25622;25623;25624;25625;25626;25626];
[25627;25628;25629;25630;25631;25632;25633;25633;25634;25635;25636;25636;25637;25637;36867;36867];
[25638;25639;25640;25641;25642;25643;25644;25645;25646;25647;25648;25649;25650;25651;25652;25652];
[25653;25654;25655;25656;25657;25658;25659;25659;25660;25661;25662;25662;25663;25663;25663;36866];
[25664;25665;25666;25667;25668;25669;25670;25670;25671;25672;25673;25673;25674;25674;25674;25674];
[25675;25676;25677;25677;25678;25678;25678;25678;25679;25679;25679;25679;36868;36868;36868;0];
[25680;25681;25682;25683;25684;25685;25686;25687;25688;25689;25690;25691;25692;25693;25694;25694];
[25695;25696;25697;25698;25699;25700;25701;25701;25702;25703;25704;25704;25705;25705;25705;36866];
[25706;25707;25708;25709;25710;25711;25712;25712;25713;25714;25715;25715;25716;25716;25716;25716];
[25717;25718;25719;25719;25720;25720;25720;25720;25721;25721;25721;25721;25721;25721;36867;0];
[25722;25723;25724;25725;25726;25727;25728;25728;25729;25730;25731;25731;25732;25732;25732;25732];
[25733;25734;25735;25735;25736;25736;25736;25736;25737;25737;25737;25737;25737;25737;25737;0];
[25738;25739;25740;25740;25741;25741;25741;25741;25742;25742;25742;25742;25742;25742;25742;0];
[25743;25743;25743;25743;25743;25743;25743;0;36869;36869;36869;0;36869;0;0;0];
[25744;25745;25746;25747;25748;25749;25750;25751;25752;25753;25754;25755;25756;25757;25758;25758];
[25759;25760;25761;25762;25763;25764;25765;25765;25766;25767;25768;25768;25769;25769;25769;36866];
[25770;25771;25772;25773;25774;25775;25776;25776;25777;25778;25779;25779;25780;25780;25780;25780];
[25781;25782;25783;25783;25784;25784;25784;25784;25785;25785;25785;25785;25785;25785;36867;0];
[25786;25787;25788;25789;25790;25791;25792;25792;25793;25794;25795;25795;25796;25796;25796;25796];
[25797;25798;25799;25799;25800;25800;25800;25800;25801;25801;25801;25801;25801;25801;25801;0];
[25802;25803;25804;25804;25805;25805;25805;25805;25806;25806;25806;25806;25806;25806;25806;0];
[25807;25807;25807;25807;25807;25807;25807;0;25807;25807;25807;0;36868;0;0;0];
[25808;25809;25810;25811;25812;25813;25814;25814;25815;25816;25817;25817;25818;25818;25818;25818];
[25819;25820;25821;25821;25822;25822;25822;25822;25823;25823;25823;25823;25823;25823;25823;0];
[25824;25825;25826;25826;25827;25827;25827;25827;25828;25828;25828;25828;25828;25828;25828;0];
[25829;25829;25829;25829;25829;25829;25829;0;25829;25829;25829;0;25829;0;0;0];
[25830;25831;25832;25832;25833;25833;25833;25833;25834;25834;25834;25834;25834;25834;25834;0];
[25835;25835;25835;25835;25835;25835;25835;0;25835;25835;25835;0;25835;0;0;0];
[25836;25836;25836;25836;25836;25836;25836;0;25836;25836;25836;0;25836;0;0;0];
[36870;36870;36870;0;36870;0;0;0;36870;0;0;0;0;0;0;0];
[25837;25838;25839;25840;25841;25842;25843;25844;25845;25846;25847;25848;25849;25850;25851;25851];
[25852;25853;25854;25855;25856;25857;25858;25858;25859;25860;25861;25861;25862;25862;25862;36866];
[25863;25864;25865;25866;25867;25868;25869;25869;25870;25871;25872;25872;25873;25873;25873;25873];
[25874;25875;25876;25876;25877;25877;25877;25877;25878;25878;25878;25878;25878;25878;36867;0];
[25879;25880;25881;25882;25883;25884;25885;25885;25886;25887;25888;25888;25889;25889;25889;25889];
[25890;25891;25892;25892;25893;25893;25893;25893;25894;25894;25894;25894;25894;25894;25894;0];
[25895;25896;25897;25897;25898;25898;25898;25898;25899;25899;25899;25899;25899;25899;25899;0];
[25900;25900;25900;25900;25900;25900;25900;0;25900;25900;25900;0;36868;0;0;0];
[25901;25902;25903;25904;25905;25906;25907;25907;25908;25909;25910;25910;25911;25911;25911;25911];
[25912;25913;25914;25914;25915;25915;25915;25915;25916;25916;25916;25916;25916;25916;25916;0];
[25917;25918;25919;25919;25920;25920;25920;25920;25921;25921;25921;25921;25921;25921;25921;0];
[25922;25922;25922;25922;25922;25922;25922;0;25922;25922;25922;0;25922;0;0;0];
[25923;25924;25925;25925;25926;25926;25926;25926;25927;25927;25927;25927;25927;25927;25927;0];
[25928;25928;25928;25928;25928;25928;25928;0;25928;25928;25928;0;25928;0;0;0];
[25929;25929;25929;25929;25929;25929;25929;0;25929;25929;25929;0;25929;0;0;0];
[25929;25929;25929;0;25929;0;0;0;36869;0;0;0;0;0;0;0];
[25930;25931;25932;25933;25934;25935;25936;25936;25937;25938;25939;25939;25940;25940;25940;25940];
[25941;25942;25943;25943;25944;25944;25944;25944;25945;25945;25945;25945;25945;25945;25945;0];
[25946;25947;25948;25948;25949;25949;25949;25949;25950;25950;25950;25950;25950;25950;25950;0];
[25951;25951;25951;25951;25951;25951;25951;0;25951;25951;25951;0;25951;0;0;0];
[25952;25953;25954;25954;25955;25955;25955;25955;25956;25956;25956;25956;25956;25956;25956;0];
[25957;25957;25957;25957;25957;25957;25957;0;25957;25957;25957;0;25957;0;0;0];
[25958;25958;25958;25958;25958;25958;25958;0;25958;25958;25958;0;25958;0;0;0];
[25958;25958;25958;0;25958;0;0;0;25958;0;0;0;0;0;0;0];
[25959;25960;25961;25961;25962;25962;25962;25962;25963;25963;25963;25963;25963;25963;25963;0];
[25964;25964;25964;25964;25964;25964;25964;0;25964;25964;25964;0;25964;0;0;0];
[25965;25965;25965;25965;25965;25965;25965;0;25965;25965;25965;0;25965;0;0;0];
[25965;25965;25965;0;25965;0;0;0;25965;0;0;0;0;0;0;0];
[25966;25966;25966;25966;25966;25966;25966;0;25966;25966;25966;0;25966;0;0;0];
[25966;25966;25966;0;25966;0;0;0;25966;0;0;0;0;0;0;0];
[36871;36871;36871;0;36871;0;0;0;36871;0;0;0;0;0;0;0];
[36871;0;0;0;0;0;0;0;0;0;0;0;0;0;0;0];
[25967;25968;25969;25970;25971;25972;25973;25974;25975;25976;25977;25978;25979;25980;25981;25981];
[25982;25983;25984;25985;25986;25987;25988;25988;25989;25990;25991;25991;25992;25992;25992;36866];
[25993;25994;25995;25996;25997;25998;25999;25999;26000;26001;26002;26002;26003;26003;26003;26003];
[26004;26005;26006;26006;26007;26007;26007;26007;26008;26008;26008;26008;26008;26008;36867;0];
[26009;26010;26011;26012;26013;26014;26015;26015;26016;26017;26018;26018;26019;26019;26019;26019];
[26020;26021;26022;26022;26023;26023;26023;26023;26024;26024;26024;26024;26024;26024;26024;0];
[26025;26026;26027;26027;26028;26028;26028;26028;26029;26029;26029;26029;26029;26029;26029;0];
[26030;26030;26030;26030;26030;26030;26030;0;26030;26030;26030;0;36868;0;0;0];
[26031;26032;26033;26034;26035;26036;26037;26037;26038;26039;26040;26040;26041;26041;26041;26041];
[26042;26043;26044;26044;26045;26045;26045;26045;26046;26046;26046;26046;26046;26046;26046;0];
[26047;26048;26049;26049;26050;26050;26050;26050;26051;26051;26051;26051;26051;26051;26051;0];
[26052;26052;26052;26052;26052;26052;26052;0;26052;26052;26052;0;26052;0;0;0];
[26053;26054;26055;26055;26056;26056;26056;26056;26057;26057;26057;26057;26057;26057;26057;0];
[26058;26058;26058;26058;26058;26058;26058;0;26058;26058;26058;0;26058;0;0;0];
[26059;26059;26059;26059;26059;26059;26059;0;26059;26059;26059;0;26059;0;0;0];
[26059;26059;26059;0;26059;0;0;0;36869;0;0;0;0;0;0;0];
[26060;26061;26062;26063;26064;26065;26066;26066;26067;26068;26069;26069;26070;26070;26070;26070];
[26071;26072;26073;26073;26074;26074;26074;26074;26075;26075;26075;26075;26075;26075;26075;0];
[26076;26077;26078;26078;26079;26079;26079;26079;26080;26080;26080;26080;26080;26080;26080;0];
[26081;26081;26081;26081;26081;26081;26081;0;26081;26081;26081;0;26081;0;0;0];
[26082;26083;26084;26084;26085;26085;26085;26085;26086;26086;26086;26086;26086;26086;26086;0];
[26087;26087;26087;26087;26087;26087;26087;0;26087;26087;26087;0;26087;0;0;0];
[26088;26088;26088;26088;26088;26088;26088;0;26088;26088;26088;0;26088;0;0;0];
[26088;26088;26088;0;26088;0;0;0;26088;0;0;0;0;0;0;0];
[26089;26090;26091;26091;26092;26092;26092;26092;26093;26093;26093;26093;26093;26093;26093;0];
[26094;26094;26094;26094;26094;26094;26094;0;26094;26094;26094;0;26094;0;0;0];
[26095;26095;26095;26095;26095;26095;26095;0;26095;26095;26095;0;26095;0;0;0];
[26095;26095;26095;0;26095;0;0;0;26095;0;0;0;0;0;0;0];
[26096;26096;26096;26096;26096;26096;26096;0;26096;26096;26096;0;26096;0;0;0];
[26096;26096;26096;0;26096;0;0;0;26096;0;0;0;0;0;0;0];
[26096;26096;26096;0;26096;0;0;0;26096;0;0;0;0;0;0;0];
[36870;0;0;0;0;0;0;0;0;0;0;0;0;0;0;0];
[26097;26098;26099;26100;26101;26102;26103;26103;26104;26105;26106;26106;26107;26107;26107;26107];
[26108;26109;26110;26110;26111;26111;26111;26111;26112;26112;26112;26112;26112;26112;26112;0];
[26113;26114;26115;26115;26116;26116;26116;26116;26117;26117;26117;26117;26117;26117;26117;0];
[26118;26118;26118;26118;26118;26118;26118;0;26118;26118;26118;0;26118;0;0;0];
[26119;26120;26121;26121;26122;26122;26122;26122;26123;26123;26123;26123;26123;26123;26123;0];
[26124;26124;26124;26124;26124;26124;26124;0;26124;26124;26124;0;26124;0;0;0];
[26125;26125;26125;26125;26125;26125;26125;0;26125;26125;26125;0;26125;0;0;0];
[26125;26125;26125;0;26125;0;0;0;26125;0;0;0;0;0;0;0];
[26126;26127;26128;26128;26129;26129;26129;26129;26130;26130;26130;26130;26130;26130;26130;0];
[26131;26131;26131;26131;26131;26131;26131;0;26131;26131;26131;0;26131;0;0;0];
[26132;26132;26132;26132;26132;26132;26132;0;26132;26132;26132;0;26132;0;0;0];
[26132;26132;26132;0;26132;0;0;0;26132;0;0;0;0;0;0;0];
[26133;26133;26133;26133;26133;26133;26133;0;26133;26133;26133;0;26133;0;0;0];
[26133;26133;26133;0;26133;0;0;0;26133;0;0;0;0;0;0;0];
[26133;26133;26133;0;26133;0;0;0;26133;0;0;0;0;0;0;0];
[26133;0;0;0;0;0;0;0;0;0;0;0;0;0;0;0];
[26134;26135;26136;26136;26137;26137;26137;26137;26138;26138;26138;26138;26138;26138;26138;0];
[26139;26139;26139;26139;26139;26139;26139;0;26139;26139;26139;0;26139;0;0;0];
[26140;26140;26140;26140;26140;26140;26140;0;26140;26140;26140;0;26140;0;0;0];
[26140;26140;26140;0;26140;0;0;0;26140;0;0;0;0;0;0;0];
[26141;26141;26141;26141;26141;26141;26141;0;26141;26141;26141;0;26141;0;0;0];
[26141;26141;26141;0;26141;0;0;0;26141;0;0;0;0;0;0;0];
[26141;26141;26141;0;26141;0;0;0;26141;0;0;0;0;0;0;0];
[26141;0;0;0;0;0;0;0;0;0;0;0;0;0;0;0];
[36873;36873;36873;36873;36873;36873;36873;0;36873;36873;36873;0;36873;0;0;0];
[36873;36873;36873;0;36873;0;0;0;36873;0;0;0;0;0;0;0];
[36873;36873;36873;0;36873;0;0;0;36873;0;0;0;0;0;0;0];
[36873;0;0;0;0;0;0;0;0;0;0;0;0;0;0;0];
[36873;36873;36873;0;36873;0;0;0;36873;0;0;0;0;0;0;0];
[36873;0;0;0;0;0;0;0;0;0;0;0;0;0;0;0];
[36873;0;0;0;0;0;0;0;0;0;0;0;0;0;0;0];
[0;0;0;0;0;0;0;0;0;0;0;0;0;0;0;0]]%N.
Definition LOOKUP_FLUSH_1 : list (list N) := [
[0;26142;26143;26144;26145;26146;26147;26148;26149;26150;26151;26152;26153;26154;26155;36865];
[26156;26157;26158;26159;26160;26161;26162;26163;26164;26165;26166;26167;26168;26169;26170;36866];
[26171;26172;26173;26174;26175;26176;26177;26178;26179;26180;26181;26182;26183;26184;26185;36865];
[26186;26187;26188;26189;26190;26191;26192;26192;26193;26194;26195;26195;26196;26196;36867;36867];
[26197;26198;26199;26200;26201;26202;26203;26204;26205;26206;26207;26208;26209;26210;26211;36865];
[26212;26213;26214;26215;26216;26217;26218;26218;26219;26220;26221;26221;26222;26222;26222;36866];
[26223;26224;26225;26226;26227;26228;26229;26229;26230;26231;26232;26232;26233;26233;26233;36865];
[26234;26235;26236;26236;26237;26237;26237;26237;26238;26238;26238;26238;36868;36868;36868;0];
[26239;26240;26241;26242;26243;26244;26245;26246;26247;26248;26249;26250;26251;26252;26253;36865];
[26254;26255;26256;26257;26258;26259;26260;26260;26261;26262;26263;26263;26264;26264;26264;36866];
[26265;26266;26267;26268;26269;26270;26271;26271;26272;26273;26274;26274;26275;26275;26275;36865];
[26276;26277;26278;26278;26279;26279;26279;26279;26280;26280;26280;26280;26280;26280;36867;0];
[26281;26282;26283;26284;26285;26286;26287;26287;26288;26289;26290;26290;26291;26291;26291;36865];
[26292;26293;26294;26294;26295;26295;26295;26295;26296;26296;26296;26296;26296;26296;26296;0];
[26297;26298;26299;26299;26300;26300;26300;26300;26301;26301;26301;26301;26301;26301;26301;0];
[26302;26302;26302;26302;26302;26302;26302;0;36869;36869;36869;0;36869;0;0;0];
[26303;26304;26305;26306;26307;26308;26309;26310;26311;26312;26313;26314;26315;26316;26317;36865];
[26318;26319;26320;26321;26322;26323;26324;26324;26325;26326;26327;26327;26328;26328;26328;36866];
[26329;26330;26331;26332;26333;26334;26335;26335;26336;26337;26338;26338;26339;26339;26339;36865];
[26340;26341;26342;26342;26343;26343;26343;26343;26344;26344;26344;26344;26344;26344;36867;0];
[26345;26346;26347;26348;26349;26350;26351;26351;26352;26353;26354;26354;26355;26355;26355;36865];
[26356;26357;26358;26358;26359;26359;26359;26359;26360;26360;26360;26360;26360;26360;26360;0];
[26361;26362;26363;26363;26364;26364;26364;26364;26365;26365;26365;26365;26365;26365;26365;0];
[26366;26366;26366;26366;26366;26366;26366;0;26366;26366;26366;0;36868;0;0;0];
[26367;26368;26369;26370;26371;26372;26373;26373;26374;26375;26376;26376;26377;26377;26377;36865];
[26378;26379;26380;26380;26381;26381;26381;26381;26382;26382;26382;26382;26382;26382;26382;0];
[26383;26384;26385;26385;26386;26386;26386;26386;26387;26387;26387;26387;26387;26387;26387;0];
[26388;26388;26388;26388;26388;26388;26388;0;26388;26388;26388;0;26388;0;0;0];
[26389;26390;26391;26391;26392;26392;26392;26392;26393;26393;26393;26393;26393;26393;26393;0];
[26394;26394;26394;26394;26394;26394;26394;0;26394;26394;26394;0;26394;0;0;0];
[26395;26395;26395;26395;26395;26395;26395;0;26395;26395;26395;0;26395;0;0;0];
[36870;36870;36870;0;36870;0;0;0;36870;0;0;0;0;0;0;0];
[26396;26397;26398;26399;26400;26401;26402;26403;26404;26405;26406;26407;26408;26409;26410;36865];
[26411;26412;26413;26414;26415;26416;26417;26417;26418;26419;26420;26420;26421;26421;26421;36866];
[26422;26423;26424;26425;26426;26427;26428;26428;26429;26430;26431;26431;26432;26432;26432;36865];
[26433;26434;26435;26435;26436;26436;26436;26436;26437;26437;26437;26437;26437;26437;36867;0];
[26438;26439;26440;26441;26442;26443;26444;26444;26445;26446;26447;26447;26448;26448;26448;36865];
[26449;26450;26451;26451;26452;26452;26452;26452;26453;26453;26453;26453;26453;26453;26453;0];
[26454;26455;26456;26456;26457;26457;26457;26457;26458;26458;26458;26458;26458;26458;26458;0];
[26459;26459;26459;26459;26459;26459;26459;0;26459;26459;26459;0;36868;0;0;0];
[26460;26461;26462;26463;26464;26465;26466;26466;26467;26468;26469;26469;26470;26470;26470;36865];
[26471;26472;26473;26473;26474;26474;26474;26474;26475;26475;26475;26475;26475;26475;26475;0];
[26476;26477;26478;26478;26479;26479;26479;26479;26480;26480;26480;26480;26480;26480;26480;0];
[26481;26481;26481;26481;26481;26481;26481;0;26481;26481;26481;0;26481;0;0;0];
[26482;26483;26484;26484;26485;26485;26485;26485;26486;26486;26486;26486;26486;26486;26486;0];
[26487;26487;26487;26487;26487;26487;26487;0;26487;26487;26487;0;26487;0;0;0];
[26488;26488;26488;26488;26488;26488;26488;0;26488;26488;26488;0;26488;0;0;0];
[26488;26488;26488;0;26488;0;0;0;36869;0;0;0;0;0;0;0];
[26489;26490;26491;26492;26493;26494;26495;26495;26496;26497;26498;26498;26499;26499;26499;36865];
[26500;26501;26502;26502;26503;26503;26503;26503;26504;26504;26504;26504;26504;26504;26504;0];
[26505;26506;26507;26507;26508;26508;26508;26508;26509;26509;26509;26509;26509;26509;26509;0];
[26510;26510;26510;26510;26510;26510;26510;0;26510;26510;26510;0;26510;0;0;0];
[26511;26512;26513;26513;26514;26514;26514;26514;26515;26515;26515;26515;26515;26515;26515;0];
[26516;26516;26516;26516;26516;26516;26516;0;26516;26516;26516;0;26516;0;0;0];
[26517;26517;26517;26517;26517;26517;26517;0;26517;26517;26517;0;26517;0;0;0];
[26517;26517;26517;0;26517;0;0;0;26517;0;0;0;0;0;0;0];
[26518;26519;26520;26520;26521;26521;26521;26521;26522;26522;26522;26522;26522;26522;26522;0];
[26523;26523;26523;26523;26523;26523;26523;0;26523;26523;26523;0;26523;0;0;0];
[26524;26524;26524;26524;26524;26524;26524;0;26524;26524;26524;0;26524;0;0;0];
[26524;26524;26524;0;26524;0;0;0;26524;0;0;0;0;0;0;0];
[26525;26525;26525;26525;26525;26525;26525;0;26525;26525;26525;0;26525;0;0;0];
[26525;26525;26525;0;26525;0;0;0;26525;0;0;0;0;0;0;0];
[36871;36871;36871;0;36871;0;0;0;36871;0;0;0;0;0;0;0];
[36871;0;0;0;0;0;0;0;0;0;0;0;0;0;0;0];
[26526;26527;26528;26529;26530;26531;26532;26533;26534;26535;26536;26537;26538;26539;26540;36865];
[26541;26542;26543;26544;26545;26546;26547;26547;26548;26549;26550;26550;26551;26551;26551;36866];
[26552;26553;26554;26555;26556;26557;26558;26558;26559;26560;26561;26561;26562;26562;26562;36865];
[26563;26564;26565;26565;26566;26566;26566;26566;26567;26567;26567;26567;26567;26567;36867;0];
[26568;26569;26570;26571;26572;26573;26574;26574;26575;26576;26577;26577;26578;26578;26578;36865];
[26579;26580;26581;26581;26582;26582;26582;26582;26583;26583;26583;26583;26583;26583;26583;0];
[26584;26585;26586;26586;26587;26587;26587;26587;26588;26588;26588;26588;26588;26588;26588;0];
[26589;26589;26589;26589;26589;26589;26589;0;26589;26589;26589;0;36868;0;0;0];
[26590;26591;26592;26593;26594;26595;26596;26596;26597;26598;26599;26599;26600;26600;26600;36865];
[26601;26602;26603;26603;26604;26604;26604;26604;26605;26605;26605;26605;26605;26605;26605;0];
[26606;26607;26608;26608;26609;26609;26609;26609;26610;26610;26610;26610;26610;26610;26610;0];
[26611;26611;26611;26611;26611;26611;26611;0;26611;26611;26611;0;26611;0;0;0];
[26612;26613;26614;26614;26615;26615;26615;26615;26616;26616;26616;26616;26616;26616;26616;0];
[26617;26617;26617;26617;26617;26617;26617;0;26617;26617;26617;0;26617;0;0;0];
[26618;26618;26618;26618;26618;26618;26618;0;26618;26618;26618;0;26618;0;0;0];
[26618;26618;26618;0;26618;0;0;0;36869;0;0;0;0;0;0;0];
[26619;26620;26621;26622;26623;26624;26625;26625;26626;26627;26628;26628;26629;26629;26629;36865];
[26630;26631;26632;26632;26633;26633;26633;26633;26634;26634;26634;26634;26634;26634;26634;0];
[26635;26636;26637;26637;26638;26638;26638;26638;26639;26639;26639;26639;26639;26639;26639;0];
[26640;26640;26640;26640;26640;26640;26640;0;26640;26640;26640;0;26640;0;0;0];
[26641;26642;26643;26643;26644;26644;26644;26644;26645;26645;26645;26645;26645;26645;26645;0];
[26646;26646;26646;26646;26646;26646;26646;0;26646;26646;26646;0;26646;0;0;0];
[26647;26647;26647;26647;26647;26647;26647;0;26647;26647;26647;0;26647;0;0;0];
[26647;26647;26647;0;26647;0;0;0;26647;0;0;0;0;0;0;0];
[26648;26649;26650;26650;26651;26651;26651;26651;26652;26652;26652;26652;26652;26652;26652;0];
[26653;26653;26653;26653;26653;26653;26653;0;26653;26653;26653;0;26653;0;0;0];
[26654;26654;26654;26654;26654;26654;26654;0;26654;26654;26654;0;26654;0;0;0];
[26654;26654;26654;0;26654;0;0;0;26654;0;0;0;0;0;0;0];
[26655;26655;26655;26655;26655;26655;26655;0;26655;26655;26655;0;26655;0;0;0];
[26655;26655;26655;0;26655;0;0;0;26655;0;0;0;0;0;0;0];
[26655;26655;26655;0;26655;0;0;0;26655;0;0;0;0;0;0;0];
[36870;0;0;0;0;0;0;0;0;0;0;0;0;0;0;0];
[26656;26657;26658;26659;26660;26661;26662;26662;26663;26664;26665;26665;26666;26666;26666;36865];
[26667;26668;26669;26669;26670;26670;26670;26670;26671;26671;26671;26671;26671;26671;26671;0];
[26672;26673;26674;26674;26675;26675;26675;26675;26676;26676;26676;26676;26676;26676;26676;0];
[26677;26677;26677;26677;26677;26677;26677;0;26677;26677;26677;0;26677;0;0;0];
[26678;26679;26680;26680;26681;26681;26681;26681;26682;26682;26682;26682;26682;26682;26682;0];
[26683;26683;26683;26683;26683;26683;26683;0;26683;26683;26683;0;26683;0;0;0];
[26684;26684;26684;26684;26684;26684;26684;0;26684;26684;26684;0;26684;0;0;0];
[26684;26684;26684;0;26684;0;0;0;26684;0;0;0;0;0;0;0];
[26685;26686;26687;26687;26688;26688;26688;26688;26689;26689;26689;26689;26689;26689;26689;0];
[26690;26690;26690;26690;26690;26690;26690;0;26690;26690;26690;0;26690;0;0;0];
[26691;26691;26691;26691;26691;26691;26691;0;26691;26691;26691;0;26691;0;0;0];
[26691;26691;26691;0;26691;0;0;0;26691;0;0;0;0;0;0;0];
[26692;26692;26692;26692;26692;26692;26692;0;26692;26692;26692;0;26692;0;0;0];
[26692;26692;26692;0;26692;0;0;0;26692;0;0;0;0;0;0;0];
[26692;26692;26692;0;26692;0;0;0;26692;0;0;0;0;0;0;0];
[26692;0;0;0;0;0;0;0;0;0;0;0;0;0;0;0];
[26693;26694;26695;26695;26696;26696;26696;26696;26697;26697;26697;26697;26697;26697;26697;0];
[26698;26698;26698;26698;26698;26698;26698;0;26698;26698;26698;0;26698;0;0;0];
[26699;26699;26699;26699;26699;26699;26699;0;26699;26699;26699;0;26699;0;0;0];
[26699;26699;26699;0;26699;0;0;0;26699;0;0;0;0;0;0;0];
[26700;26700;26700;26700;26700;26700;26700;0;26700;26700;26700;0;26700;0;0;0];
[26700;26700;26700;0;26700;0;0;0;26700;0;0;0;0;0;0;0];
[26700;26700;26700;0;26700;0;0;0;26700;0;0;0;0;0;0;0];
[26700;0;0;0;0;0;0;0;0;0;0;0;0;0;0;0];
[26701;26701;26701;26701;26701;26701;26701;0;26701;26701;26701;0;26701;0;0;0];
[26701;26701;26701;0;26701;0;0;0;26701;0;0;0;0;0;0;0];
[26701;26701;26701;0;26701;0;0;0;26701;0;0;0;0;0;0;0];
[26701;0;0;0;0;0;0;0;0;0;0;0;0;0;0;0];
[36872;36872;36872;0;36872;0;0;0;36872;0;0;0;0;0;0;0];
[36872;0;0;0;0;0;0;0;0;0;0;0;0;0;0;0];
[36872;0;0;0;0;0;0;0;0;0;0;0;0;0;0;0];
[0;0;0;0;0;0;0;0;0;0;0;0;0;0;0;0];
[26702;26703;26704;26705;26706;26707;26708;26709;26710;26711;26712;26713;26714;26715;26716;36865];
[26717;26718;26719;26720;26721;26722;26723;26723;26724;26725;26726;26726;26727;26727;26727;36866];
[26728;26729;26730;26731;26732;26733;26734;26734;26735;26736;26737;26737;26738;26738;26738;36865];
[26739;26740;26741;26741;26742;26742;26742;26742;26743;26743;26743;26743;26743;26743;36867;0];
[26744;26745;26746;26747;26748;26749;26750;26750;26751;26752;26753;26753;26754;26754;26754;36865];
[26755;26756;26757;26757;26758;26758;26758;26758;26759;26759;26759;26759;26759;26759;26759;0];
[26760;26761;26762;26762;26763;26763;26763;26763;26764;26764;26764;26764;26764;26764;26764;0];
[26765;26765;26765;26765;26765;26765;26765;0;26765;26765;26765;0;36868;0;0;0];
[26766;26767;26768;26769;26770;26771;26772;26772;26773;26774;26775;26775;26776;26776;26776;36865];
[26777;26778;26779;26779;26780;26780;26780;26780;26781;26781;26781;26781;26781;26781;26781;0];
[26782;26783;26784;26784;26785;26785;26785;26785;26786;26786;26786;26786;26786;26786;26786;0];
[26787;26787;26787;26787;26787;26787;26787;0;26787;26787;26787;0;26787;0;0;0];
[26788;26789;26790;26790;26791;26791;26791;26791;26792;26792;26792;26792;26792;26792;26792;0];
[26793;26793;26793;26793;26793;26793;26793;0;26793;26793;26793;0;26793;0;0;0];
[26794;26794;26794;26794;26794;26794;26794;0;26794;26794;26794;0;26794;0;0;0];
[26794;26794;26794;0;26794;0;0;0;36869;0;0;0;0;0;0;0];
[26795;26796;26797;26798;26799;26800;26801;26801;26802;26803;26804;26804;26805;26805;26805;36865];
[26806;26807;26808;26808;26809;26809;26809;26809;26810;26810;26810;26810;26810;26810;26810;0];
[26811;26812;26813;26813;26814;26814;26814;26814;26815;26815;26815;26815;26815;26815;26815;0];
[26816;26816;26816;26816;26816;26816;26816;0;26816;26816;26816;0;26816;0;0;0];
[26817;26818;26819;26819;26820;26820;26820;26820;26821;26821;26821;26821;26821;26821;26821;0];
[26822;26822;26822;26822;26822;26822;26822;0;26822;26822;26822;0;26822;0;0;0];
[26823;26823;26823;26823;26823;26823;26823;0;26823;26823;26823;0;26823;0;0;0];
[26823;26823;26823;0;26823;0;0;0;26823;0;0;0;0;0;0;0];
[26824;26825;26826;26826;26827;26827;26827;26827;26828;26828;26828;26828;26828;26828;26828;0];
[26829;26829;26829;26829;26829;26829;26829;0;26829;26829;26829;0;26829;0;0;0];
[26830;26830;26830;26830;26830;26830;26830;0;26830;26830;26830;0;26830;0;0;0];
[26830;26830;26830;0;26830;0;0;0;26830;0;0;0;0;0;0;0];
[26831;26831;26831;26831;26831;26831;26831;0;26831;26831;26831;0;26831;0;0;0];
[26831;26831;26831;0;26831;0;0;0;26831;0;0;0;0;0;0;0];
[26831;26831;26831;0;26831;0;0;0;26831;0;0;0;0;0;0;0];
[36870;0;0;0;0;0;0;0;0;0;0;0;0;0;0;0];
[26832;26833;26834;26835;26836;26837;26838;26838;26839;26840;26841;26841;26842;26842;26842;36865];
[26843;26844;26845;26845;26846;26846;26846;26846;26847;26847;26847;26847;26847;26847;26847;0];
[26848;26849;26850;26850;26851;26851;26851;26851;26852;26852;26852;26852;26852;26852;26852;0];
[26853;26853;26853;26853;26853;26853;26853;0;26853;26853;26853;0;26853;0;0;0];
[26854;26855;26856;26856;26857;26857;26857;26857;26858;26858;26858;26858;26858;26858;26858;0];
[26859;26859;26859;26859;26859;26859;26859;0;26859;26859;26859;0;26859;0;0;0];
[26860;26860;26860;26860;26860;26860;26860;0;26860;26860;26860;0;26860;0;0;0];
[26860;26860;26860;0;26860;0;0;0;26860;0;0;0;0;0;0;0];
[26861;26862;26863;26863;26864;26864;26864;26864;26865;26865;26865;26865;26865;26865;26865;0];
[26866;26866;26866;26866;26866;26866;26866;0;26866;26866;26866;0;26866;0;0;0];
[26867;26867;26867;26867;26867;26867;26867;0;26867;26867;26867;0;26867;0;0;0];
[26867;26867;26867;0;26867;0;0;0;26867;0;0;0;0;0;0;0];
[26868;26868;26868;26868;26868;26868;26868;0;26868;26868;26868;0;26868;0;0;0];
[26868;26868;26868;0;26868;0;0;0;26868;0;0;0;0;0;0;0];
[26868;26868;26868;0;26868;0;0;0;26868;0;0;0;0;0;0;0];
[26868;0;0;0;0;0;0;0;0;0;0;0;0;0;0;0];
[26869;26870;26871;26871;26872;26872;26872;26872;26873;26873;26873;26873;26873;26873;26873;0];
[26874;26874;26874;26874;26874;26874;26874;0;26874;26874;26874;0;26874;0;0;0];
[26875;26875;26875;26875;26875;26875;26875;0;26875;26875;26875;0;26875;0;0;0];
[26875;26875;26875;0;26875;0;0;0;26875;0;0;0;0;0;0;0];
[26876;26876;26876;26876;26876;26876;26876;0;26876;26876;26876;0;26876;0;0;0];
[26876;26876;26876;0;26876;0;0;0;26876;0;0;0;0;0;0;0];
[26876;26876;26876;0;26876;0;0;0;26876;0;0;0;0;0;0;0];
[26876;0;0;0;0;0;0;0;0;0;0;0;0;0;0;0];
[26877;26877;26877;26877;26877;26877;26877;0;26877;26877;26877;0;26877;0;0;0];
[26877;26877;26877;0;26877;0;0;0;26877;0;0;0;0;0;0;0];
[26877;26877;26877;0;26877;0;0;0;26877;0;0;0;0;0;0;0];
[26877;0;0;0;0;0;0;0;0;0;0;0;0;0;0;0];
[26877;26877;26877;0;26877;0;0;0;26877;0;0;0;0;0;0;0];
[26877;0;0;0;0;0;0;0;0;0;0;0;0;0;0;0];
[36871;0;0;0;0;0;0;0;0;0;0;0;0;0;0;0];
[0;0;0;0;0;0;0;0;0;0;0;0;0;0;0;0];
[26878;26879;26880;26881;26882;26883;26884;26884;26885;26886;26887;26887;26888;26888;26888;36865];
[26889;26890;26891;26891;26892;26892;26892;26892;26893;26893;26893;26893;26893;26893;26893;0];
[26894;26895;26896;26896;26897;26897;26897;26897;26898;26898;26898;26898;26898;26898;26898;0];
[26899;26899;26899;26899;26899;26899;26899;0;26899;26899;26899;0;26899;0;0;0];
[26900;26901;26902;26902;26903;26903;26903;26903;26904;26904;26904;26904;26904;26904;26904;0];
[26905;26905;26905;26905;26905;26905;26905;0;26905;26905;26905;0;26905;0;0;0];
[26906;26906;26906;26906;26906;26906;26906;0;26906;26906;26906;0;26906;0;0;0];
[26906;26906;26906;0;26906;0;0;0;26906;0;0;0;0;0;0;0];
[26907;26908;26909;26909;26910;26910;26910;26910;26911;26911;26911;26911;26911;26911;26911;0];
[26912;26912;26912;26912;26912;26912;26912;0;26912;26912;26912;0;26912;0;0;0];
[26913;26913;26913;26913;26913;26913;26913;0;26913;26913;26913;0;26913;0;0;0];
[26913;26913;26913;0;26913;0;0;0;26913;0;0;0;0;0;0;0];
[26914;26914;26914;26914;26914;26914;26914;0;26914;26914;26914;0;26914;0;0;0];
[26914;26914;26914;0;26914;0;0;0;26914;0;0;0;0;0;0;0];
[26914;26914;26914;0;26914;0;0;0;26914;0;0;0;0;0;0;0];
[26914;0;0;0;0;0;0;0;0;0;0;0;0;0;0;0];
[26915;26916;26917;26917;26918;26918;26918;26918;26919;26919;26919;26919;26919;26919;26919;0];
[26920;26920;26920;26920;26920;26920;26920;0;26920;26920;26920;0;26920;0;0;0];
[26921;26921;26921;26921;26921;26921;26921;0;26921;26921;26921;0;26921;0;0;0];
[26921;26921;26921;0;26921;0;0;0;26921;0;0;0;0;0;0;0];
[26922;26922;26922;26922;26922;26922;26922;0;26922;26922;26922;0;26922;0;0;0];
[26922;26922;26922;0;26922;0;0;0;26922;0;0;0;0;0;0;0];
[26922;26922;26922;0;26922;0;0;0;26922;0;0;0;0;0;0;0];
[26922;0;0;0;0;0;0;0;0;0;0;0;0;0;0;0];
[26923;26923;26923;26923;26923;26923;26923;0;26923;26923;26923;0;26923;0;0;0];
[26923;26923;26923;0;26923;0;0;0;26923;0;0;0;0;0;0;0];
[26923;26923;26923;0;26923;0;0;0;26923;0;0;0;0;0;0;0];
[26923;0;0;0;0;0;0;0;0;0;0;0;0;0;0;0];
[26923;26923;26923;0;26923;0;0;0;26923;0;0;0;0;0;0;0];
[26923;0;0;0;0;0;0;0;0;0;0;0;0;0;0;0];
[26923;0;0;0;0;0;0;0;0;0;0;0;0;0;0;0];
[0;0;0;0;0;0;0;0;0;0;0;0;0;0;0;0];
[26924;26925;26926;26926;26927;26927;26927;26927;26928;26928;26928;26928;26928;26928;26928;0];
[26929;26929;26929;26929;26929;26929;26929;0;26929;26929;26929;0;26929;0;0;0];
[26930;26930;26930;26930;26930;26930;26930;0;26930;26930;26930;0;26930;0;0;0];
[26930;26930;26930;0;26930;0;0;0;26930;0;0;0;0;0;0;0];
[26931;26931;26931;26931;26931;26931;26931;0;26931;26931;26931;0;26931;0;0;0];
[26931;26931;26931;0;26931;0;0;0;26931;0;0;0;0;0;0;0];
[26931;26931;26931;0;26931;0;0;0;26931;0;0;0;0;0;0;0];
[26931;0;0;0;0;0;0;0;0;0;0;0;0;0;0;0];
[26932;26932;26932;26932;26932;26932;26932;0;26932;26932;26932;0;26932;0;0;0];
[26932;26932;26932;0;26932;0;0;0;26932;0;0;0;0;0;0;0];
[26932;26932;26932;0;26932;0;0;0;26932;0;0;0;0;0;0;0];
[26932;0;0;0;0;0;0;0;0;0;0;0;0;0;0;0];
[26932;26932;26932;0;26932;0;0;0;26932;0;0;0;0;0;0;0];
[26932;0;0;0;0;0;0;0;0;0;0;0;0;0;0;0];
[26932;0;0;0;0;0;0;0;0;0;0;0;0;0;0;0];
[0;0;0;0;0;0;0;0;0;0;0;0;0;0;0;0];
[36874;36874;36874;36874;36874;36874;36874;0;36874;36874;36874;0;36874;0;0;0];
[36874;36874;36874;0;36874;0;0;0;36874;0;0;0;0;0;0;0];
[36874;36874;36874;0;36874;0;0;0;36874;0;0;0;0;0;0;0];
[36874;0;0;0;0;0;0;0;0;0;0;0;0;0;0;0];
[36874;36874;36874;0;36874;0;0;0;36874;0;0;0;0;0;0;0];
[36874;0;0;0;0;0;0;0;0;0;0;0;0;0;0;0];
[36874;0;0;0;0;0;0;0;0;0;0;0;0;0;0;0];
[0;0;0;0;0;0;0;0;0;0;0;0;0;0;0;0];
[36874;36874;36874;0;36874;0;0;0;36874;0;0;0;0;0;0;0];
[36874;0;0;0;0;0;0;0;0;0;0;0;0;0;0;0];
[36874;0;0;0;0;0;0;0;0;0;0;0;0;0;0;0];
[0;0;0;0;0;0;0;0;0;0;0;0;0;0;0;0];
[36874;0;0;0;0;0;0;0;0;0;0;0;0;0;0;0];
[0;0;0;0;0;0;0;0;0;0;0;0;0;0;0;0];
[0;0;0;0;0;0;0;0;0;0;0;0;0;0;0;0];
[0;0;0;0;0;0;0;0;0;0;0;0;0;0;0;0]]%N.
(* src/flush_lookup.rs:1-518 LOOKUP_FLUSH : [u16; 8192] *)
Definition LOOKUP_FLUSH : list N := List.concat (LOOKUP_FLUSH_0 ++ LOOKUP_FLUSH_1).
Definition PERF_HASH_OFFSETS_0 : list (list N) := [
[0;4294963200;4294959104;4294955008;4294951121;4294946816;4294943064;4294938624;4294935067;4294930432;4294927478;4294922240;4294919718;4294914048;4294911701;4294905856];
[4294908100;4294897664;4294895648;4294891653;4294887717;4294883734;4294878057;4294875784;4294877517;4294874695;4294863831;4294860494;4294852911;4294852498;4294844719;4294844924];
[4294847546;4294848095;4294828282;4294828599;4294822010;4294820574;4294815172;4294808425;4294803570;4294817502;4294813817;4294796134;4294792184;4294783279;4294784530;4294775087];
[4294770801;4294768854;4294781495;4294763123;4294760275;4294755231;4294752083;4294742081;4294738032;4294733889;4294729803;4294745049;4294721611;4294723504;4294716286;4294709312];
[4294712055;4294701120;4294699222;4294692869;4294697596;4294684677;4294700583;4294676485;4294692464;4294668288;4294664832;4294662162;4294676166;4294655229;4294667986;4294650914];
[4294643680;4294642868;4294651700;4294637170;4294643834;4294626668;4294617902;4294618636;4294607151;4294610099;4294599002;4294615631;4294590810;4294594240;4294588019;4294586185];
[4294582108;4294570857;4294566002;4294570815;4294579195;4294562623;4294558601;4294545711;4294549339;4294537216;4294533233;4294529370;4294534144;4294526824;4294525952;4294521994];
[4294517760;4294504513;4294500352;4294496321;4294495609;4294497658;4294488744;4294489466;4294485386;4294471744;4294468350;4294463488;4294470982;4294455301;4294472937;4294447109];
[4294464778;4294438912;4294456833;4294430720;4294448803;4294429629;4294441365;4294424610;4294433173;4294416578;4294402812;4294398718;4294393893;4294413232;4294385701;4294392040];
[4294377509;4294383809;4294369280;4294388795;4294361434;4294357942;4294359791;4294349858;4294355272;4294341475;4294347080;4294343186;4294329086;4294326130;4294325311;4294318771];
[4294317119;4294331630;4294328493;4294310680;4294307144;4294296391;4294292542;4294285740;4294284646;4294276092;4294295895;4294272432;4294274637;4294258991;4294260486;4294256153];
[4294271498;4294249602;4294241849;4294242698;4294236371;4294236236;4294229943;4294226463;4294227342;4294209650;4294212865;4294226510;4294204673;4294205732;4294199390;4294210232];
[4294206319;4294178512;4294173318;4294181039;4294175456;4294172847;4294156489;4294177727;4294155464;4294156621;4294139969;4294144471;4294144452;4294139572;4294136260;4294133025];
[4294140902;4294124980;4294107816;4294119604;4294112957;4294120431;4294090757;4294096987;4294083239;4294104058;4294075047;4294096048;4294079342;4294087864;4294070809;4294080174];
[4294066315;4294062580;4294054475;4294049638;4294059783;4294055817;4294025417;4294021423;4294029075;4294013607;4294035346;4294005382;4294017585;4294008817;4294005973;4294001344];
[4294010861;4293988895;4294002853;4293972082;4293985024;4293977027;4293959879;4293955785;4293964874;4293974201;4293956682;4293952762;4293935750;4293948724;4293940736;4293923016];
[4293932982;4293928185;4293910593;4293919993;4293902336;4293914068;4293907967;4293903944;4293886153;4293900482;4293891322;4293874430;4293883130;4293892320;4293861381;4293884278];
[4293853184;4293876151;4293858553;4293841661;4293836800;4293846625;4293842675;4293851629;4293834553;4293830241;4293826386;4293821690;4293804798;4293799973;4293810224;4293791781];
[4293787849;4293783552;4293806698;4293775360;4293785692;4293767814;4293782451;4293773437;4293774418;4293765245;4293774260;4293757053;4293753081;4293734400;4293750177;4293740668];
[4293722619;4293718217;4293741594;4293724618;4293720555;4293716638;4293712363;4293713452;4293709542;4293685756;4293696862;4293704774;4293673143;4293683962;4293664951;4293688420];
[4293656958;4293680231;4293649030;4293664500;4293652680;4293656308;4293647188;4293655763;4293638996;4293647720;4293616124;4293613362;4293622623;4293603511;4293614431;4293595338];
[4293619082;4293587146;4293598114;4293579398;4293595358;4293572581;4293581662;4293565459;4293573537;4293556197;4293550281;4293545984;4293557913;4293539812;4293549158;4293531620];
[4293547149;4293522088;4293517820;4293513896;4293537232;4293507043;4293529124;4293496832;4293521187;4293489319;4293485051;4293480448;4293492047;4293487994;4293496772;4293479878];
[4293475663;4293471947;4293452456;4293448188;4293443767;4293455768;4293435575;4293431497;4293443644;4293451928;4293435487;4293415240;4293427380;4293428626;4293405371;4293398728];
[4293398179;4293390663;4293390443;4293382471;4293394539;4293374135;4293373610;4293382522;4293366589;4293374682;4293353800;4293366168;4293350259;4293358118;4293342291;4293339434];
[4293345854;4293330582;4293326163;4293333628;4293312810;4293325349;4293304760;4293311792;4293298785;4293309234;4293292243;4293284168;4293281012;4293276516;4293284680;4293284709];
[4293263382;4293276517;4293256572;4293251370;4293248243;4293242880;4293251911;4293234714;4293235838;4293232719;4293227646;4293223637;4293219454;4293210172;4293206199;4293201980];
[4293216125;4293199644;4293208346;4293193303;4293198888;4293186745;4293190805;4293191251;4293165082;4293161002;4293172168;4293152768;4293177498;4293162405;4293169359;4293136425];
[4293149164;4293128233;4293152985;4293138914;4293119096;4293130890;4293116684;4293122829;4293099635;4293113580;4293094286;4293106983;4293093267;4293098121;4293085075;4293088404];
[4293068456;4293080649;4293073397;4293074810;4293050518;4293058011;4293062686;4293038088;4293047629;4293031488;4293031891;4293021811;4293038286;4293013511;4293010675;4293005319];
[4293001364;4292998824;4292998270;4292995115;4292990078;4292986340;4292976648;4292972604;4292968456;4292964501;4292981003;4292961763;4292970360;4292958189;4292944339;4292958313];
[4292936441;4292931626;4292946444;4292923434;4292948320;4292934588;4292940364;4292936321;4292903672;4292898857;4292911696;4292910551;4292915962;4292904080;4292895312;4292896266];
[4292887120;4292866809;4292863682;4292878080;4292853792;4292871769;4292862543;4292871022;4292837577;4292853536;4292840994;4292847508;4292827448;4292839481;4292836071;4292829369];
[4292811064;4292812175;4292796743;4292815676;4292794679;4292804570;4292786487;4292796964;4292792390;4292788325;4292784309;4292759880;4292779111;4292753831;4292767707;4292766464];
[4292760181;4292736996;4292751612;4292727082;4292752243;4292718969;4292744087;4292710623;4292730168;4292717308;4292721976;4292698775;4292719598;4292687092;4292711522;4292693131];
[4292697714;4292675967;4292667364;4292667775;4292657349;4292683193;4292649157;4292668441;4292640991;4292661003;4292640417;4292633726;4292642993;4292641212;4292616252;4292633020];
[4292608222;4292627753;4292607648;4292616937;4292603967;4292612161;4292592007;4292599771;4292583815;4292593181;4292585403;4292593152;4292559758;4292585394;4292559609;4292567002];
[4292543374;4292559663;4292555584;4292560822;4292550914;4292541081;4292542900;4292528143;4292530139;4292507620;4292501583;4292499428;4292494220;4292491235;4292496503;4292483043];
[4292476987;4292473055;4292471750;4292479171;4292460622;4292481546;4292465786;4292449524;4292457594;4292440286;4292436045;4292431951;4292427776;4292423759;4292433017;4292415547];
[4292411392;4292407355;4292403423;4292399182;4292402849;4292390912;4292394657;4292396154;4292378624;4292374528;4292370432;4292387778;4292362319;4292379625;4292354209;4292350419];
[4292361232;4292342521;4292337825;4292355143;4292329472;4292356085;4292321440;4292317650;4292313248;4292308992;4292304896;4292317776;4292318295;4292309584;4292313647;4292284577];
[4292280787;4292276385;4292272128;4292268064;4292264015;4292259840;4292255823;4292251808;4292269274;4292243456;4292261238;4292235592;4292255892;4292233528;4292223479;4292225336];
[4292237062;4292210688;4292228564;4292202496;4292220474;4292194383;4292190710;4292186112;4292204418;4292200361;4292196226;4292192193;4292188034;4292183611;4292157818;4292153847];
[4292149426;4292167651;4292141234;4292159459;4292132864;4292159606;4292124672;4292143181;4292129120;4292137766;4292124003;4292126594;4292114343;4292118604;4292106151;4292110412];
[4292083872;4292079794;4292089766;4292071424;4292081574;4292063429;4292081741;4292055040;4292073549;4292047009;4292056997;4292040672;4292034560;4292032480;4292026447;4292022272];
[4292018176;4292014080;4292032642;4292007903;4292024500;4291997696;4292015675;4291990179;4291985911;4291981312;4291999975;4291973120;4292000056;4291964928;4291982906;4291956736];
[4291952640;4291948544;4291966850;4291963191;4291958658;4291954999;4291928064;4291946043;4291919872;4291915776;4291911858;4291907663;4291926586;4291899471;4291918412;4291891259];
[4291910291;4291883067;4291879073;4291874894;4291893098;4291866624;4291876775;4291858490;4291877565;4291850240;4291846304;4291842048;4291861282;4291857178;4291849911;4291849039];
[4291841719;4291840899;4291813535;4291809441;4291805490;4291824744;4291797298;4291816591;4291789106;4291808130;4291780608;4291776672;4291787533;4291792030;4291779341;4291783838];
[4291772558;4291775646;4291764366;4291743744;4291753837;4291735858;4291748646;4291727666;4291740454;4291719168;4291732262;4291710976;4291721068;4291717901;4291715877;4291713862];
[4291707685;4291686875;4291682304;4291678683;4291674112;4291670095;4291691127;4291662298;4291681475;4291668707;4291673333;4291669329;4291641505;4291637285;4291658665;4291650001];
[4291656010;4291644781;4291647912;4291636589;4291608736;4291604516;4291621410;4291620257;4291623370;4291613924;4291605026;4291605875;4291596834;4291571873;4291572290;4291587509];
[4291559730;4291581434;4291572257;4291570932;4291564065;4291538944;4291536547;4291551778;4291546477;4291543586;4291545496;4291514371;4291530093;4291506179;4291502224;4291498290];
[4291513708;4291489792;4291505516;4291481602;4291477504;4291473408;4291469312;4291465361;4291480939;4291457499;4291452928;4291449307;4291444739;4291440640;4291436544;4291432448];
[4291452371;4291424730;4291444319;4291433570;4291436127;4291425378;4291403937;4291399717;4291396151;4291391488;4291399936;4291400801;4291390369;4291392609;4291402402;4291366912];
[4291376013;4291359547;4291369127;4291377814;4291363938;4291343163;4291356636;4291358354;4291345352;4291341565;4291321863;4291336432;4291328135;4291311874;4291336935;4291306132];
[4291323404;4291294009;4291310297;4291303471;4291302105;4291276803;4291273581;4291277903;4291282374;4291279741;4291257747;4291271860;4291263279;4291250719;4291248712;4291256094];
[4291241076;4291247902;4291244340;4291241990;4291236345;4291211570;4291218469;4291218310;4291220062;4291212861;4291191912;4291210906;4291183720;4291178714;4291184220;4291171222];
[4291177403;4291183347;4291160505;4291175155;4291168950;4291145945;4291142632;4291138453;4291153015;4291151332;4291125909;4291129872;4291148590;4291113232;4291110394;4291105684];
[4291110747;4291123948;4291103962;4291108311;4291115937;4291103450;4291076969;4291084782;4291074642;4291083328;4291072659;4291077721;4291051823;4291070681;4291043343;4291055654];
[4291036013;4291045653;4291030532;4291047036;4291037717;4291014663;4291025711;4291013151;4291020649;4291022750;4291002718;4291003027;4291010547;4290981903;4290992942;4290974002];
[4290969674;4290966381;4290986128;4290976339;4290962273;4290968147;4290945078;4290941146;4290936905;4290933654;4290956036;4290949626;4290920501;4290935378;4290912261;4290908160];
[4290904830;4290900042;4290927565;4290891781;4290919386;4290883638;4290911214;4290875392;4290872061;4290867200;4290873012;4290883250;4290865286;4290875063;4290846791;4290842629];
[4290838528;4290853789;4290830373;4290851537;4290841821;4290843345;4290813967;4290841600;4290805760;4290822861;4290798445;4290807048;4290809872;4290811491;4290784361;4290808887];
[4290776169;4290790268;4290778377;4290787129;4290782137;4290773788;4290751592;4290776128;4290764492;4290760441;4290754968;4290727943;4290750478;4290722220;4290736065;4290738981];
[4290727848;4290710915;4290724985;4290717722;4290715731;4290687358;4290689851;4290679661;4290693573;4290692017;4290685381;4290686797;4290662338;4290669359;4290650388;4290668218];
[4290649582;4290663664;4290641283;4290655472;4290633513;4290653300;4290623179;4290627164;4290611360;4290624333;4290602037;4290598916;4290604927;4290593168;4290592969;4290594395];
[4290580429;4290581069;4290568215;4290565181;4290567393;4290556403;4290555595;4290550114;4290555958;4290550423;4290549970;4290531408;4290532411;4290523507;4290532404;4290523383];
[4290511403;4290513600;4290508063;4290505667;4290509437;4290501887;4290499578;4290485963;4290478634;4290481539;4290477797;4290481334;4290462378;4290479639;4290464308;4290473841];
[4290454243;4290442093;4290459474;4290440169;4290436847;4290444265;4290421593;4290437101;4290430126;4290416821;4290414834;4290427071;4290415849;4290404173;4290394744;4290392042];
[4290411687;4290398884;4290385778;4290368616;4290374001;4290362305;4290372094;4290360871;4290373043;4290360669;4290348119;4290354694;4290331835;4290344441;4290348548;4290338857];
[4290324657;4290327900;4290306568;4290306988;4290307322;4290293775;4290299130;4290285572;4290305918;4290297930;4290276151;4290271690;4290268407;4290271366;4290262543;4290265080];
[4290249391;4290276530;4290257508;4290239143;4290243532;4290241175;4290237654;4290240072;4290216141;4290215081;4290207966;4290219261;4290199623;4290202477;4290198200;4290198326];
[4290183218;4290185298;4290184605;4290186350;4290205993;4290165864;4290166969;4290165467;4290210585;4290148977;4290207254;4290148765;4290213028;4290133125;4290129383;4290178039];
[4290157473;4290160588;4290158703;4290124725;4290135109;4290157317;4290152340;4290090504;4290112358;4290161615;4290096541;4290153252;4290091077;4290090048;4290096524;4290135537];
[4290078966;4290128813;4290050627;4290120659;4290052747;4290052905;4290109332;4290023442;4290091830;4290062437;4290056256;4290087581;4290037674;4290050227;4289994823;4290018117];
[4289995107;4290034246;4290027225;4289991341;4289997892;4289980138;4290041068;4290039930;4290022521;4289981176;4289985140;4289941862;4289982405;4289979461;4290005887;4289941939];
[4289932492;4289945376;4289928485;4289910462;4289958813;4289965149;4289963205;4289896572;4289889411;4289886944;4289880247;4289904175;4289954002;4289869517;4289940042;4289875994];
[4289934263;4289859562;4289901654;4289903911;4289854540;4289876751;4289888044;4289893172;4289904884;4289840697;4289826851;4289824833;4289853285;4289811337;4289838904;4289794881];
[4289789954;4289830413;4289789801;4289779945;4289777915;4289771493;4289767861;4289768093;4289784615;4289773642;4289771615;4289745557;4289773524;4289744311;4289806601;4289752558];
[4289805213;4289740000;4289737126;4289738622;4289730024;4289752272;4289730731;4289707331;4289741795;4289728307;4289734249;4289681897;4289725126;4289731175;4289688742;4289699942];
[4289665659;4289683977;4289731553;4289675943;4289694481;4289669634;4289669572;4289642628;4289653393;4289640011;4289635147;4289646629;4289617753;4289606558;4289646110;4289639658];
[4289617539;4289669957;4289652579;4289585968;4289591486;4289614472;4289616077;4289617415;4289642419;4289629554;4289634599;4289551703;4289606540;4289560946;4289618151;4289610718];
[4289530338;4289580394;4289519626;4289588838;4289594455;4289574518;4289584213;4289558528;4289512319;4289545343;4289560517;4289494428;4289555121;4289536494;4289546957;4289466909];
[4289474247;4289476123;4289527490;4289451288;4289499616;4289446009;4289481527;4289465883;4289444311;4289472085;4289432545;4289448719;4289485554;4289449005;4289433199;4289410637];
[4289407644;4289435028;4289388908;4289422266;4289407087;4289404187;4289434102;4289448937;4289380926;4289360899;4289382293;4289381508;4289411787;4289352258;4289357478;4289346901];
[4289336869;4289409157;4289329679;4289343045;4289397062;4289326411;4289358898;4289385292;4289339887;4289324135;4289315941;4289334399;4289351780;4289284153;4289275323;4289330940];
[4289283437;4289286460;4289272120;4289268256;4289275854;4289274211;4289243347;4289293888;4289241004;4289230861;4289234786;4289244178;4289225953;4289228464;4289261493;4289226128];
[4289222414;4289241094;4289207578;4289233219;4289204631;4289179837;4289212007;4289185449;4289193386;4289183965;4289159258;4289155146;4289190146;4289158964;4289151621;4289221505];
[4289142028;4289146581;4289131812;4289137450;4289121881;4289167272;4289130905;4289143664;4289101979;4289107268;4289112577;4289132629;4289097806;4289094059;4289100284;4289075070];
[4289130061;4289089315;4289079287;4289100930;4289088584;4289055036;4289046355;4289050404;4289046080;4289114258;4289037969;4289030877;4289029347;4289030881;4289020569;4289008599];
[4289008505;4289073073;4289028965;4289027904;4289014970;4289047435;4289003707;4288997165;4288996991;4288976832;4288974397;4289040764;4288974718;4288952331;4289028395;4288943470];
[4289002967;4288981981;4288982271;4288995944;4289001908;4288929303;4288923124;4288952137;4288938255;4288951100;4288911546;4288904867;4288903986;4288891857;4288905663;4288919575];
[4288898492;4288893700;4288898366;4288869829;4288879228;4288905893;4288852112;4288879310;4288862286;4288844972;4288901081;4288864426;4288845852;4288851574;4288898063;4288812537];
[4288820677;4288821492;4288804356;4288811685;4288838315;4288786829;4288842455;4288783484;4288774337;4288789050;4288776370;4288763776;4288793763;4288770296;4288761707;4288771940];
[4288753323;4288812860;4288757762;4288729638;4288736173;4288765710;4288719730;4288724064;4288718620;4288725058;4288718738;4288697420;4288716196;4288709784;4288707643;4288712504];
[4288708971;4288677803;4288677496;4288688660;4288660278;4288674629;4288707651;4288667205;4288664800;4288699542;4288683492;4288660245;4288649002;4288625966;4288662925;4288642943];
[4288635454;4288670846;4288681398;4288605362;4288638231;4288594888;4288592154;4288662919;4288636255;4288600337;4288600748;4288611308;4288601623;4288592142;4288560921;4288603723];
[4288567288;4288550667;4288576736;4288586509;4288537658;4288579026;4288564598;4288567265;4288535568;4288540114;4288530815;4288505816;4288576474;4288542221;4288563318;4288495314];
[4288530166;4288504276;4288494259;4288549118;4288496754;4288479914;4288461208;4288465315;4288499437;4288501883;4288447785;4288456092;4288503822;4288431891;4288448236;4288435053];
[4288484041;4288458619;4288456627;4288464048;4288427907;4288401290;4288434356;4288395491;4288389331;4288409857;4288455635;4288370749;4288387304;4288390261;4288408888;4288407538];
[4288351683;4288420165;4288421872;4288355204;4288337257;4288329622;4288382200;4288386076;4288328828;4288341765;4288339062;4288308610;4288300150;4288308879;4288318450;4288292222];
[4288304251;4288287944;4288302691;4288280978;4288304730;4288292036;4288293668;4288300906;4288254660;4288282870;4288243958;4288268310;4288244341;4288242445;4288250861;4288232221];
[4288224330;4288250097;4288217252;4288228473;4288231008;4288212687;4288239010;4288205867;4288211521;4288212060;4288221029;4288176026;4288201446;4288175958;4288162919;4288168772];
[4288162985;4288154396;4288144508;4288170612;4288181349;4288188209;4288127939;4288129709;4288168039;4288132271;4288134464;4288109155;4288109403;4288107304;4288135831;4288125563];
[4288107329;4288118909;4288088355;4288086536;4288083989;4288067623;4288101537;4288140197;4288088153;4288069283;4288060269;4288061191;4288061510;4288115942;4288052046;4288076011];
[4288075722;4288066037;4288071896;4288090224;4288017953;4288065846;4288061313;4287992763;4288012660;4288021931;4287987762;4288011095;4288036499;4288015749;4288028850;4287960111];
[4288014856;4287955224;4287975259;4287945263;4287996991;4287968867;4287977152;4287945271;4287937992;4287920933;4287972550;4287942362;4287919973;4287913091;4287924028;4287976492];
[4287936239;4287897389;4287883045;4287918914;4287898414;4287882453;4287881039;4287872055;4287861983;4287888244;4287850266;4287927393;4287871551;4287895488;4287832280;4287842147];
[4287833435;4287833612;4287899001;4287811844;4287833997;4287842158;4287810385;4287877982;4287794629;4287802391;4287852328;4287804473;4287827114;4287811745;4287809940;4287763213];
[4287806738;4287756065;4287756704;4287773573;4287743409;4287788204;4287739419;4287741218;4287791484;4287756197;4287722219;4287727750;4287729659;4287758962;4287723567;4287700195];
[4287705340;4287709739;4287684767;4287687415;4287695076;4287679223;4287719903;4287686686;4287683864;4287665298;4287678599;4287649402;4287662588;4287641965;4287650174;4287642750];
[4287632538;4287623382;4287642401;4287623209;4287626872;4287609541;4287605212;4287643239;4287623650;4287602896;4287592191;4287583357;4287585892;4287576473;4287570280;4287586479];
[4287579599;4287577689;4287598454;4287550516;4287557211;4287547774;4287543011;4287562970;4287545590;4287532729;4287531226;4287545413;4287513155;4287520286;4287510043;4287514538];
[4287524407;4287521200;4287491097;4287515740;4287493801;4287476292;4287501995;4287490282;4287473636;4287500520;4287458890;4287455023;4287455495;4287444289;4287478080;4287437711];
[4287476431;4287447005;4287463162;4287419804;4287418895;4287419730;4287437904;4287413457;4287398810;4287420335;4287399588;4287388729;4287381785;4287383732;4287381069;4287411586];
[4287369671;4287386233;4287363016;4287360708;4287376099;4287363780;4287368105;4287352029;4287336665;4287336183;4287353742;4287331185;4287333564;4287322815;4287312343;4287305593];
[4287308919;4287308658;4287308606;4287302544;4287293213;4287291286;4287286080;4287277312;4287267103;4287276805;4287290288;4287281586;4287261375;4287252187;4287257813;4287244448];
[4287234772;4287248100;4287233643;4287224338;4287222489;4287215803;4287219730;4287216265;4287218183;4287208263;4287196167;4287208461;4287211471;4287200649;4287181339;4287179047];
[4287184977;4287176497;4287160505;4287165338;4287170151;4287167098;4287144125;4287147714;4287136191;4287140336;4287174528;4287132493;4287153417;4287152566;4287148413;4287167488];
[4287147307;4287115497;4287134147;4287105488;4287141529;4287117090;4287114506;4287099425;4287108901;4287070067;4287145609;4287097672;4287062841;4287076820;4287097874;4287054437];
[4287051543;4287038524;4287042908;4287039861;4287022554;4287020394;4287043870;4287023075;4287025781;4287075813;4287001007;4287024480;4287006123;4287031332;4286998218;4287010786];
[4287015300;4287048761;4287003316;4287001549;4287016655;4286962640;4286950066;4286949379;4286939324;4286949878;4286931028;4286951615;4286962832;4286918903;4286931043;4286936286];
[4286963164;4286915995;4286907921;4286900435;4286892469;4286889370;4286909436;4286902824;4286898646;4286887004;4286928445;4286882970;4286870823;4286870766;4286853994;4286874450];
[4286878019;4286850141;4286866834;4286848565;4286851976;4286847341;4286830065;4286812765;4286841296;4286826005;4286825951;4286820690;4286809830;4286790529;4286812683;4286782305];
[4286784406;4286809833;4286772131;4286766104;4286771874;4286775649;4286778172;4286751824;4286746476;4286759495;4286759190;4286776492;4286770258;4286745234;4286735278;4286715930];
[4286720535;4286707083;4286703270;4286706067;4286723076;4286689982;4286704936;4286713012;4286681712;4286678112;4286668855;4286669866;4286686956;4286665856;4286681838;4286657362];
[4286664230;4286647410;4286679332;4286667850;4286685443;4286658947;4286646299;4286634017;4286693841;4286640251;4286682566;4286614707;4286623834;4286596231;4286667853;4286604300];
[4286596099;4286623669;4286651632;4286649889;4286567603;4286639428;4286635269;4286571832;4286574435;4286624212;4286586194;4286537167;4286537843;4286526131;4286602118;4286525035];
[4286596265;4286511389;4286562696;4286533208;4286552670;4286565209;4286537449;4286514502;4286530620;4286555594;4286548488;4286547308;4286545037;4286518211;4286474165;4286488577];
[4286484998;4286464079;4286449552;4286473291;4286491036;4286457960;4286492620;4286422472;4286439346;4286461934;4286419900;4286473174;4286465680;4286445551;4286430478;4286389030];
[4286460987;4286432445;4286397647;4286422959;4286370819;4286375191;4286380958;4286355058;4286408989;4286376595;4286377662;4286379725;4286343287;4286358654;4286407138;4286403091];
[4286349453;4286357931;4286319966;4286338390;4286320698;4286379138;4286332868;4286298885;4286340472;4286292364;4286275596;4286353833;4286349805;4286303832;4286335136;4286261610];
[4286268789;4286302241;4286266743;4286307690;4286258125;4286311645;4286259789;4286280339;4286257170;4286231889;4286227702;4286245426;4286202147;4286232455;4286206482;4286228280];
[4286206391;4286184904;4286199743;4286187973;4286174405;4286191203;4286165659;4286178336;4286213109;4286152556;4286211750;4286166050;4286149323;4286164632;4286187668;4286174002];
[4286139765;4286125994;4286132118;4286163341;4286133115;4286103150;4286152826;4286095725;4286090427;4286103377;4286122972;4286079182;4286078399;4286070382;4286145135;4286102304];
[4286135541;4286100005;4286110976;4286125383;4286044602;4286068358;4286049411;4286105128;4286042225;4286083602;4286027565;4286057208;4286006831;4286005076;4286029461;4285994082];
[4286031993;4286040773;4286014470;4286059016;4286014691;4285970579;4286000893;4285999650;4286037424;4285952693;4285993066;4286027052;4285942395;4286016802;4286004992;4285949905];
[4285960145;4286002185;4285928529;4285956606;4285911605;4285942536;4285914959;4285908615;4285897902;4285899444;4285924772;4285932173;4285947869;4285926567;4285942723;4285901338];
[4285879475;4285877105;4285926519;4285874830;4285890996;4285918033;4285869103;4285833264;4285855159;4285897801;4285848307;4285813113;4285817615;4285885931;4285876777;4285810275];
[4285840354;4285857753;4285791703;4285812952;4285789134;4285850368;4285844503;4285813294;4285841812;4285829057;4285753912;4285747972;4285825609;4285756665;4285789236;4285735268];
[4285768008;4285747324;4285793460;4285714448;4285738851;4285714479;4285749773;4285777293;4285721062;4285737608;4285720033;4285733697;4285712746;4285708055;4285707529;4285705180];
[4285686442;4285703653;4285733814;4285700545;4285670309;4285656591;4285713434;4285714919;4285697675;4285661099;4285670975;4285697511;4285685215;4285608352;4285626602;4285681707];
[4285619077;4285614287;4285657569;4285653023;4285581089;4285611149;4285589655;4285575695;4285566917;4285627141;4285624490;4285597072;4285625919;4285543936;4285555053;4285575170];
[4285603471;4285542800;4285595253;4285519766;4285587326;4285562575;4285505998;4285561093;4285570851;4285511393;4285554618;4285504773;4285551027;4285537281;4285549292;4285471731];
[4285496911;4285479656;4285505724;4285517645;4285513695;4285476595;4285500019;4285435945;4285455826;4285482391;4285432656;4285431398;4285455731;4285428463;4285434848;4285404998];
[4285423185;4285443986;4285439975;4285418072;4285406913;4285421547;4285374650;4285376184;4285390142;4285393891;4285390402;4285390208;4285350174;4285377732;4285351584;4285364751];
[4285333719;4285378394;4285352845;4285348203;4285344330;4285340453;4285308992;4285344508;4285324599;4285332495;4285324631;4285306400;4285311957;4285284761;4285296582;4285304137];
[4285303864;4285268251;4285291691;4285279228;4285276124;4285287255;4285283027;4285266877;4285271292;4285258766;4285247785;4285262780;4285254930;4285222438;4285250635;4285238482];
[4285238789;4285229567;4285221568;4285239440;4285226289;4285225335;4285179644;4285209391;4285193853;4285213353;4285197418;4285211748;4285196917;4285203659;4285177435;4285184913];
[4285173192;4285151613;4285168052;4285172280;4285156973;4285165860;4285148659;4285140806;4285136508;4285154693;4285123913;4285146647;4285120164;4285124078;4285119992;4285111944];
[4285077936;4285137068;4285112358;4285081927;4285077350;4285083610;4285087582;4285097707;4285082877;4285089206;4285079653;4285037708;4285071645;4285061915;4285054616;4285027018];
[4285070884;4285046094;4285015934;4285037912;4285013262;4285040196;4285035274;4285026508;4285033163;4284989431;4284995115;4285005288;4285011317;4285012313;4285018416;4285009711];
[4284981747;4284980462;4284940475;4284933596;4284942948;4284979839;4284970775;4284948140;4284944213;4284943782;4284909211;4284901338;4284891189;4284946951;4284900703;4284939179];
[4284911018;4284915276;4284898992;4284912038;4284895153;4284903776;4284886137;4284879050;4284886681;4284881919;4284878449;4284861803;4284854867;4284866327;4284867098;4284837920];
[4284809439;4284849673;4284846047;4284807254;4284842474;4284821433;4284817414;4284820688;4284789758;4284812946;4284813161;4284768776;4284800509;4284788931;4284779999;4284771148];
[4284765377;4284767467;4284780531;4284775589;4284767932;4284767976;4284720055;4284760092;4284780858;4284756231;4284743501;4284739127;4284722765;4284693356;4284731600;4284742371];
[4284719062;4284729355;4284719811;4284710785;4284706644;4284712516;4284713548;4284726268;4284680928;4284690670;4284686843;4284702562;4284644289;4284633692;4284690804;4284676044];
[4284679744;4284668752;4284649164;4284653897;4284604198;4284668830;4284590067;4284618327;4284587519;4284640938;4284636774;4284616778;4284596173;4284568119;4284628959;4284583660];
[4284607198;4284622104;4284552692;4284607989;4284600322;4284581332;4284588189;4284528738;4284579486;4284580226;4284524558;4284512974;4284573889;4284520699;4284544202;4284555405];
[4284531935;4284554268;4284522973;4284543048;4284521524;4284474820;4284517302;4284498621;4284463531;4284486161;4284513638;4284505928;4284448066;4284436699;4284433959;4284502075];
[4284492417;4284426735;4284484620;4284475795;4284459783;4284442193;4284430568;4284452248;4284419496;4284443964;4284448920;4284416862;4284409140;4284439567;4284435402;4284361954];
[4284368432;4284409745;4284347651;4284365989;4284388584;4284403364;4284353011;4284395531;4284375148;4284387451;4284356339;4284370860;4284361791;4284373770;4284358132;4284316003];
[4284354997;4284305040;4284296622;4284331979;4284328692;4284298485;4284320851;4284319360;4284322320;4284317911;4284266875;4284282803;4284306110;4284301440;4284287971;4284293005];
[4284283611;4284235557;4284276463;4284217170;4284203043;4284264601;4284244401;4284191653;4284225173;4284259496;4284243320;4284180372;4284230501;4284226751;4284227798;4284198104];
[4284189588;4284222831;4284215655;4284205279;4284158747;4284199116;4284203197;4284205547;4284186729;4284194072;4284143873;4284182896;4284170187;4284166310;4284135276;4284108461];
[4284104347;4284131591;4284102518;4284149989;4284142149;4284079967;4284137702;4284119263;4284067065;4284120589;4284121169;4284113454;4284104116;4284094258;4284091807;4284105498];
[4284088109;4284053262;4284032054;4284033503;4284076672;4284008832;4284072382;4284071091;4284050328;4284062909;4284009612;4284058676;4284042902;4283998507;4284026058;4284002016];
[4283966234;4284013886;4284025634;4284018804;4283994497;4283997665;4283987840;4283989546;4283989049;4283994277;4283939823;4283929330;4283977796;4283964501;4283924703;4283969915];
[4283923372;4283952521;4283949415;4283944426;4283930631;4283919986;4283927490;4283890125;4283924645;4283928901;4283869577;4283901680;4283874225;4283893798;4283841560;4283836992];
[4283886750;4283883047;4283878634;4283848905;4283853790;4283871125;4283829744;4283856526;4283859271;4283820166;4283851028;4283836456;4283826815;4283808513;4283823696;4283800821];
[4283763585;4283758562;4283813451;4283756951;4283805165;4283801017;4283786088;4283777362;4283742928;4283769187;4283745030;4283785227;4283762998;4283768467;4283769081;4283754387];
[4283760795;4283691606;4283742213;4283715511;4283752472;4283744717;4283744402;4283691177;4283717622;4283732256;4283723737;4283723696;4283712105;4283646368;4283707901;4283698879];
[4283654994;4283638388;4283695267;4283676030;4283614287;4283659055;4283632530;4283649940;4283644966;4283592898;4283592355;4283645193;4283641824;4283631442;4283617651;4283638489];
[4283608162;4283607899;4283626236;4283572154;4283613552;4283573489;4283583153;4283542274;4283599685;4283565699;4283596998;4283588046;4283581023;4283590204;4283577204;4283575645];
[4283532330;4283526933;4283560254;4283533356;4283556092;4283516068;4283553094;4283543804;4283544702;4283532032;4283457988;4283507868;4283522434;4283515808;4283464763;4283511148];
[4283437339;4283503168;4283457805;4283444651;4283464983;4283445748;4283416840;4283474914;4283415252;4283475553;4283461785;4283458223;4283412404;4283456397;4283423843;4283448668];
[4283369409;4283444245;4283438499;4283393728;4283424017;4283377055;4283417018;4283390171;4283400634;4283407569;4283385835;4283333817;4283328599;4283323770;4283387225;4283328106];
[4283367128;4283304764;4283339353;4283318507;4283359753;4283362167;4283347228;4283350153;4283312706;4283333969;4283338317;4283322828;4283308139;4283252206;4283278106;4283314306];
[4283313446;4283301846;4283302461;4283273545;4283264931;4283286213;4283257828;4283284247;4283219411;4283276627;4283272661;4283255639;4283239437;4283211387;4283260253;4283253787];
[4283183666;4283241025;4283192345;4283211295;4283218449;4283167695;4283223246;4283216522;4283215383;4283214551;4283207115;4283208033;4283122364;4283126821;4283148907;4283111665];
[4283179582;4283112444;4283160579;4283100396;4283141604;4283166019;4283129443;4283126627;4283149848;4283147509;4283110015;4283066274;4283130674;4283070307;4283080773;4283113814];
[4283062751;4283082457;4283037925;4283106617;4283093598;4283100560;4283047182;4283090427;4283014597;4283032296;4283031804;4283065215;4283064979;4283057253;4283061185;4282997749];
[4283044532;4283043109;4282978369;4283041467;4282994763;4282995257;4282966859;4283028676;4282975693;4282937512;4282996047;4283001511;4282944263;4282972445;4282933477;4282994952];
[4282951434;4282904819;4282950861;4282908116;4282935493;4282961008;4282892518;4282917342;4282954998;4282931062;4282899689;4282898034;4282869112;4282862966;4282906966;4282930528];
[4282848393;4282890128;4282836507;4282872074;4282858177;4282859065;4282863724;4282840182;4282889729;4282880560;4282861604;4282802869;4282821887;4282836931;4282795021;4282835062];
[4282822404;4282795246;4282828244;4282824833;4282796162;4282836187;4282753270;4282792166;4282756103;4282749813;4282810958;4282788039;4282738406;4282771477;4282783495;4282797876];
[4282713181;4282739846;4282721667;4282706134;4282776838;4282770884;4282744306;4282713519;4282685297;4282754615;4282750777;4282743725;4282669490;4282738338;4282671643;4282660600];
[4282717339;4282661281;4282701027;4282677800;4282648908;4282653627;4282640056;4282632154;4282683426;4282627655;4282628965;4282633329;4282651407;4282624206;4282625886;4282591148];
[4282626992;4282590572;4282593420;4282605425;4282646967;4282572249;4282595836;4282563312;4282604559;4282611567;4282623103;4282569187;4282538411;4282528163;4282536877;4282600866];
[4282574620;4282533406;4282588694;4282503983;4282565342;4282577507;4282513111;4282502057;4282565183;4282494232;4282528117;4282494740;4282514760;4282513696;4282531476;4282496099];
[4282473670;4282501512;4282521264;4282437986;4282485515;4282490583;4282489953;4282476245;4282457031;4282494422;4282474859;4282450646;4282479968;4282476152;4282419778;4282426306];
[4282465882;4282428550;4282382665;4282436368;4282438810;4282385186;4282403439;4282402284;4282425758;4282354347;4282350540;4282380023;4282405919;4282362784;4282397446;4282338816];
[4282368855;4282331361;4282381443;4282371845;4282363333;4282327633;4282296510;4282290262;4282352134;4282348152;4282326416;4282332284;4282325226;4282346541;4282341128;4282269651];
[4282327796;4282326615;4282319771;4282318286;4282252105;4282310005;4282266855;4282289663;4282297909;4282297774;4282221519;4282274438;4282278649;4282226742;4282208666;4282223984];
[4282224468;4282210511;4282196222;4282250083;4282191186;4282237688;4282233673;4282172041;4282235474;4282233246;4282194422;4282188330;4282220125;4282176484;4282201102;4282129277];
[4282162087;4282122549;4282131618;4282184575;4282162673;4282150398;4282097704;4282135335;4282144082;4282116518;4282158960;4282156679;4282147655;4282128780;4282145278;4282101488];
[4282134153;4282129808;4282123213;4282075939;4282114007;4282060550;4282109562;4282097271;4282050871;4282028973;4282090266;4282038876;4282061952;4282020881;4282074191;4282021824];
[4282010662;4282011614;4281998047;4282033992;4282007670;4281977031;4282046288;4282023421;4282006455;4282036873;4282029904;4282006689;4281999090;4281999288;4281970232;4281979816];
[4281986901;4281992576;4281948548;4281985124;4281952492;4281971049;4281945170;4281971866;4281963739;4281966406;4281957795;4281955255;4281951402;4281914378;4281913735;4281941908];
[4281910169;4281884591;4281907524;4281903500;4281893836;4281910182;4281885251;4281908858;4281882387;4281849486;4281859081;4281859815;4281851850;4281872610;4281818233;4281869516];
[4281844714;4281840723;4281810075;4281794443;4281801379;4281822969;4281798945;4281780280;4281817237;4281802526;4281794612;4281768020;4281801143;4281766404;4281798335;4281763952];
[4281784877;4281765048;4281761865;4281727358;4281778781;4281732726;4281760179;4281707488;4281746651;4281728809;4281738371;4281745022;4281746227;4281731174;4281737901;4281728720];
[4281729446;4281671436;4281662185;4281722110;4281713574;4281709418;4281690536;4281705302;4281681090;4281697253;4281693737;4281694601;4281664942;4281671438;4281627057;4281657876];
[4281659454;4281661960;4281645699;4281616648;4281622441;4281580492;4281629290;4281635782;4281620721;4281642126;4281617264;4281582419;4281598813;4281600686;4281596449;4281607291];
[4281573713;4281605894;4281574640;4281561456;4281516033;4281578423;4281578786;4281572353;4281528977;4281530560;4281547133;4281543426;4281538245;4281480696;4281527467;4281514921];
[4281516426;4281513463;4281484898;4281520992;4281493021;4281499323;4281467028;4281467745;4281511431;4281491256;4281485615;4281462238;4281499049;4281470724;4281486938;4281420107];
[4281448894;4281454800;4281464056;4281412863;4281433610;4281383603;4281451413;4281439396;4281419278;4281435755;4281410177;4281437615;4281423491;4281386930;4281384175;4281350482];
[4281391732;4281374973;4281377049;4281327765;4281335838;4281385921;4281352061;4281307619;4281353286;4281347236;4281361373;4281352181;4281347777;4281289040;4281290143;4281340726];
[4281326241;4281343990;4281275763;4281308358;4281304123;4281305614;4281301805;4281307933;4281308486;4281300030;4281285462;4281253142;4281262109;4281283119;4281269265;4281264890];
[4281224357;4281233469;4281247171;4281220687;4281215211;4281235060;4281185999;4281221605;4281238503;4281209236;4281205060;4281215158;4281212003;4281207208;4281186297;4281193678];
[4281147313;4281163503;4281154799;4281188370;4281164108;4281153644;4281142660;4281151536;4281143270;4281147588;4281139615;4281165040;4281140524;4281144844;4281105093;4281114512];
[4281106410;4281074553;4281106361;4281127869;4281102762;4281089883;4281105081;4281086245;4281045910;4281098009;4281060676;4281035152;4281075127;4281048699;4281067140;4281057821];
[4281053240;4281038433;4281050035;4281032609;4281042474;4281024660;4281011839;4281040927;4281031861;4281021714;4281018118;4280983211;4280995981;4280996581;4281001624;4281003219];
[4281013606;4280994556;4280990713;4280975948;4280934601;4280977897;4280972957;4280928175;4280971333;4280947392;4280915374;4280942943;4280929949;4280901911;4280931045;4280885356];
[4280910199;4280909924;4280902095;4280866813;4280917028;4280870316;4280896651;4280909970;4280877576;4280866771;4280869596;4280882785;4280861118;4280885311;4280856793;4280848931];
[4280819421;4280835779;4280818956;4280841019;4280808776;4280831751;4280819728;4280803519;4280794266;4280803222;4280794537;4280800000;4280783283;4280776321;4280767415;4280770685];
[4280759973;4280763126;4280758601;4280749280;4280747230;4280737600;4280731770;4280733060;4280734246;4280730048;4280729361;4280714147;4280708855;4280703333;4280697504;4280696819];
[4280680612;4280688851;4280685849;4280672940;4280667530;4280668892;4280662485;4280665362;4280652220;4280643667;4280644481;4280640514;4280633372;4280634029;4280629593;4280632759];
[4280619860;4280616130;4280609280;4280608054;4280598528;4280604562;4280593717;4280591591;4280583204;4280578052;4280573962;4280578762;4280565763;4280570199;4280566232;4280553529];
[4280554777;4280551907;4280542304;4280537189;4280533298;4280537799;4280534897;4280523335;4280519940;4280522716;4280510638;4280513359;4280510630;4280502417;4280498846;4280490607];
[4280485167;4280480422;4280484149;4280478090;4280470341;4280472753;4280462874;4280464779;4280462857;4280461886;4280458336;4280450989;4280446876;4280441242;4280433851;4280432171];
[4280430905;4280432062;4280417365;4280418576;4280417817;4280399538;4280399419;4280407030;4280399491;4280390862;4280394623;4280387194;4280384842;4280379005;4280368521;4280384895];
[4280367745;4280366633;4280360511;4280356273;4280347477;4280356764;4280342294;4280352248;4280338038;4280322768;4280332907;4280313410;4280314138;4280332505;4280315090;4280319817];
[4280302133;4280294120;4280294997;4280302807;4280273341;4280300085;4280295908;4280262417;4280272235;4280268495;4280258041;4280259992;4280251554;4280258338;4280250717;4280241223];
[4280245944;4280236081;4280240641;4280230412;4280230161;4280229619;4280221503;4280205696;4280207237;4280217722;4280214105;4280198046;4280205962;4280180868;4280185148;4280185127];
[4280172231;4280185058;4280181451;4280144853;4280176413;4280156743;4280131860;4280152144;4280126627;4280147869;4280136746;4280143932;4280118812;4280110502;4280109075;4280123449];
[4280102138;4280108080;4280095856;4280093196;4280084301;4280095326;4280082222;4280083586;4280079433;4280069922;4280066139;4280066221;4280055881;4280055977;4280061406;4280057884];
[4280043108;4280037180;4280031178;4280029187;4280019640;4280017159;4280019058;4280014729;4280010330;4279999132;4279998041;4280001746;4280009642;4280000173;4279989489;4279991655];
[4279977005;4279979959;4279979133;4279968852;4279953458;4279950272;4279968726;4279952544;4279951378;4279967953;4279955497;4279959391;4279947007;4279931137;4279947430;4279916866];
[4279915489;4279934760;4279930402;4279937051;4279919407;4279898718;4279906411;4279904983;4279902587;4279918450;4279913776;4279905488;4279895355;4279878090;4279842828;4279888970];
[4279874199;4279885297;4279876743;4279866819;4279873555;4279869127;4279835447;4279855925;4279857290;4279865982;4279852102;4279800734;4279824844;4279849261;4279842057;4279828298];
[4279824456;4279803058;4279820839;4279807092;4279796664;4279809066;4279789458;4279813637;4279781165;4279776928;4279778594;4279774217;4279780277;4279780301;4279767238;4279715085];
[4279732153;4279744715;4279735213;4279751835;4279696549;4279743180;4279729458;4279706143;4279731282;4279711532;4279718234;4279709012;4279704732;4279705996;4279701886;4279697474];
[4279652335;4279664284;4279694686;4279696845;4279672292;4279650834;4279668845;4279665007;4279622588;4279656498;4279595220;4279610165;4279590350;4279611109;4279625506;4279615778];
[4279605004;4279628600;4279603878;4279594105;4279595777;4279602527;4279598347;4279583198;4279549669;4279600054;4279576301;4279562889;4279554343;4279516929;4279555043;4279561250];
[4279529802;4279557853;4279534191;4279517747;4279525512;4279521666;4279522330;4279503785;4279513740;4279515027;4279474122;4279497766;4279497628;4279509408;4279489626;4279490250];
[4279478055;4279468506;4279430743;4279463745;4279485023;4279470454;4279431855;4279418380;4279464183;4279449391;4279445453;4279450985;4279452679;4279448970;4279389192;4279419797];
[4279406602;4279401209;4279398894;4279404617;4279419759;4279395476;4279401976;4279392303;4279382793;4279399445;4279395349;4279389115;4279379332;4279373209;4279369428;4279337771];
[4279304994;4279356867;4279357493;4279366304;4279344751;4279325518;4279292671;4279326474;4279300685;4279338381;4279325179;4279310042;4279270272;4279307253;4279303780;4279309631];
[4279276090;4279280820;4279281968;4279283324;4279268155;4279280100;4279265439;4279210861;4279247765;4279263584;4279211331;4279197497;4279231052;4279251751;4279227440;4279248051];
[4279229776;4279206175;4279211031;4279189912;4279202941;4279219458;4279199430;4279145722;4279173277;4279169966;4279173909;4279174127;4279161496;4279170996;4279144881;4279140862];
[4279128971;4279137256;4279128653;4279166353;4279132969;4279149089;4279129090;4279099653;4279121127;4279116947;4279087602;4279114189;4279109371;4279095722;4279091687;4279070650];
[4279070620;4279094987;4279062778;4279076125;4279076946;4279040351;4279074200;4279069527;4279016916;4279061807;4279034809;4279034324;4279039256;4279030154;4279031002;4278995489];
[4279027606;4279029023;4279019830;4279005322;4278994041;4278997620;4278989487;4279009583;4278962360;4278957061;4278977603;4278960727;4278973975;4278969467;4278980917;4278976125];
[4278921826;4278972662;4278934804;4278935626;4278932121;4278910341;4278937755;4278939185;4278940767;4278920656;4278931875;4278922803;4278899307;4278890822;4278928052;4278910919];
[4278898034;4278902941;4278883759;4278852856;4278838408;4278891816;4278887687;4278820698;4278874673;4278828425;4278845842;4278871475;4278870675;4278869305;4278831866;4278834603];
[4278822063;4278832598;4278828642;4278832222;4278763544;4278786156;4278806951;4278813364;4278756274;4278780466;4278813798;4278812412;4278797669;4278739527;4278784541;4278791388];
[4278765350;4278777169;4278777443;4278769167;4278750990;4278729588;4278746695;4278763419;4278760989;4278696723;4278678301;4278692236;4278692553;4278716113;4278695017;4278732202];
[4278657993;4278657443;4278683452;4278698667;4278669737;4278653600;4278699068;4278697126;4278697293;4278640264;4278685286;4278675055;4278601663;4278675034;4278671162;4278664669];
[4278662500;4278641383;4278637080;4278611187;4278637796;4278635825;4278638798;4278631687;4278612894;4278608618;4278599514;4278615654;4278601346;4278607305;4278536630;4278583843];
[4278532248;4278591209;4278530105;4278576594;4278572780;4278551569;4278551747;4278563197;4278546297;4278551686;4278519926;4278487420;4278507469;4278535687;4278510392;4278523278];
[4278513857;4278524058;4278511099;4278495411;4278461902;4278488336;4278469506;4278494000;4278487194;4278429150;4278464401;4278463782;4278435370;4278409835;4278466116;4278433794];
[4278469102;4278463748;4278453190;4278431884;4278441520;4278418215;4278429185;4278362851;4278401654;4278419155;4278423276;4278415565;4278379531;4278408297;4278408862;4278361372];
[4278337288;4278359105;4278325256;4278321131;4278353469;4278375150;4278371565;4278295220;4278359867;4278289380;4278357390;4278347221;4278353021;4278349682;4278330366;4278299684];
[4278306590;4278318726;4278325176;4278281519;4278286885;4278317139;4278257890;4278298356;4278223601;4278293394;4278277069;4278286916;4278273523;4278284040;4278276740;4278256376]]%N.
Definition PERF_HASH_OFFSETS_1 : list (list N) := [
[4278252677;4278210498;4278243312;4278201492;4278238987;4278249202;4278241369;4278214519;4278235299;4278153503;4278176026;4278216421;4278219999;4278204145;4278207506;4278203566];
[4278206705;4278144592;4278193873;4278164219;4278133253;4278138130;4278122627;4278119137;4278112962;4278106203;4278161516;4278101048;4278152429;4278146262;4278134293;4278128572];
[4278095008;4278070454;4278125573;4278118208;4278091879;4278113630;4278101564;4278046438;4278083302;4278063275;4278089225;4278081318;4278020590;4278034818;4278068320;4278079187];
[4278050789;4278046744;4278047853;4277985232;4278034296;4278054225;4278043125;4278039646;4277980856;4278022812;4277959670;4277968613;4278023900;4277982283;4277953784;4277942064];
[4277981025;4277924854;4277999332;4277917744;4277975278;4277982312;4277913735;4277950870;4277976404;4277895628;4277909429;4277916350;4277959421;4277941677;4277900266;4277895377];
[4277937039;4277909976;4277868355;4277914118;4277851517;4277920023;4277844980;4277864226;4277875500;4277908437;4277855373;4277829709;4277821744;4277884519;4277876565;4277814568];
[4277830440;4277798056;4277870161;4277859791;4277821460;4277782661;4277803981;4277814789;4277778076;4277777871;4277827600;4277823364;4277754536;4277783378;4277785358;4277782340];
[4277798256;4277798876;4277798026;4277796676;4277717827;4277758915;4277726995;4277702808;4277701520;4277746055;4277757788;4277709904;4277738268;4277755897;4277751960;4277737223];
[4277702099;4277719319;4277683640;4277725172;4277721006;4277716850;4277708380;4277674350;4277704761;4277671316;4277692338;4277692466;4277661836;4277653399;4277680007;4277661718];
[4277657452;4277658440;4277649698;4277662944;4277641554;4277615805;4277647288;4277643037;4277605258;4277638410;4277621658;4277632986;4277618385;4277593291;4277600138;4277605900];
[4277586381;4277609888;4277578094;4277584860;4277564749;4277528902;4277541587;4277573494;4277552960;4277536995;4277555308;4277511755;4277527712;4277484718;4277485614;4277540524];
[4277502350;4277520616;4277528508;4277518918;4277510287;4277526155;4277487486;4277507850;4277513198;4277461017;4277479927;4277486750;4277482388;4277493097;4277424246;4277469821];
[4277481233;4277441875;4277399675;4277469364;4277414985;4277463634;4277459385;4277449437;4277403331;4277444248;4277384566;4277365677;4277393093;4277429971;4277424430;4277417409];
[4277373361;4277413720;4277397161;4277388298;4277382461;4277385274;4277375998;4277377010;4277356711;4277364119;4277372326;4277375049;4277360622;4277352401;4277343272;4277348591];
[4277330346;4277340216;4277304033;4277297817;4277313622;4277303909;4277290465;4277311758;4277277698;4277303410;4277283697;4277285277;4277266156;4277287080;4277224921;4277214610];
[4277264835;4277237262;4277256746;4277218995;4277248358;4277254158;4277194311;4277241134;4277237025;4277216826;4277228736;4277191360;4277199899;4277211341;4277207339;4277213142];
[4277212941;4277171293;4277185038;4277158317;4277162736;4277188812;4277174762;4277159474;4277180274;4277142235;4277138435;4277147996;4277126209;4277134903;4277117641;4277117710];
[4277123048;4277105884;4277089120;4277121274;4277093505;4277106812;4277077519;4277080972;4277072459;4277073218;4277057010;4277082877;4277064285;4277059893;4277047095;4277039647];
[4277032671;4277053045;4277031713;4277049982;4277032007;4277014505;4277023419;4277027831;4276996229;4277013071;4276998109;4277027299;4276979472;4276990544;4276990981;4276995633];
[4276991779;4276987102;4276976104;4276974872;4276958183;4276954129;4276945547;4276958210;4276964224;4276954399;4276921057;4276921898;4276937601;4276925728;4276893417;4276951063];
[4276930781;4276933109;4276928871;4276901354;4276905426;4276910891;4276901487;4276913364;4276889165;4276889561;4276885547;4276856842;4276864152;4276888785;4276874343;4276892897];
[4276824027;4276825840;4276857464;4276859436;4276843744;4276814604;4276794082;4276837214;4276828001;4276792065;4276815289;4276836085;4276811452;4276828089;4276803582;4276790176];
[4276782152;4276796594;4276769815;4276776518;4276774318;4276757385;4276786258;4276766602;4276762590;4276782711;4276769233;4276765909;4276761980;4276698517;4276690996;4276739192];
[4276720852;4276741256;4276687928;4276712880;4276733899;4276696772;4276700788;4276678627;4276718410;4276713761;4276719515;4276694989;4276643613;4276692452;4276672649;4276641724];
[4276651002;4276684880;4276635750;4276651860;4276647917;4276668444;4276613895;4276656328;4276647272;4276632751;4276634345;4276573088;4276574262;4276631719;4276563944;4276562151];
[4276609361;4276600030;4276590884;4276606949;4276573392;4276555424;4276574633;4276575299;4276556890;4276544620;4276527250;4276553482;4276527682;4276542062;4276514219;4276512121];
[4276533218;4276529478;4276515791;4276526232;4276507741;4276518272;4276495794;4276482690;4276478730;4276501680;4276487486;4276470939;4276475213;4276459540;4276471174;4276446919];
[4276445675;4276458974;4276446617;4276427177;4276418409;4276418019;4276434245;4276417287;4276430394;4276441450;4276409580;4276404988;4276428892;4276392707;4276393078;4276406602];
[4276364340;4276398253;4276369002;4276361646;4276386230;4276359807;4276349281;4276378306;4276360137;4276375457;4276352318;4276335196;4276328493;4276309497;4276320257;4276351614];
[4276327765;4276315366;4276282022;4276307155;4276289526;4276307131;4276280026;4276313101;4276308056;4276282550;4276290954;4276246211;4276265468;4276278922;4276270384;4276280568];
[4276253791;4276258289;4276238088;4276223031;4276250338;4276228976;4276238175;4276220867;4276204144;4276217422;4276208801;4276213393;4276213242;4276176587;4276204693;4276196660];
[4276188847;4276184783;4276203037;4276180871;4276176798;4276176413;4276172252;4276155660;4276144776;4276144438;4276140200;4276136124;4276139691;4276121920;4276105699;4276119587];
[4276118447;4276127592;4276115127;4276115016;4276095435;4276084305;4276084953;4276090079;4276085681;4276090908;4276071195;4276069272;4276060218;4276040647;4276042944;4276047896];
[4276044391;4276040294;4276036033;4276034100;4276016473;4276021153;4276006335;4276004060;4276004137;4276001675;4275992160;4275993600;4275989710;4275981584;4275977035;4275978957];
[4275963149;4275959806;4275959502;4275961054;4275948516;4275950617;4275944613;4275940151;4275940422;4275927300;4275923456;4275924215;4275915953;4275914277;4275915903;4275900470];
[4275897994;4275895550;4275888285;4275884642;4275883574;4275876197;4275881157;4275867655;4275865023;4275875299;4275856924;4275858865;4275850736;4275843272;4275842653;4275839708];
[4275830786;4275835825;4275829570;4275821011;4275820223;4275811866;4275806208;4275807908;4275798018;4275798085;4275795157;4275786600;4275781902;4275781293;4275773444;4275780500];
[4275772032;4275770618;4275767083;4275756335;4275756578;4275752682;4275743313;4275740627;4275738568;4275737569;4275732177;4275724166;4275719959;4275719234;4275715849;4275715313];
[4275709599;4275708272;4275705522;4275695715;4275696818;4275690839;4275683375;4275700632;4275681281;4275669071;4275672981;4275671311;4275663502;4275676702;4275661361;4275652385];
[4275655930;4275642587;4275634399;4275630096;4275636789;4275632804;4275628168;4275618022;4275630956;4275613098;4275610155;4275618808;4275615303;4275606257;4275600412;4275589933];
[4275585579;4275598609;4275578900;4275586320;4275565214;4275567234;4275566166;4275565777;4275550381;4275562120;4275562448;4275562113;4275524679;4275537627;4275536862;4275532910];
[4275528674;4275533133;4275529089;4275524979;4275521123;4275485869;4275508897;4275512335;4275500259;4275495806;4275496560;4275476593;4275476177;4275496738;4275468213;4275470461];
[4275467915;4275467994;4275460090;4275455475;4275440395;4275433001;4275470899;4275447346;4275443039;4275409531;4275416035;4275423122;4275411262;4275406174;4275428013;4275384216];
[4275410749;4275387582;4275382895;4275406990;4275402344;4275381495;4275389996;4275377996;4275350110;4275377392;4275350524;4275343214;4275370326;4275349284;4275340671;4275336335];
[4275329086;4275337131;4275324291;4275332555;4275325101;4275308947;4275296172;4275296872;4275274027;4275303368;4275284964;4275313372;4275291962;4275276020;4275287793;4275287612];
[4275279642;4275245352;4275275215;4275231500;4275250180;4275237502;4275235968;4275239182;4275234140;4275246560;4275234612;4275226088;4275204896;4275222153;4275218061;4275241855];
[4275217380;4275242589;4275224433;4275201442;4275206398;4275221975;4275203069;4275209522;4275148369;4275190401;4275205858;4275177966;4275173611;4275174463;4275141183;4275117550];
[4275176669;4275163312;4275168926;4275159917;4275163141;4275166684;4275142342;4275158795;4275157197;4275135920;4275121386;4275136307;4275067879;4275134409;4275070537;4275101238];
[4275061559;4275114815;4275103870;4275106589;4275095158;4275050734;4275090979;4275087449;4275088901;4275010334;4275082601;4275034054;4275033285;4275066009;4275025995;4275050835];
[4275041705;4275046449;4275045820;4275011603;4274979976;4275020440;4275025412;4275024683;4275025375;4274976473;4274990252;4275016017;4274997590;4275000560;4274922067;4274963344];
[4274991091;4274984067;4274968102;4274968941;4274959579;4274895893;4274919826;4274959749;4274942933;4274955600;4274875560;4274888204;4274939138;4274917684;4274869777;4274862181];
[4274919118;4274915481;4274902590;4274893929;4274889521;4274890380;4274890809;4274855921;4274882802;4274868947;4274868949;4274865649;4274845997;4274866239;4274841866;4274824942];
[4274852890;4274836100;4274841649;4274823132;4274828375;4274821385;4274795971;4274805058;4274815984;4274773716;4274793268;4274775924;4274800595;4274754122;4274787658;4274772963];
[4274764281;4274784081;4274766095;4274775984;4274758372;4274767813;4274739650;4274696040;4274731569;4274747725;4274733782;4274739174;4274684848;4274711241;4274694286;4274729553];
[4274703730;4274676318;4274679832;4274701313;4274703459;4274683052;4274684839;4274699925;4274693042;4274642001;4274684811;4274674074;4274665054;4274666055;4274651856;4274652853];
[4274665126;4274644810;4274599521;4274631392;4274627296;4274603959;4274635777;4274583367;4274606625;4274601054;4274555126;4274585139;4274589387;4274611993;4274603249;4274586285];
[4274595094;4274574395;4274574994;4274582683;4274556338;4274574340;4274532896;4274566316;4274550681;4274530665;4274542290;4274507532;4274513763;4274469929;4274463362;4274497626];
[4274522348;4274465346;4274494071;4274478103;4274473198;4274497209;4274482906;4274432935;4274469194;4274469598;4274471634;4274477569;4274463535;4274453335;4274476055;4274437142];
[4274451986;4274463393;4274433624;4274390658;4274439818;4274396473;4274427556;4274423193;4274366987;4274419487;4274400573;4274382488;4274411382;4274382982;4274333269;4274399076];
[4274394191;4274382290;4274373304;4274359176;4274369953;4274370913;4274351057;4274369346;4274309063;4274353931;4274340733;4274331062;4274316991;4274333413;4274318259;4274329393];
[4274321105;4274316809;4274312846;4274303346;4274289003;4274300363;4274304974;4274292552;4274292959;4274288551;4274288354;4274276020;4274213964;4274253569;4274258753;4274271436];
[4274244575;4274205831;4274208624;4274183654;4274255239;4274175972;4274219998;4274216336;4274202574;4274232985;4274214892;4274190151;4274222392;4274141203;4274183780;4274199002];
[4274173074;4274200447;4274147172;4274189399;4274184055;4274119786;4274141330;4274170248;4274112629;4274161885;4274134848;4274145197;4274108492;4274137406;4274137522;4274143454];
[4274096032;4274136185;4274132423;4274120424;4274085179;4274074993;4274110722;4274085622;4274063179;4274074802;4274098090;4274087938;4274049683;4274059016;4274072087;4274047562];
[4274033856;4274069664;4274017106;4274051598;4274036377;4274018188;4274042950;4273978082;4274024008;4273983101;4274035878;4273994753;4274019549;4274024181;4273966346;4274015421];
[4273950322;4274001195;4273985709;4273949920;4273954983;4273937925;4273986072;4273976546;4273978699;4273936806;4273964146;4273893849;4273923285;4273879818;4273902975;4273947914];
[4273890321;4273870554;4273909861;4273931813;4273878946;4273870839;4273875455;4273915511;4273911278;4273883780;4273844753;4273879075;4273893139;4273818155;4273886919;4273820510];
[4273811691;4273876745;4273826217;4273843358;4273789115;4273853826;4273846691;4273817634;4273841711;4273776928;4273776297;4273831879;4273830217;4273817848;4273816895;4273795981];
[4273805477;4273731358;4273746978;4273793002;4273777097;4273788593;4273791699;4273767429;4273764351;4273720411;4273760931;4273760567;4273695902;4273758314;4273756000;4273750967];
[4273715319;4273739244;4273740382;4273715505;4273730923;4273665437;4273704199;4273652086;4273681024;4273703120;4273651556;4273705218;4273701048;4273672202;4273650210;4273640279];
[4273672698;4273652206;4273624858;4273646281;4273661416;4273653094;4273603470;4273645692;4273628038;4273643403;4273624889;4273583029;4273577929;4273591455;4273625559;4273619437];
[4273609510;4273601527;4273594611;4273593335;4273591384;4273562238;4273529802;4273588010;4273572625;4273569409;4273573860;4273535411;4273567885;4273491075;4273561275;4273522392];
[4273516245;4273537819;4273503882;4273460882;4273530624;4273530064;4273472522;4273522372;4273520593;4273516543;4273507858;4273452819;4273480486;4273498952;4273467216;4273462245];
[4273487188;4273408597;4273475506;4273400572;4273423677;4273422425;4273389529;4273456563;4273393119;4273383913;4273406669;4273412565;4273362829;4273434398;4273385073;4273422218];
[4273407434;4273395017;4273407563;4273378090;4273358104;4273373640;4273340413;4273391237;4273385401;4273367634;4273371540;4273376404;4273336961;4273307774;4273300344;4273283891];
[4273284911;4273333549;4273334766;4273264956;4273323231;4273326371;4273281255;4273254610;4273308160;4273261740;4273277608;4273273328;4273257635;4273244042;4273234586;4273293958];
[4273269463;4273228618;4273258613;4273265815;4273226849;4273261017;4273194760;4273186916;4273188863;4273177447;4273216340;4273218901;4273172437;4273161394;4273230132;4273188475];
[4273163170;4273194629;4273154647;4273208709;4273205556;4273132696;4273162731;4273137476;4273122100;4273115353;4273117745;4273144440;4273139398;4273102755;4273125792;4273089920];
[4273105036;4273152153;4273124513;4273117758;4273116403;4273059935;4273083279;4273103056;4273054909;4273082382;4273105890;4273066826;4273110591;4273076672;4273034901;4273097937];
[4273036644;4273058021;4273014406;4273082595;4273006464;4273009694;4273069276;4273061680;4273013588;4273054173;4273022034;4273048804;4273021673;4273003966;4272978200;4273023445];
[4272950397;4272986374;4273014727;4272936328;4272957545;4272998568;4272994519;4272993779;4272914773;4272953191;4272978260;4272904239;4272909755;4272904389;4272967703;4272939717];
[4272957132;4272952722;4272888323;4272937662;4272940491;4272932999;4272873275;4272930854;4272872264;4272916592;4272881808;4272889314;4272904474;4272852761;4272859426;4272865287];
[4272891288;4272831122;4272883294;4272871709;4272825083;4272875082;4272812060;4272862732;4272855707;4272806033;4272842744;4272850848;4272830157;4272840447;4272836576;4272829565];
[4272754101;4272775425;4272810462;4272772532;4272805639;4272810937;4272747850;4272743543;4272793284;4272791394;4272786753;4272785045;4272782918;4272753021;4272765081;4272761277];
[4272753186;4272763318;4272689861;4272749802;4272747554;4272688408;4272671082;4272699908;4272724810;4272678671;4272706021;4272715202;4272715789;4272712612;4272691462;4272644579];
[4272697821;4272682100;4272633037;4272656129;4272621882;4272674526;4272610690;4272595433;4272669276;4272607899;4272643220;4272577103;4272579542;4272587320;4272630644;4272626509];
[4272633913;4272625551;4272618100;4272613826;4272545246;4272613295;4272598082;4272585479;4272599317;4272589204;4272592898;4272577465;4272553650;4272580468;4272505122;4272515409];
[4272504334;4272547936;4272548723;4272540021;4272520051;4272536157;4272516928;4272532180;4272519197;4272463446;4272495195;4272521329;4272492253;4272513362;4272493501;4272480016];
[4272461654;4272487117;4272457750;4272446547;4272464830;4272430934;4272461951;4272437031;4272443265;4272458248;4272434976;4272441120;4272434332;4272417612;4272440547;4272370145];
[4272410167;4272428436;4272412813;4272410648;4272412961;4272340649;4272385786;4272392012;4272377677;4272384015;4272379939;4272370623;4272371733;4272351978;4272330821;4272359188];
[4272344947;4272309776;4272331361;4272303140;4272338880;4272334623;4272309781;4272331378;4272317495;4272292334;4272303792;4272299316;4272248653;4272286404;4272277313;4272242539];
[4272252612;4272275105;4272256855;4272243576;4272248250;4272253636;4272269936;4272269919;4272246066;4272242566;4272218409;4272225472;4272245121;4272230698;4272221980;4272240233];
[4272188324;4272210023;4272215828;4272183452;4272212756;4272172452;4272208359;4272185801;4272176931;4272192046;4272173155;4272190590;4272183961;4272127146;4272133118;4272152138];
[4272158856;4272163425;4272148117;4272157866;4272133075;4272143198;4272145774;4272124977;4272065426;4272073204;4272123067;4272108533;4272117927;4272095216;4272101548;4272034725];
[4272082914;4272101201;4272033778;4272079989;4272085901;4272072416;4272058399;4272066094;4272060708;4272068244;4272056696;4272038050;4272049179;4272051842;4272020394;4271986855];
[4272041800;4272028819;4271960634;4271952317;4272000824;4271944239;4272011547;4272007688;4271975943;4271999814;4271998496;4271919383;4271978829;4271983591;4271909901;4271918698];
[4271949275;4271963121;4271938498;4271924198;4271957806;4271953655;4271949416;4271937755;4271905323;4271937244;4271914722;4271862066;4271864236;4271921300;4271903801;4271872452];
[4271897034;4271901876;4271883750;4271874508;4271892571;4271881034;4271881333;4271823025;4271858779;4271801059;4271851263;4271863172;4271852055;4271843601;4271825768;4271846947];
[4271826079;4271839031;4271823072;4271793823;4271819943;4271805454;4271796792;4271773937;4271757212;4271788965;4271774636;4271776193;4271776694;4271767785;4271763452;4271774850];
[4271760307;4271707312;4271693925;4271731997;4271754227;4271745093;4271736182;4271714761;4271708111;4271729013;4271669054;4271699562;4271696039;4271712650;4271693190;4271698459];
[4271685376;4271674923;4271699865;4271682471;4271673379;4271654834;4271654639;4271676522;4271672063;4271642354;4271649305;4271660098;4271651387;4271651986;4271637589;4271627922];
[4271629603;4271630423;4271605411;4271622114;4271622520;4271569989;4271604871;4271594938;4271596732;4271587750;4271583462;4271589958;4271585508;4271570016;4271556696;4271568079];
[4271537049;4271555161;4271554452;4271551540;4271536951;4271548591;4271534479;4271539166;4271536969;4271522431;4271528468;4271528893;4271474694;4271510579;4271506380;4271486746];
[4271508771;4271472768;4271470809;4271485142;4271458437;4271467750;4271473696;4271458766;4271466350;4271461775;4271402231;4271443118;4271429653;4271450912;4271430534;4271432271];
[4271422779;4271409798;4271379887;4271415926;4271401495;4271402160;4271408739;4271389027;4271372343;4271385791;4271371945;4271372068;4271368596;4271364367;4271375952;4271356022];
[4271347648;4271330710;4271326415;4271344613;4271335698;4271323365;4271319015;4271315124;4271306120;4271285402;4271293915;4271302562;4271290246;4271294070;4271281891;4271278133];
[4271258232;4271282196;4271260787;4271273799;4271253260;4271242259;4271253681;4271231558;4271216749;4271245451;4271224904;4271224083;4271197999;4271201580;4271208815;4271191726];
[4271191512;4271199592;4271195473;4271188065;4271191619;4271179998;4271167239;4271157295;4271161850;4271171261;4271167325;4271147186;4271151199;4271146899;4271132922;4271138409];
[4271130904;4271122432;4271123418;4271116553;4271110007;4271111069;4271118557;4271098074;4271110208;4271098329;4271101688;4271101767;4271088735;4271089741;4271089505;4271076782];
[4271065791;4271068461;4271058217;4271060480;4271052740;4271064695;4271024233;4271020324;4271032824;4271032891;4271024546;4271032783;4271031265;4271028325;4271027716;4271024115];
[4271019954;4271011623;4271007271;4271003645;4271008489;4271019354;4270999637;4270983095;4270973237;4270945134;4270988033;4270957563;4270962941;4270976264;4270954516;4270968027];
[4270954575;4270939294;4270970873;4270961378;4270917924;4270948061;4270944258;4270951008;4270951010;4270950627;4270906516;4270942716;4270935067;4270876632;4270921537;4270866998];
[4270925539;4270905184;4270900863;4270896601;4270892683;4270840064;4270884237;4270889905;4270892780;4270876901;4270873223;4270873035;4270845939;4270874393;4270815215;4270866185];
[4270859472;4270848727;4270835088;4270849932;4270796158;4270833072;4270840673;4270820124;4270824174;4270807050;4270797638;4270757678;4270794289;4270743919;4270763535;4270795472];
[4270765998;4270792006;4270714004;4270782264;4270777624;4270718225;4270758759;4270709151;4270758712;4270686808;4270735725;4270697844;4270750220;4270738056;4270737094;4270726258];
[4270717491;4270713883;4270695165;4270716665;4270714995;4270705425;4270670584;4270660216;4270641309;4270689196;4270615606;4270680468;4270676872;4270630918;4270660372;4270669145];
[4270663193;4270656031;4270601583;4270577372;4270650485;4270636128;4270634976;4270621189;4270634788;4270609836;4270575237;4270602728;4270606653;4270610185;4270595155;4270598725];
[4270534266;4270525724;4270558439;4270537118;4270577438;4270568620;4270566239;4270556272;4270510646;4270539360;4270539222;4270552434;4270501906;4270491589;4270543555;4270517046];
[4270511485;4270516699;4270526912;4270457417;4270469789;4270515420;4270511493;4270505959;4270505074;4270497796;4270435213;4270457849;4270418586;4270411260;4270417968;4270474898];
[4270413688;4270442108;4270431360;4270380401;4270453071;4270416967;4270374635;4270441514;4270424270;4270411832;4270378326;4270378427;4270362127;4270377192;4270344287;4270360000];
[4270331332;4270327494;4270350299;4270319153;4270350055;4270340293;4270332784;4270359342;4270308399;4270293909;4270352714;4270327118;4270321517;4270327882;4270275292;4270294151];
[4270281207;4270338340;4270293265;4270323175;4270244675;4270304877;4270250756;4270246472;4270262462;4270225047;4270231914;4270229250;4270251732;4270288943;4270269732;4270216769];
[4270242727;4270234529;4270225975;4270183251;4270259694;4270209536;4270250958;4270166033;4270181644;4270239239;4270235871;4270218920;4270202306;4270217859;4270215702;4270155619];
[4270137145;4270160964;4270159800;4270167366;4270165699;4270190154;4270187019;4270120228;4270161571;4270110403;4270169188;4270131790;4270122730;4270118875;4270087448;4270147147];
[4270143140;4270076753;4270059165;4270056024;4270077534;4270097655;4270110063;4270037001;4270040106;4270079493;4270038174;4270058375;4270076217;4270074436;4270085360;4270015576];
[4270078303;4270029024;4270072124;4270004717;4270036709;4270007971;4270048535;4270017333;4269973311;4269979935;4269961121;4269966732;4270030318;4269946073;4270022805;4269955683];
[4269951001;4270009765;4270006535;4269999750;4269939433;4269915161;4269968967;4269916159;4269981080;4269973780;4269971203;4269911689;4269942153;4269960249;4269882984;4269931839];
[4269948691;4269944666;4269938403;4269863478;4269863851;4269880607;4269856170;4269850041;4269834563;4269830212;4269908292;4269844068;4269866636;4269824328;4269840434;4269872223];
[4269882292;4269827969;4269812478;4269850753;4269866754;4269853082;4269815739;4269776643;4269783562;4269799648;4269795164;4269777832;4269833536;4269829141;4269770198;4269742192];
[4269816621;4269733475;4269754120;4269805506;4269801478;4269754883;4269792625;4269730727;4269765194;4269699903;4269698859;4269723899;4269693032;4269763427;4269756226;4269700366];
[4269745754;4269673205;4269674509;4269735881;4269668099;4269720609;4269674063;4269646100;4269652270;4269715202;4269633295;4269704667;4269672609;4269625386;4269629941;4269667037];
[4269639490;4269615277;4269619290;4269656042;4269601013;4269643256;4269598995;4269592836;4269572205;4269649106;4269645248;4269579160;4269558047;4269566165;4269568671;4269573309];
[4269558834;4269566103;4269566349;4269557832;4269525093;4269530002;4269592592;4269524133;4269512386;4269518057;4269577779;4269538148;4269513586;4269488415;4269498735;4269516146];
[4269543992;4269551014;4269477528;4269474258;4269465305;4269462447;4269477017;4269445994;4269470852;4269517151;4269448821;4269430394;4269440882;4269443309;4269452542;4269495004];
[4269422644;4269421956;4269475759;4269435845;4269432808;4269416171;4269397235;4269421345;4269379307;4269378494;4269392608;4269367295;4269428724;4269368477;4269392554;4269380750];
[4269354206;4269339002;4269376828;4269365178;4269329677;4269359513;4269331145;4269326588;4269313925;4269341937;4269363333;4269311598;4269336749;4269320037;4269312804;4269337765];
[4269284492;4269278817;4269283261;4269267709;4269264570;4269270569;4269263930;4269271301;4269284006;4269282505;4269237917;4269280255;4269240506;4269284863;4269224985;4269220495];
[4269233594;4269209187;4269246437;4269233382;4269206337;4269257651;4269187610;4269192424;4269221973;4269175615;4269208023;4269177189;4269183139;4269178706;4269185571;4269157794];
[4269159908;4269156001;4269147988;4269160814;4269188529;4269137624;4269158601;4269123453;4269127957;4269117883;4269111678;4269111763;4269120529;4269102415;4269124058;4269111276];
[4269134553;4269094471;4269076230;4269122691;4269074976;4269060300;4269059096;4269098059;4269067467;4269084813;4269053810;4269078499;4269057264;4269043224;4269039401;4269026401];
[4269059167;4269075432;4269036863;4269032559;4269040234;4269020495;4268999991;4269040241;4269005051;4269026232;4269028749;4269019868;4269016127;4268997620;4268972572;4268996616];
[4268958419;4269003108;4268960577;4268937537;4268940896;4268945661;4268930848;4269001794;4268926195;4268939112;4268937154;4268917189;4268935715;4268899746;4268928276;4268916865];
[4268955323;4268890845;4268887320;4268881143;4268907005;4268876576;4268915441;4268923045;4268927641;4268854599;4268860956;4268842678;4268845571;4268853097;4268867647;4268825178];
[4268838536;4268872838;4268812517;4268821916;4268820460;4268804090;4268853490;4268809654;4268809030;4268824576;4268777497;4268855679;4268803984;4268838015;4268772408;4268765350];
[4268767425;4268758783;4268761976;4268808785;4268817804;4268754011;4268738021;4268775112;4268721219;4268749219;4268735497;4268723367;4268722440;4268739101;4268748832;4268712210];
[4268723338;4268734004;4268685572;4268719095;4268705245;4268692108;4268743475;4268717760;4268698018;4268716254;4268657462;4268643539;4268642020;4268640559;4268698692;4268660433];
[4268684106;4268631481;4268616313;4268631145;4268607761;4268660102;4268621681;4268599937;4268644944;4268603083;4268590169;4268591759;4268580064;4268612246;4268611132;4268567684];
[4268576899;4268572722;4268587352;4268583588;4268540437;4268600403;4268532698;4268536114;4268536798;4268547324;4268542862;4268566692;4268518780;4268517876;4268568517;4268521677];
[4268494843;4268538783;4268505957;4268498291;4268518785;4268470489;4268492293;4268466003;4268474050;4268497368;4268450133;4268460187;4268469591;4268437777;4268486543;4268436053];
[4268425495;4268429069;4268417695;4268426630;4268432676;4268413972;4268413989;4268429003;4268429074;4268418950;4268399134;4268404100;4268414863;4268376439;4268369668;4268372522];
[4268367253;4268362533;4268357715;4268372177;4268345175;4268351493;4268347427;4268347167;4268379820;4268335981;4268333085;4268322423;4268311061;4268319673;4268313900;4268358276];
[4268315327;4268314345;4268296723;4268287836;4268340182;4268338576;4268311531;4268280343;4268280223;4268291576;4268270535;4268264750;4268298276;4268283577;4268319220;4268262055];
[4268270866;4268297881;4268282852;4268231051;4268227067;4268235709;4268234355;4268213927;4268228488;4268202335;4268212439;4268183643;4268200490;4268228180;4268178015;4268176561];
[4268176520;4268194618;4268236379;4268155461;4268206313;4268225043;4268160047;4268136309;4268169456;4268182828;4268135710;4268122711;4268196279;4268151241;4268149427;4268117063];
[4268144677;4268159995;4268130361;4268091785;4268092200;4268123283;4268108108;4268097549;4268112261;4268076171;4268105837;4268101087;4268050724;4268108748;4268071207;4268079751];
[4268113904;4268090052;4268027554;4268037819;4268034382;4268054964;4268089062;4268025009;4268041891;4268031505;4268006720;4268068525;4268013495;4268028424;4268055979;4267988047];
[4268000353;4268043825;4268001368;4268012561;4267968661;4267955237;4267967963;4268020400;4267964294;4267942309;4267943943;4267948038;4267978115;4267939735;4267918643;4267941038];
[4267901155;4267920342;4267912706;4267888934;4267944673;4267884699;4267949841;4267954967;4267937706;4267912367;4267889037;4267908412;4267933669;4267876119;4267845780;4267888040];
[4267890266;4267888109;4267884487;4267836784;4267882016;4267815234;4267854024;4267888818;4267822168;4267879876;4267826980;4267794940;4267819544;4267825741;4267816897;4267820650];
[4267804616;4267845067;4267841461;4267838772;4267836058;4267787477;4267758613;4267744706;4267779472;4267741571;4267747425;4267789332;4267737932;4267731789;4267766169;4267735772];
[4267709008;4267755780;4267775076;4267773956;4267722930;4267759135;4267725220;4267757434;4267736069;4267685609;4267742847;4267660902;4267669318;4267731467;4267725597;4267668755];
[4267720346;4267716706;4267634479;4267707920;4267631955;4267626544;4267645113;4267689141;4267688286;4267682276;4267679109;4267673857;4267649194;4267593775;4267604441;4267635426];
[4267653873;4267583666;4267640853;4267615483;4267577372;4267591059;4267567384;4267561225;4267540594;4267560701;4267613684;4267604934;4267547544;4267546031;4267565184;4267585660];
[4267585258;4267585637;4267524848;4267574695;4267566649;4267562629;4267562499;4267496075;4267555720;4267477916;4267547640;4267490779;4267516191;4267493597;4267529876;4267475589];
[4267524189;4267517605;4267470557;4267511852;4267503559;4267504110;4267486873;4267495881;4267411887;4267486419;4267417971;4267442744;4267420068;4267471144;4267400554;4267381313];
[4267428372;4267453835;4267399432;4267439750;4267441912;4267382445;4267423370;4267390604;4267357395;4267381972;4267357914;4267369198;4267395683;4267340034;4267336955;4267397549];
[4267349892;4267338577;4267337863;4267330665;4267375972;4267311718;4267352979;4267363457;4267316538;4267309683;4267351017;4267312336;4267268030;4267327064;4267259831;4267330980];
[4267285314;4267267306;4267288161;4267235752;4267297436;4267306412;4267292374;4267253533;4267273495;4267217835;4267285116;4267226210;4267248237;4267241639;4267213775;4267235656];
[4267261853;4267187676;4267213155;4267192374;4267177860;4267169654;4267166114;4267203770;4267213906;4267184841;4267207954;4267200288;4267196014;4267209098;4267162874;4267171975];
[4267195023;4267165726;4267128459;4267158782;4267116029;4267098754;4267117179;4267091660;4267101071;4267082166;4267155713;4267151235;4267087469;4267111905;4267067637;4267114802];
[4267121686;4267076401;4267111962;4267115912;4267114521;4267071249;4267106071;4267056893;4267097771;4267094166;4267051009;4267028429;4267007175;4267043794;4267026254;4267029320];
[4267035437;4267061447;4267014801;4267009935;4267006319;4266965644;4267038156;4267037022;4266965605;4267025987;4267024509;4266964103;4267015000;4267011916;4267006660;4267001459];
[4266924122;4266994907;4266944274;4266929216;4266932814;4266904295;4266920642;4266946618;4266894656;4266928043;4266890693;4266877190;4266913215;4266878820;4266932682;4266938196];
[4266868894;4266856476;4266848218;4266898127;4266891749;4266912892;4266879016;4266881497;4266901448;4266875627;4266822532;4266888028;4266884576;4266808705;4266845465;4266805447];
[4266790241;4266864210;4266830276;4266782386;4266850574;4266821270;4266842475;4266830297;4266773761;4266831409;4266821145;4266822830;4266818812;4266780684;4266743457;4266804683];
[4266799080;4266783846;4266746576;4266740692;4266768618;4266743843;4266730237;4266697766;4266770554;4266739452;4266737998;4266758859;4266735710;4266686247;4266725459;4266693070];
[4266710617;4266660642;4266726748;4266700438;4266695034;4266647650;4266664889;4266662183;4266630683;4266696328;4266670651;4266691418;4266668716;4266683690;4266604283;4266632238];
[4266672003;4266609242;4266640901;4266659742;4266651485;4266649131;4266645374;4266639590;4266635524;4266631213;4266628633;4266605382;4266618447;4266579679;4266610464;4266607335];
[4266602534;4266554233;4266594126;4266591624;4266589039;4266584879;4266509699;4266526322;4266566942;4266563012;4266513832;4266558861;4266551256;4266550637;4266539580;4266527496];
[4266538174;4266530270;4266528056;4266521841;4266517899;4266490828;4266509573;4266477781;4266498281;4266428545;4266437076;4266494401;4266484968;4266431293;4266478937;4266413215];
[4266471161;4266468095;4266414147;4266460782;4266454797;4266448019;4266449689;4266425561;4266436354;4266428705;4266368844;4266408615;4266423722;4266419291;4266413821;4266406949];
[4266354659;4266403169;4266361428;4266392493;4266386706;4266316408;4266317870;4266349757;4266330225;4266369424;4266355019;4266328869;4266281083;4266357101;4266348822;4266267054];
[4266309406;4266277552;4266336649;4266321114;4266318593;4266321820;4266297848;4266277694;4266248656;4266297021;4266301072;4266230098;4266294256;4266234243;4266232718;4266234928];
[4266225719;4266275176;4266270860;4266187823;4266228189;4266182590;4266219067;4266237432;4266246359;4266175856;4266197198;4266233955;4266174341;4266166109;4266145603;4266160432];
[4266159553;4266141848;4266129326;4266121407;4266139993;4266117877;4266109580;4266114221;4266116040;4266096991;4266123807;4266086738;4266111028;4266127530;4266084926;4266092442];
[4266080383;4266073128;4266085080;4266083695;4266052760;4266094012;4266042495;4266039636;4266041878;4266030949;4266040490;4266023613;4266034279;4266013495;4266020419;4266017147];
[4266026114;4266053914;4266007571;4266006593;4266009792;4265991815;4266043729;4265983781;4265976358;4265972723;4265963061;4265965397;4265951877;4265952865;4265954995;4265944965];
[4265950362;4265944256;4265932539;4265943236;4265923585;4265921716;4265934452;4265943860;4265912364;4265928104;4265921995;4265906668;4265906229;4265902871;4265899529;4265888178];
[4265884652;4265881106;4265884057;4265862178;4265867844;4265851402;4265860097;4265852740;4265861654;4265870535;4265845745;4265836914;4265825628;4265844838;4265819853;4265823166];
[4265814890;4265820322;4265818392;4265797274;4265802519;4265793979;4265793582;4265782781;4265772718;4265780948;4265762888;4265760827;4265765230;4265768485;4265768619;4265750964];
[4265739095;4265734540;4265746956;4265734645;4265739906;4265738285;4265725232;4265710930;4265724046;4265717237;4265713986;4265703837;4265706227;4265689272;4265680896;4265678725];
[4265680177;4265668608;4265676252;4265682312;4265656320;4265663663;4265670858;4265644032;4265652467;4265635951;4265632014;4265641999;4265626155;4265636614;4265629960;4265614342];
[4265615022;4265603376;4265599025;4265595248;4265593824;4265592520;4265584248;4265578795;4265576265;4265570304;4265566412;4265562557;4265559509;4265553920;4265549824;4265545728];
[4265541936;4265537585;4265535073;4265539904;4265531611;4265543165;4265518506;4265517632;4265508954;4265507965;4265502288;4265498705;4265494796;4265499438;4265501493;4265480455];
[4265480769;4265492721;4265488998;4265465425;4265460557;4265457933;4265453786;4265463628;4265449509;4265441811;4265457109;4265436920;4265435604;4265424463;4265427495;4265437574];
[4265432861;4265428601;4265408785;4265399084;4265398040;4265411130;4265392027;4265382743;4265393083;4265376798;4265381225;4265390090;4265365628;4265372528;4265354686;4265367808];
[4265357188;4265343094;4265358294;4265356743;4265342567;4265343818;4265344670;4265341093;4265316309;4265326150;4265317284;4265324528;4265320670;4265291776;4265296238;4265296764];
[4265279578;4265295996;4265297590;4265267200;4265281980;4265268559;4265255762;4265267415;4265268395;4265254516;4265259186;4265236950;4265244825;4265242661;4265241570;4265233068];
[4265233099;4265210197;4265224945;4265204619;4265209499;4265207462;4265191214;4265186314;4265201926;4265178022;4265182128;4265179964;4265164800;4265178632;4265166716;4265152731];
[4265154184;4265152695;4265159861;4265139873;4265144067;4265150398;4265131543;4265128733;4265136507;4265114771;4265129817;4265104506;4265117098;4265103117;4265103665;4265108212];
[4265083665;4265099938;4265075506;4265074111;4265081429;4265068354;4265071773;4265055797;4265068604;4265048060;4265053826;4265047422;4265035558;4265037575;4265034734;4265025072];
[4265036843;4265027465;4265014876;4265022968;4265023099;4265012373;4265009239;4265009056;4265001218;4264996835;4264980194;4264980163;4264974657;4264974375;4264960499;4264962858];
[4264974151;4264961824;4264952008;4264961263;4264953648;4264934535;4264943117;4264948702;4264924189;4264929855;4264932943;4264909645;4264920083;4264925040;4264911304;4264903192];
[4264898925;4264882181;4264889594;4264881864;4264887137;4264873618;4264877498;4264859031;4264859285;4264855131;4264845587;4264855593;4264839622;4264834729;4264847949;4264842331];
[4264834146;4264818684;4264814156;4264817268;4264804777;4264800256;4264813425;4264802356;4264789847;4264802990;4264791519;4264776127;4264772941;4264767488;4264779248;4264773411];
[4264755200;4264752724;4264762189;4264743040;4264740736;4264734973;4264730819;4264727036;4264722882;4264718336;4264729739;4264729469;4264706263;4264711491;4264698017;4264694025];
[4264698902;4264685568;4264702919;4264687115;4264674979;4264686423;4264665092;4264660992;4264656896;4264652871;4264648704;4264644608;4264642421;4264636416;4264645769;4264628315];
[4264624724;4264637519;4264618435;4264611923;4264607846;4264604162;4264625809;4264597626;4264592877;4264596578;4264584816;4264580288;4264574976;4264570880;4264566885;4264565820];
[4264560745;4264554496;4264550464;4264546310;4264542208;4264539731;4264535577;4264529920;4264528513;4264524359;4264519662;4264528508;4264509447;4264505729;4264501575;4264497152];
[4264494186;4264490032;4264484870;4264483736;4264476672;4264472795;4264489008;4264464384;4264460288;4264456898;4264453169;4264449015;4264462144;4264439908;4264445719;4264434479];
[4264427520;4264424971;4264420206;4264415232;4264412084;4264407267;4264410949;4264418789;4264395046;4264390693;4264386560;4264382464;4264383056;4264374272;4264371067;4264366080];
[4264364339;4264365818;4264355057;4264351750;4264345827;4264342468;4264337408;4264333606;4264332631;4264345283;4264321346;4264328217;4264321854;4264309064;4264305558;4264300936];
[4264299512;4264293571;4264289936;4264284436;4264282260;4264278106;4264271872;4264270306;4264266152;4264259584;4264255868;4264251714;4264249472;4264257714;4264239432;4264256117];
[4264252899;4264226872;4264241326;4264223320;4264243101;4264239098;4264207826;4264203648;4264217701;4264195237;4264190075;4264187569;4264186457;4264179830;4264174148;4264171113];
[4264167014;4264177845;4264158143;4264156212;4264150526;4264146536;4264145488;4264139308;4264161227;4264152017;4264148922;4264149055;4264119965;4264113135;4264108781;4264104981];
[4264103728;4264098685;4264097715;4264088431;4264104348;4264082486;4264075264;4264071847;4264085638;4264063964;4264063901;4264055127;4264072156;4264061344;4264057090;4264039920];
[4264058654;4264032548;4264027033;4264022879;4264021149;4264037834;4264010136;4264005642;4264002294;4263997440;4263995685;4263992002;4263986016;4263981862;4263977074;4263980767];
[4263992295;4263966469;4263961032;4263979823;4263968237;4263949123;4263956339;4263941099;4263942078;4263933615;4263927808;4263925468;4263919792;4263915520;4263913577;4263907328];
[4263904895;4263899670;4263895124;4263891016;4263909110;4263883084;4263881136;4263878618;4263870547;4263875841;4263885750;4263860327;4263856559;4263850562;4263846828;4263843944];
[4263837696;4263833600;4263829586;4263825985;4263823446;4263817216;4263816036;4263811882;4263804928;4263801457;4263797303;4263792640;4263791600;4263787446;4263780751;4263791555];
[4263775376;4263772802;4263768648;4263759872;4263760201;4263756047;4263747817;4263743663;4263739392;4263735341;4263731277;4263727104;4263723008;4263721345;4263714872;4263712413];
[4263730435;4263703852;4263703005;4263716022;4263690240;4263693551;4263682907;4263677952;4263678099;4263669968;4263673650;4263672226;4263657747;4263653429;4263649280;4263645184];
[4263645757;4263636992;4263634465;4263628800;4263624844;4263639661;4263616536;4263612623;4263608469;4263604315;4263600128;4263596307;4263615931;4263595716;4263591562;4263587408];
[4263577730;4263571765;4263567414;4263563637;4263562213;4263560909;4263552637;4263547184;4263558499;4263538935;4263534592;4263530521;4263526409;4263522304;4263520071;4263515917];
[4263533945;4263513614;4263504833;4263519346;4263518247;4263491931;4263486895;4263486021;4263506599;4263502304;4263471122;4263467094;4263480705;4263467827;4263455087;4263450558];
[4263449158;4263442531;4263440794;4263433814;4263453118;4263441209;4263420844;4263441020;4263413983;4263409237;4263428703;4263401394;4263425012;4263417376;4263387995;4263406120];
[4263382666;4263375665;4263371482;4263367473;4263393130;4263359463;4263360416;4263351132;4263347550;4263345187;4263337984;4263335532;4263333634;4263326555;4263326602;4263317828];
[4263335581;4263309407;4263316016;4263311436;4263297454;4263295249;4263292890;4263292956;4263284698;4263294539;4263278331;4263270726;4263272968;4263260160;4263258386;4263254703];
[4263247967;4263244140;4263239775;4263237835;4263253456;4263240227;4263225246;4263243232;4263230938;4263211824;4263219040;4263206127;4263212998;4263202507;4263206256;4263201457];
[4263201488;4263178586;4263176278;4263173008;4263177888;4263164177;4263159910;4263155756;4263173456;4263147298;4263143837;4263162054;4263133518;4263149744;4263140441;4263122968];
[4263130337;4263137313;4263133930;4263130441;4263112456;4263102593;4263111124;4263120040;4263114095;4263083160;4263093926;4263094728;4263070036;4263065219;4263076214;4263059953];
[4263051798;4263056554;4263053592;4263054578;4263056357;4263057001;4263029708;4263024186;4263042835;4263018984;4263042355;4263021619;4263003947;4263005964;4263020866;4262993461];
[4262995797;4263005649;4263000543;4263004633;4262979177;4262980762;4262978993;4262961388;4262955131;4262949973;4262955110;4262941102;4262950293;4262951273;4262928888;4262953813];
[4262936249;4262948341;4262920397;4262929652;4262935835;4262902924;4262927552;4262897794;4262892578;4262898244;4262885371;4262878034;4262873335;4262869652;4262879693;4262879542];
[4262875017;4262850570;4262857983;4262895628;4262862168;4262847881;4262845887;4262843333;4262841990;4262829835;4262837702;4262826186;4262826008;4262803118;4262803374;4262793288];
[4262791227;4262787073;4262782545;4262785657;4262789779;4262768675;4262791661;4262785681;4262758786;4262775701;4262780269;4262768918;4262760088;4262761031;4262747637;4262759753];
[4262724058;4262725037;4262738753;4262711296;4262730503;4262705232;4262699550;4262708390;4262713075;4262689532;4262701710;4262701912;4262676684;4262696429;4262668355;4262687151];
[4262680168;4262680141;4262668415;4262670683;4262645367;4262639518;4262634183;4262633697;4262629130;4262621313;4262623117;4262613833;4262631683;4262607888;4262600704;4262598995];
[4262612283;4262590063;4262584491;4262580529;4262577873;4262597537;4262570924;4262571201;4262585950;4262557950;4262555749;4262551595;4262547399;4262549876;4262559636;4262531079];
[4262527090;4262522880;4262521087;4262517404;4262512115;4262507961;4262502476;4262498304;4262514022;4262515223;4262486016;4262483182;4262479326;4262474525;4262475426;4262468040];
[4262466579;4262467774;4262468957;4262464158;4262464189;4262441287;4262438979;4262435709;4262440589;4262426878;4262422171;4262416384;4262415729;4262408192;4262404096;4262402238];
[4262395904;4262392268;4262390092;4262383821;4262379839;4262383785;4262395241;4262369581;4262389311;4262365294;4262362633;4262359823;4262356708;4262345861;4262356627;4262335596];
[4262332737;4262327480;4262324050;4262322654;4262314499;4262311464;4262306596;4262302442;4262298494;4262299444;4262291633;4262287479;4262299694;4262279044;4262298430;4262278512];
[4262266648;4262268665;4262265824;4262256162;4262258498;4262244978;4262245966;4262248096;4262238066;4262243463;4262237357;4262222837;4262217832;4262211905;4262231504;4262203803];
[4262199440;4262212750;4262191589;4262193948;4262209408;4262192914;4262183098;4262192353;4262181279;4262165625;4262174207;4262174949;4262171341;4262160945;4262144503;4262140735];
[4262136036;4262132353;4262142394;4262121790;4262130015;4262115690;4262120684;4262112954;4262116267;4262104708;4262108588;4262090121;4262090375;4262086221;4262100656;4262094336];
[4262092763;4262088280;4262083173;4262078539;4262053928;4262049774;4262067399;4262062468;4262039649;4262031360;4262027641;4262023487;4262019072;4262023781;4262013033;4262007217];
[4262004031;4262000887;4262016480;4262005369;4262001804;4261986837;4261997036;4262000989;4261994179;4261992294;4261985359;4261981933;4261955967;4261953126;4261969344;4261963289];
[4261937152;4261942581;4261933449;4261944841;4261934579;4261917391;4261932237;4261935875;4261932065;4261924946;4261904043;4261898141;4261914533;4261910668;4261909561;4261896504];
[4261895570;4261890641;4261879085;4261885810;4261880877;4261876788;4261872742;4261868986;4261851533;4261837786;4261832781;4261849366;4261847911;4261818752;4261833629;4261820414];
[4261817175;4261831745;4261824599;4261815751;4261819344;4261812053;4261805095;4261799271;4261798993;4261798272;4261771290;4261784204;4261764960;4261755298;4261763721;4261747302];
[4261757343;4261755401;4261744964;4261740810;4261740198;4261740932;4261741230;4261727626;4261734448;4261727536;4261724882;4261720991;4261713424;4261713494;4261708102;4261704913];
[4261701077;4261676870;4261692343;4261664761;4261681947;4261654970;4261676648;4261663356;4261670786;4261664959;4261649114;4261638730;4261646335;4261642464;4261618980;4261614826];
[4261625287;4261629971;4261615296;4261598763;4261619180;4261589310;4261586775;4261582621;4261576704;4261573075;4261568921;4261564767;4261560486;4261572819;4261555125;4261550034];
[4261545880;4261540064;4261563778;4261533291;4261527635;4261537348;4261519360;4261530596;4261526962;4261507072;4261504072;4261498880;4261494784;4261494782;4261486819;4261482496];
[4261480620;4261477177;4261470208;4261467932;4261462016;4261457962;4261455343;4261449728;4261446569;4261443466;4261437440;4261433980;4261429248;4261425152;4261421391]]%N.
(* src/hash_offsets.rs:1-1026 PERF_HASH_OFFSETS : [u32; 8191] *)
Definition PERF_HASH_OFFSETS : list N := List.concat (PERF_HASH_OFFSETS_0 ++ PERF_HASH_OFFSETS_1).
