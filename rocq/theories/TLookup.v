(* Generated by tools/gen_tables.py: a literal transcription, no computation. *)
From Coq Require Import List NArith ZArith String.
Import ListNotations.
Local Open Scope N_scope.
Definition LOOKUP_0 : list (list N) := [
[32773;16703;32814;32850;16403;12330;32850;28698;28723;12294;32850;16720;12521;32774;9705;32801];
[9125;32775;10015;28733;32826;10024;32799;12399;16563;8540;12400;32774;8808;9142;16785;32774];
[4131;12460;16790;32787;8540;28746;8243;32798;28687;12463;28721;10349;32776;16486;4133;10028];
[12332;28698;32775;9417;28679;9117;10349;28679;12509;28709;32826;16497;12320;12400;12617;8875];
[32813;28697;4458;8555;16737;9133;28735;12366;16642;12342;4463;4101;16807;8256;28686;10342];
[32801;4177;28691;32850;10012;20483;28735;28735;16413;12584;4226;28762;12679;12367;12667;16643];
[8234;28725;32777;16493;32776;8536;8274;12679;8851;4435;9179;16583;12512;16973;28757;10099];
[10663;9744;28674;28721;12644;32803;8262;12296;16823;28716;8290;16478;16745;28735;8613;10349];
[32843;4421;12714;4624;12714;10066;8613;12714;12596;16816;4624;16429;28770;12416;12585;17045];
[12571;28769;10606;12477;17045;12703;28712;28770;28722;12585;16424;8811;32803;12628;16744;12494];
[16821;32825;9779;4614;16587;32849;12345;32855;12656;12453;16981;28677;16509;16667;12391;4468];
[12333;28698;28740;32776;4238;10108;32843;28738;12713;12473;28688;10041;10012;8611;10008;12309];
[20484;12679;16743;12333;10688;16485;28736;12462;10688;16551;20482;32855;28710;9415;16509;28674];
[12775;8193;12763;4624;12775;16726;28702;32836;9988;9744;28697;10712;28735;16807;9416;28724];
[32843;12633;12319;12450;32857;28674;28717;8927;32787;12461;28678;32857;9163;28717;8332;4295];
[12358;28770;28677;12585;32803;9761;9814;12428;12810;16512;8791;12735;32777;8556;32783;4878];
[12741;12621;12729;11005;28693;11005;10905;10042;11005;12799;28679;8272;20484;12562;8557;10140];
[32804;10895;8876;12668;32801;16640;8323;28680;12753;12356;28713;12406;12752;12547;12379;4865];
[12459;9180;28690;16665;12394;12358;28741;8235;28736;9492;4957;28690;16755;12322;20484;9785];
[16754;16821;28685;28680;32826;4578;4287;12728;10987;28713;28714;4885;32855;32830;16593;28689];
[32830;16430;28781;28680;12442;10444;4467;12358;32812;28679;12634;20487;28761;8322;8606;12293];
[16588;32803;9172;8312;12322;17117;10749;12454;16385;12536;8795;10088;12646;32797;32785;8367];
[8658;28764;12821;8367;5065;16676;12693;16879;32775;9997;5050;5065;28745;12548;16981;16677];
[16954;9128;20483;32801;8229;16667;12511;8660;9804;28726;10594;12701;28758;32789;5074;28699];
[12391;16440;17130;32831;16808;32776;9732;28775;8537;32818;10749;28781;12747;9450;12490;12514];
[32792;16667;12330;12606;32777;4316;28725;9839;12692;32778;4579;10107;32805;12298;17045;12580];
[12382;32818;32890;28722;28774;9526;4250;12724;32890;8576;10756;10756;12610;32857;28717;16835];
[10756;28717;12334;9451;5075;16588;12778;12730;12397;28705;28771;9463;28771;16500;11022;28775];
[10008;32787;16594;28788;5051;16834;12716;28717;9517;12462;28714;16830;8950;12883;8966;9174];
[32792;16504;10064;28702;28723;16426;32890;28742;12329;12487;28690;28742;28783;16812;10756;12872];
[8368;4545;11275;8581;12658;28701;12742;12453;8555;12681;8952;12895;12879;16436;10892;12797];
[9562;28693;4901;8229;28674;28710;12861;12381;12645;12428;12861;12893;28676;28694;28788;12867];
[12586;12861;28771;32882;28816;28688;28776;4212;8661;12595;9254;28769;12788;11310;9553;9176];
[4879;28733;20483;8963;32858;12872;10071;12346;32870;28734;32858;32769;17062;8676;5172;32791];
[8667;5183;12916;28674;12929;16485;16519;12419;12892;28747;16405;5100;28680;5065;16519;4878];
[28674;9786;12850;16816;12461;8991;12357;4151;10466;12560;9581;32837;12784;28694;12307;12873];
[11258;16491;12447;9810;11347;12838;12407;10130;32858;32857;11282;28697;16654;28783;16844;9729];
[16593;16684;5340;28710;32816;10729;5341;8359;12754;5356;12754;28706;28725;5341;5356;4664];
[12906;16756;5262;9597;8317;9291;28827;12587;17411;32780;8697;32819;12883;28704;12885;28776];
[8347;10768;9897;9264;8402;10444;12347;12368;28704;16667;32780;5244;8995;12718;16999;11055];
[32796;32772;8496;28682;12465;16584;28694;12514;28710;20484;32786;12823;28763;32845;8397;11219];
[16450;16519;12821;8297;5449;32801;4161;12862;12941;28703;12941;16406;12849;12941;12933;12443];
[12734;28713;28694;10459;9844;16793;28680;12868;28711;5442;5458;20482;12335;9818;28794;12330];
[28793;5457;28794;28714;12461;8982;32855;5342;9856;12642;12311;28763;16687;28798;28725;12319];
[4857;12659;12928;8839;28734;12310;8413;9151;5113;5065;32856;28698;20488;9608;5261;9580];
[12451;11310;32806;10770;10757;12934;32828;10197;32866;10490;16993;28795;28795;32777;4304;9310];
[4881;28705;17215;9600;8875;28705;17181;12730;12842;9584;32777;10053;28712;12464;28689;17411];
[8414;16763;28725;8712;32895;9617;8358;5539;12755;9617;16449;9291;17072;16529;28675;32868];
[9915;8928;12392;9292;12503;32792;9001;10173;16846;28725;12873;9319;16767;9992;12347;11101];
[17215;16756;9319;12647;12443;32832;12731;11310;12450;16528;12731;32877;12309;11050;10795;12383];
[16507;16528;16767;12802;9889;8722;16428;12311;28716;16530;28679;16964;17070;28799;10215;12371];
[16429;9310;8875;12929;12597;16886;5494;5614;5614;5614;4157;28676;8722;5578;16846;8696];
[28774;8321;8710;12413;12838;12448;4186;11069;10795;28790;10976;12418;28794;12701;9143;32793];
[28674;28736;12826;12850;32802;4232;16764;12431;16450;28776;32814;9319;28796;9021;10461;12299];
[28706;32793;28706;32773;4109;12339;9302;12311;16846;16755;12692;28673;4214;10107;8605;28686];
[16575;32788;10802;32870;28797;32830;32829;5110;28777;16592;28686;32817;32854;28709;12335;12323];
[28697;28781;20486;12679;12791;32933;8704;12659;32871;12707;16605;5658;12622;5658;12659;32823];
[5658;9321;20483;5419;32901;32901;28697;9005;4781;28699;28778;28724;12496;32871;28721;8691];
[12437;12418;32819;8299;28794;28745;28740;12941;8365;9184;28763;9893;28701;28784;28735;12539];
[8424;28793;32871;28770;16993;10400;8201;17160;12339;12439;28763;8414;11094;9534;5435;10815];
[17161;12797;28773;17003;32806;5211;9724;28705;17083;32894;32828;8957;8417;12755;12296;28677];
[32856;12546;17131;9320;8419;28747;12347;32838;11101;32806;5459;12887;12839;4205;12788;12851];
[9883;12887;32792;11364;32868;5101;16737;10725;16404;32845;28724;10697;12875;12537;28733;8695];
[16412;17129;12441;12875;8693;28689;12356;12775;8637;10748;12380;12755;28699;12298;32773;16471];
[28769;17411;8424;32907;12779;12368;4484;8666;28776;32932;12634;12851;17001;9853;12946;12887];
[5486;28694;11058;5491;12503;28694;16648;12367;28752;10458;32806;10471;17411;12454;11101;4749];
[5484;12742;16392;28706;12339;8313;13003;12741;16513;16664;11048;12803;11360;32900;16679;16445];
[16427;28711;9507;10407;28743;16563;12992;5592;9574;28798;12992;28743;20485;4175;11574;12851];
[17215;12381;12705;9308;13015;12998;12946;12706;28713;32776;8534;16925;8957;32804;4650;16873];
[32776;4211;12701;12981;13013;12764;12969;32806;12987;28739;12981;11024;13003;5412;32880;28712];
[28771;32850;16656;16877;28726;28695;32842;10023;10395;12754;12318;8296;8584;11047;12992;12692];
[9265;28778;28713;12413;11101;28705;9152;4097;10709;12814;12431;12594;28794;12885;17146;5240];
[13049;9717;4733;12334;16805;12827;13005;28719;9770;32831;12556;12958;28695;12800;12982;16570];
[12717;32839;28736;28716;32790;9027;12970;32859;28710;32794;32806;5299;11303;12958;12360;32930];
[8942;9494;17000;11580;11399;28781;12298;8727;12323;16983;32816;28748;9051;12931;12346;28763];
[12695;12308;12634;28790;12584;12875;13048;12659;12300;12382;8298;12552;16563;17234;10546;28793];
[10207;12862;17234;12719;28793;10546;5178;16526;12456;12408;16665;16783;9954;28734;9044;4603];
[12324;16489;32794;8650;16855;12465;28682;12360;5899;10449;32781;9025;32780;11484;20482;12970];
[12851;4624;11657;16585;28761;28731;9600;4742;12633;4510;16588;28781;10240;12297;16776;12684];
[12982;4972;12444;28704;28676;11578;13061;13053;16686;12305;9256;12962;28743;17077;32844;12945];
[8403;10441;9054;16677;10851;10851;17159;11661;10962;16854;10851;12971;12839;16886;5900;9366];
[16777;8469;12971;17013;16856;28743;28692;6008;5992;28723;12978;13048;12995;5484;12372;28770];
[17088;12588;32936;17238;12466;5919;11033;5035;8989;28704;12607;12355;32793;9961;28783;12754];
[9529;20481;17083;16619;12983;32832;17066;32820;10851;32897;8461;12959;10225;32855;16540;12959];
[8769;28683;9564;28730;28717;9941;4326;8343;9575;28686;32807;8430;13015;12426;9639;8368];
[12312;12875;12311;28771;9265;12408;12396;12384;16764;10858;28712;32859;17106;16856;10858;32866];
[12336;28712;6016;32792;10723;12780;12334;28705;32805;8627;12503;13065;11664;9050;28757;9020];
[16615;11101;28692;12849;16656;32845;16485;16458;13039;16851;28717;9673;9068;12399;16539;28718];
[12833;10677;8809;12596;5050;4958;17233;10546;12492;16857;12480;12899;13049;12509;8470;13060];
[12631;9941;13066;8818;11157;12744;12837;32788;9053;9972;9668;16799;28785;16655;12448;16598];
[5843;12634;11329;13007;32832;12959;12839;12420;9077;9970;12427;8778;11646;9370;9561;9077];
[9579;9600;28687;12384;28690;32781;5922;9018;12744;28673;28725;20484;9655;32934;16777;9376];
[9935;8666;32937;9375;32807;9346;6138;11354;12993;8423;12407;11288;17234;12600;6015;8689];
[12391;5151;9321;12971;8763;16761;12393;12636;11021;6043;8460;6008;8765;5821;12623;12934];
[6182;12647;12728;32794;8779;10198;10212;32794;28793;20482;28760;8779;13071;13071;13071;12295];
[12527;28695;6210;4521;8480;10231;16686;6210;6143;28697;32801;16404;12310;11698;12453;28724];
[13061;28710;16844;10831;10943;28767;12498;10571;16642;12393;28693;12803;16695;16921;28722;16777];
[28716;8249;28705;28725;32805;11023;9022;12468;12312;5469;16461;12995;9138;12834;16687;20483];
[8704;28680;17232;10546;8894;12838;16754;8194;12883;9377;12882;16767;10806;32854;12684;10043];
[28691;16462;28710;28809;8779;17091;12486;11686;28805;12821;28809;28695;32869;12468;10802;8769];
[28723;8469;10775;12983;17171;9078;5153;12671;16478;32781;6141;11166;10871;16606;16766;32781];
[8770;10561;9523;28734;12667;12743;8658;12636;12861;17130;32844;32781;11417;16657;8277;12383];
[12852;32804;9491;28806;17294;12501;28682;10563;28783;9203;28806;32833;28742;28801;28806;10173];
[12660;12309;28734;17094;4619;5579;16449;28735;8994;8966;9020;17062;9676;12678;8713;9620];
[12863;11087;10859;10090;16764;12307;12910;28689;17014;12864;12336;12864;9889;8383;12864;12864];
[11455;9075;11391;28781;11420;12732;8472;8316;17293;11698;11013;9613;12635;28807;12923;16435];
[9806;9599;17303;11408;8460;6274;12509;9683;28712;28721;5076;9767;8779;32890;9169;16530];
[12359;32787;32851;16535;8704;28811;11074;12599;17013;16857;28785;10512;9385;10815;9425;16777];
[28682;16981;28721;9745;10814;12852;11464;16925;12763;16766;28687;11152;12852;13030;20482;12535];
[16627;28674;28794;6321;8273;12971;16386;8788;9077;17167;17091;12732;11559;12383;28765;12452];
[28709;10867;12319;10706;6227;6349;28693;6349;16858;13078;6349;6313;16858;4724;8562;17141];
[12754;12774;28758;16737;9377;11295;16773;28707;8348;32902;11463;28743;28809;5644;16496;10124];
[28704;6210;8452;12550;12885;9978;13051;12660;5459;12981;28783;9087;10563;28787;28808;16542];
[17155;8490;10749;32794;10646;5653;12873;16776;10808;32880;12982;28805;9840;28740;16756;17231];
[12525;12471;12589;12644;12450;28682;16463;28772;12486;28709;32791;8677;28806;12731;17067;4386];
[11619;12850;9211;28709;28694;28688;8890;28823;11113;28805;28736;28802;17172;16579;6393;12379];
[28803;9074;17244;28794;4972;12970;5722;8789;11694;16458;32893;32872;17091;4358;8667;9174];
[16509;12456;11455;16857;28808;11166;8467;28676;5262;12652;6314;10852;28774;11566;10517;12622];
[28713;16492;28737;32818;12636;28805;12719;12587;28814;9319;32906;16463;12659;28673;32843;10749];
[28773;6392;9078;8202;16657;28687;28705;12669;9608;12321;13063;12756;17317;12625;10563;28725];
[28676;9022;12368;28767;9381;12318;9131;32907;9179;8600;9687;12345;11106;6401;28694;9687];
[28694;28741;28799;4518;32837;10827;11698;16458;28809;16820;8548;32814;32820;11180;9011;9388];
[9383;9664;11055;32845;12923;32807;5715;16677;8713;13079;28755;8449;12356;10750;12801;12875];
[8490;16434;8490;12371;11457;5994;28747;17319;10153;6438;8790;16687;12545;9387;16821;8790];
[11160;16874;32832;8790;28687;28723;17305;10560;28806;12660;9657;12813;11609;12748;12299;11151];
[32858;8769;12971;17014;12887;12499;8730;9683;11150;28683;12815;12779;28795;12309;9751;28805];
[10572;9539;16619;11048;32824;28700;12369;28793;12345;9385;32775;4187;16479;6437;11455;12300];
[17137;10885;10590;16675;16792;16542;9870;9963;17067;16936;8544;16729;10490;11363;9499;11055];
[12476;12767;32829;8366;8898;32831;12318;16542;12635;11126;16682;32827;10162;12582;28713;12479];
[12731;16518;4104;8234;28733;28698;9973;4209;5100;17252;12298;32780;16520;12608;10320;10581];
[11653;28733;8493;10625;11310;17313;12993;16527;28794;9863;12852;16500;32855;32858;8615;16744];
[16462;12336;28691;12372;28799;10458;6000;12334;5564;16699;11365;12380;32816;11057;12924;9147];
[16447;9210;20484;10621;32934;32914;32913;32914;16440;12696;32914;16774;12396;32778;9185;9503];
[5449;5099;8751;17169;8440;28761;8848;28787;20486;4887;28699;10869;9335;9348;12635;16509];
[4557;28726;8285;9388;12982;12660;10888;9653;32856;12480;12860;32858;11055;32845;16765;9078];
[11474;9686;8570;12393;12981;16584;28683;32846;11354;17092;8792;16539;11096;8314;32783;8619];
[4762;5822;4520;32780;5168;4098;6203;10551;9384;28733;8917;10663;5625;12860;6446;8647];
[17091;12648;28743;13079;8301;16519;12825;16745;12324;10023;9985;17410;8470;28747;12647;12756];
[10262;8789;16801;28688;32788;28712;32803;17026;12343;11286;8898;12744;20487;5449;10552;10543];
[12970;12981;13079;16779;16408;11715;16805;12502;8491;11717;8491;32775;10004;16856;17016;32781];
[11716;12308;10681;12564;12832;32933;10490;8621;28743;12300;12996;12996;12336;12874;28748;32806];
[5112;11478;11109;28723;17224;5978;32772;4102;12358;28807;32784;6008;28796;9241;8350;32806];
[12299;11713;12898;8790;17087;12583;9438;12984;9642;12599;32936;9908;28757;9019;16406;10802];
[9666;8931;10802;28772;8883;8445;5323;12348;16791;11157;16696;12408;16665;16411;9089;10490];
[12797;16576;16403;28689;16607;10736;12657;12574;28781;28721;32894;28694;9703;11358;4563;11094];
[4764;16536;8365;32869;12336;12840;32807;5672;16539;8949;11718;10986;12360;12788;11763;12960];
[12648;6173;28721;4954;12689;12960;13135;12289;13087;12452;9167;28683;10579;9781;8475;32908];
[4277;13135;5991;32855;11472;32778;17098;5157;12922;12732;8314;8401;8982;12321;28799;12946];
[13112;10206;13076;13124;10794;5212;11873;28788;11758;16925;10285;16578;16991;16619;11405;12636];
[32901;28675;13072;12960;32914;32866;13101;16667;9583;11880;10083;13117;28799;13005;28721;13159];
[32910;28696;16405;17156;28781;9084;12347;28684;12720;28695;9289;10811;13077;12564;28801;5993];
[10572;32788;28811;12921;11873;6217;8238;12299;6221;8642;11474;32857;9264;12888;12731;11582];
[17411;11753;13167;13170;10806;9446;12714;12321;16528;12756;11630;13135;32817;13047;11916;28810];
[9795;9572;11917;28801;12755;28696;8195;12540;12538;11917;11772;11771;11772;12384;17224;12972];
[9675;9169;28790;13126;12438;11945;32844;16760;9617;13126;32902;11754;28699;32901;28673;9375];
[32936;12846;16621;20487;32846;32814;4861;32818;28734;4159;16688;13101;28686;16485;32793;16450];
[13079;8490;17160;11124;28713;11652;28776;11399;4233;12996;12319;8476;12342;32794;32937;28816];
[13040;28767;28713;10217;4958;13098;12876;13126;16530;16779;16786;28754;9995;13112;11275;28690];
[6426;32781;11913;32803;9157;11742;32854;12972;16735;12972;16485;32905;32826;9546;28708;17162];
[9656;12984;16609;13114;12838;9142;16846;8973;11874;9730;13185;28734;12307;32781;11783;28768];
[13007;13059;16437;28694;5901;5302;9077;20483;28808;4921;11957;28740;9831;32781;11959;9169];
[32803;16653;28678;10184;28684;9022;9302;4319;9590;8491;32899;28783;32833;12371;32819;28698];
[12648;17083;9593;12928;11399;13014;12983;12417;5076;13103;28771;10349;13192;12972;9089;12886];
[16992;28815;4464;32921;28715;12983;12443;17309;28726;16761;28761;8415;13115;8314;13048;13111];
[16540;12874;16541;9907;13081;13156;20483;4463;28775;9678;12309;13018;16844;11319;11860;17130];
[17016;13163;16528;32806;8383;28725;28752;10749;6019;20486;11951;16686;12679;8784;12580;28694];
[16608;12398;11402;11135;12742;28744;8806;28744;8576;32856;32787;10881;5382;12911;28779;12600];
[32857;9419;11768;12006;12006;12006;9309;32839;13103;12432;12005;28714;10283;12957;9085;6419];
[12840;28806;10691;11762;13114;28786;13113;8490;16387;32842;28773;12839;28770;12538;12585;28688];
[13159;11399;12891;28805;12744;11481;28696;8272;12463;12948;28771;5666;16585;6138;12756;12564];
[32777;8558;13126;9826;11283;16845;8450;17245;12004;17001;28687;28710;28764;28744;32859;11945];
[12504;12552;9675;28697;16393;32844;28687;16767;28734;12360;32877;12388;12585;4404;11939;28828];
[32774;4123;13102;28766;9012;12307;4738;12598;32779;17177;28708;11048;10050;12851;28720;12438];
[12503;12371;28778;16764;8956;28684;12623;12407;12995;28794;28782;32882;17088;32791;20483;6194];
[32793;9387;12648;12728;8904;12587;28705;5601;5509;10976;28725;9761;28736;28759;28684;13110];
[13201;13203;17218;16647;12307;11956;17109;8489;16981;16621;12885;8973;6043;12597;6442;16858];
[11997;12588;12957;16528;28774;8422;16616;10208;13048;32877;4685;12657;10583;8721;28725;13060];
[4466;12947;28793;28724;13006;32858;13161;9385;16588;32896;10706;10771;32792;32859;9089;28721];
[10100;28720;28827;13007;11096;12503;12799;9608;9388;10712;12928;12752;16925;12959;6008;8944];
[32797;28685;9198;32844;9320;12995;12599;9265;12455;28769;28764;12014;13103;16824;13103;16754];
[5586;12443;12443;10805;12970;32851;28753;13175;12309;28734;12307;12501;12334;28798;9076;28810];
[11157;12586;28697;28695;16420;13195;12741;8713;4355;6043;28795;16835;13192;9388;9767;5049];
[4795;12982;12535;6431;28806;4303;10255;12053;12053;12466;17240;4878;12312;12052;28683;16518];
[32781;12015;28801;12995;8254;13152;12532;17090;12791;13126;16598;12824;16530;12821;8197;28783];
[11762;28686;28748;13098;12727;28758;16697;10725;12983;8424;12864;8847;12847;5100;28721;9641];
[32862;13042;28690;9562;4275;32800;16478;6044;17082;12558;16736;12050;11182;13092;12008;9750];
[12392;17331;16459;13104;28696;32777;4335;10645;28783;13070;32832;10552;11902;11157;9478;28689];
[10725;9377;12632;12873;9474;11055;8422;17159;13176;28707;8440;12619;9562;28703;16694;8756];
[17052;12058;16656;8667;4730;32920;6043;32807;8450;11685;12641;32813;20487;20483;16677;12454];
[9853;16463;6173;12527;4217;16993;12852;28698;12005;12333;16465;10506;12381;11310;32862;32883];
[13136;28704;16858;32871;12642;13180;6298;28720;6403;12990;28688;11159;16519;11778;13078;32893];
[12660;10881;13169;12812;32780;8675;12861;10759;10028;8314;32780;9268;12645;13203;13056;6042];
[10673;16621;4651;8703;11713;11397;13070;5828;12508;13183;12954;16595;4294;4458;12310;13126];
[28696;28675;13176;28700;12622;16807;28710;13154;12509;28793;28681;12557;28783;13008;32827;16936];
[17294;10356;12836;13174;12928;12439;10971;10569;9580;12336;12671;12815;4276;32844;5703;28787];
[12886;11354;12850;28707;11938;9745;12407;16937;11104;28702;10098;9320;12060;20481;12737;28677];
[12899;11657;28776;8762;13075;16683;8384;12804;8490;32806;5182;12836;32856;12972;12380;12828];
[28680;12992;5339;13164;10795;10151;28701;6149;11312;13192;28785;12034;28806;28691;8692;12444];
[12850;28705;16983;12358;12792;12504;12347;17230;13198;12354;28798;16676;28816;28704;28802;9207];
[9828;5262;12438;28681;16596;12888;13176;28735;16705;12395;28828;12347;13048;28805;32800;12293];
[10795;17051;11464;5104;17061;12366;9496;32919;13006;12851;12876;9343;28699;16746;9349;11769];
[28785;12055;28796;8779;32845;28735;16734;8260;12789;8405;8696;28771;28705;32877;12360;12838];
[28788;32833;6203;16535;8965;12852;12958;12393;10802;12323;12935;16904;12466;28793;28775;11354];
[12526;13091;28723;10838;12779;12296;12813;13051;12970;8790;28756;17297;16568;12645;28795;16777];
[32854;16686;9364;13091;12723;8422;28811;9051;32857;12503;28684;12995;10976;12466;16756;11908];
[28721;5897;16598;28685;28684;9197;10533;4306;32881;28683;16858;32909;12694;11171;13120;12840];
[8657;32802;10297;28763;12743;12483;10573;16983;28734;12552;28708;13011;12575;8885;12414;8769];
[13060;32791;32780;8672;13125;28794;28813;9126;28752;9088;28766;32833;28679;4105;17242;12919];
[28698;9386;12790;10377;12655;28752;12792;28733;12430;28734;28674;28744;11398;8768;5579;32898];
[12621;12821;32778;8585;12840;11395;8414;12972;28804;12978;11778;13176;13157;11467;12947;28768];
[11261;28725;11659;32778;4537;8257;17302;5735;17147;12731;9366;17216;9309;10203;28755;11907];
[12930;12840;28805;10281;12857;32920;16856;5166;28707;13148;28686;32805;11285;8683;17004;11012];
[4976;12705;28757;8424;12898;12824;13128;10507;13213;12881;13214;13135;12825;13215;12858;17051];
[16858;9233;28714;28799;28749;12660;9683;4716;11470;28722;13174;17243;8233;13124;12693;6078];
[13032;20489;16419;32902;5802;17196;16456;28716;13198;4721;16620;12331;17409;32908;10750;12456];
[28798;9321;10677;12812;9075;6438;12575;32842;10862;9090;10488;28696;28686;8253;20481;12756];
[32843;16846;5901;13048;12491;8862;8788;32924;20486;32790;13138;32849;16841;13176;12312;10178];
[9588;12624;5588;12372;32898;13066;32857;9003;32856;17248;28783;10569;12801;12404;12636;28689];
[16621;12346;10811;17058;16609;10663;9578;17078;9318;10209;5237;16607;9891;16571;9620;12777];
[16458;8790;28684;10771;13113;12537;9388;5864;32793;28821;9931;28742;17333;10284;8768;28709];
[32894;8594;12804;12300;12301;16607;12470;13092;32783;28783;32859;13055;8936;16609;11042;28714];
[12634;10866;6438;8712;28763;28716;12658;17353;16801;12822;12863;28699;20486;9676;8723;12821];
[28696;32865;28763;28741;10729;11542;28798;28699;12922;28818;28817;11712;12451;28728;12702;11058];
[13102;16685;28712;12011;17072;9909;16788;13060;32816;10688;10159;6181;12343;32898;28822;11175];
[9905;12323;12753;10463;8821;12775;10285;16743;32788;10205;32826;12539;32937;8779;8790;28767];
[6441;32807;11125;32818;17025;12308;9554;9862;8992;10962;32851;10285;12919;28770;28770;12598];
[10406;17382;28813;17382;32793;12396;17382;11070;17380;12921;4958;28723;5094;12034;13091;17323];
[10115;16428;32780;5266;4703;12741;11609;12535;8902;28709;32773;8502;16435;12839;8368;13067];
[9968;12417;11407;11353;11050;28824;12646;28707;28674;17251;12496;11873;8790;16825;28774;28704];
[10751;12297;10749;12828;9619;12324;28684;12921;11028;12418;28758;17320;16973;12838;17015;16643];
[8790;28709;17248;8718;28800;16779;16519;12439;17151;28819;28737;28684;13032;17106;9509;12596];
[28750;8246;28683;28702;28702;10722;17094;11415;16761;16441;17297;6446;10645;20481;5076;12587];
[17151;5645;8853;16752;12948;10214;8949;11473;10984;12836;12912;11618;11574;11927;16542;12536];
[13179;5902;28794;6138;16440;10431;10712;16442;20484;12324;20488;12789;16420;16420;32890;17389];
[12719;28817;16451;12388;28683;16924;10756;16750;32877;4124;32831;12388;16595;12534;12298;28757];
[32774;8507;16989;32779;4780;16854;28742;11311;9496;11652;12742;6314;17308;9830;5977;17214];
[11713;32806;5538;4705;28785;28707;11048;32898;28821;16973;16536;28711;12930;8623;12719;4100];
[28783;13008;32857;28682;12947;12928;12357;12357;10866;13007;28820;10516;11467;12428;28704;12872];
[28725;28685;28805;16765;9676;32870;28778;32884;17072;9264;17381;32781;17335;16775;6319;12538];
[10944;5579;9218;32883;10218;9302;9377;16772;28818;32819;32929;16698;11180;17000;11754;32884];
[28815;12972;13188;28684;12666;8955;32780;11660;12062;12971;17130;13170;28742;8368;5736;6043];
[32858;12046;12872;28692;16541;32856;16775;12563;17173;16973;17146;4972;32857;8760;13087;10789];
[12936;12768;5419;32906;12586;28783;12695;10460;12588;17058;8789;12861;32923;28771;28783;16891];
[11460;10795;12537;28676;11182;11697;10810;5486;28789;9564;6106;12587;32843;17398;12754;12395];
[13028;8664;9620;28773;32780;5134;16539;16779;12947;12940;17051;28783;17384;12863;12959;12444];
[5615;28796;12883;12929;9321;28758;16853;28811;20486;10023;28826;10371;12454;28797;10827;12886];
[4972;32924;12907;9467;12756;28805;9385;28707;9152;12646;9664;28746;10444;28683;12912;28811];
[28728;6018;16530;12732;12497;28698;16805;10706;9673;13164;28752;32926;32896;28734;17000;32856];
[28811;8359;12849;17014;12071;12916;17379;8405;28689;12821;12336;6173;28810;28794;13051;12850];
[8413;12716;28703;8196;17397;12957;13152;17095;10515;17077;8769;16700;12537;12682;13180;17167];
[11275;10184;11095;28766;12452;11094;28704;28689;16541;13006;13138;28817;4688;28724;28764;4710];
[28795;11769;17331;28813;32855;9871;16756;11048;8721;16616;11318;12479;16665;8306;16843;28707];
[28705;11460;8787;16640;12294;12874;8423;12840;13031;28800;28771;28714;28796;28770;9168;12586];
[32877;12536;9375;17319;9619;4206;10104;12460;28793;5144;13102;12323;5156;4289;28758;13137];
[6182;32797;28673;28794;9878;12441;32870;13029;28736;9386;28740;28703;32846;13100;28793;28723];
[13149;13125;8752;11387;11112;11261;12618;17157;13091;8478;28751;17082;13136;10751;12420;12764]]%N.
Definition LOOKUP_1 : list (list N) := [
[10785;12910;12816;16894;12647;28676;28763;8880;16846;6173;28687;32932;5563;9248;6216;28696];
[12729;12837;16845;9919;28778;11470;28705;5356;12730;16697;28808;28722;12816;16909;9930;28774];
[12968;32777;10587;13107;5661;12839;12560;16609;16932;28751;9617;28825;13101;16697;32909;16993];
[12515;9012;16686;11347;20487;17252;17175;6404;12860;4792;9846;20489;12696;5579;8490;10261];
[32807;11920;6212;12367;28728;16854;32924;12993;10284;32893;28693;12564;12983;16843;28706;12598];
[12599;10759;20484;11997;17368;12714;12875;12943;12939;12804;8722;28682;12634;12695;16755;28817];
[16924;9822;17045;32910;28815;9985;12513;12019;16918;12935;9273;12388;9003;12743;8470;17161];
[32818;8209;12846;12296;11084;12622;9853;28783;28750;12996;9311;13029;12366;28806;16751;10734];
[12335;16936;12780;9817;17399;4965;28769;10751;12348;28682;12696;9562;10882;28727;5875;28696];
[8842;12491;9022;28754;10483;28681;16850;9954;13041;11166;5478;28805;12958;9264;9973;12372];
[11347;12804;28807;11421;28755;11414;32893;4327;32802;8249;5484;8907;12296;5584;16894;16925];
[12792;9337;12430;28803;12875;28717;9930;10795;9320;16828;6436;16519;6314;9059;9461;16517];
[10264;28743;13091;12755;32898;28772;10802;28792;28795;17217;16540;10579;12852;8994;28759;12940];
[11042;12791;16463;12398;12001;12911;11005;12887;8807;9265;12507;32921;32787;28735;11244;12851];
[28805;12836;16584;28797;8889;11011;12743;11655;5441;8723;6147;17312;4620;11262;5917;13147];
[11347;28789;32937;12839;13176;28796;28731;9739;12598;28700;11008;16858;11070;8277;28701;9333];
[16541;12597;16888;16485;17408;5094;12012;12851;16779;13074;28752;10802;11354;11812;12633;10583];
[12957;12513;28782;28794;11171;12993;8920;5484;11696;12920;9087;28720;10852;28723;28713;9387];
[9367;9009;13140;12768;8721;16620;13003;4820;9665;32777;9156;11094;4682;11623;9817;32870];
[28680;28690;12886;4298;28801;11766;32845;28795;8788;28784;17156;16880;12982;12864;12068;11408];
[12453;12874;12581;32885;32859;12371;20481;32911;12599;12656;13043;5656;28746;12320;32807;9340];
[28751;28744;13126;12010;12528;9002;12981;12490;8769;13003;28778;28741;32872;28674;17174;12061];
[4729;28787;32882;28698;13128;12359;28695;9012;12623;12431;12510;12992;11443;28808;12838;28816];
[28706;13089;28702;28794;12732;32895;11354;28680;5626;28761;16688;16621;13076;9282;9255;17156];
[28724;32901;17124;17219;8760;11358;20486;16806;17407;32793;10806;10304;6393;20488;12909;28677];
[9302;16641;10831;5614;12588;28703;16666;8312;12658;11768;28713;32777;4376;11041;16777;13061];
[8359;16872;28728;4210;28781;10208;16579;17156;4935;20484;12995;12929;16823;16729;28704;8453];
[9278;10507;12334;32896;13026;28828;12982;4665;9311;13092;5579;11950;12061;17388;32849;12581];
[11159;32820;12394;5478;6447;16492;32900;12505;16835;13164;28799;17089;11646;32817;8769;28718];
[32922;13016;16542;32927;28766;12357;17000;12917;5901;17170;12780;28683;32872;16500;13036;4571];
[12310;9965;10283;12586;9737;8414;11697;12516;11653;8394;16456;12724;20481;10580;13142;28791];
[6445;6216;13060;32807;10826;10598;12396;17156;10789;11574;12065;32794;16463;16388;10853;10811];
[10851;9502;4463;13113;9983;28757;11130;12420;10486;12442;12368;17195;28784;8720;12044;16830];
[8721;6243;9798;4834;8768;4583;11521;28732;20483;28817;11759;10006;11990;32833;17405;32926];
[16587;28701;28757;32839;5579;9619;12660;28730;11055;12059;16463;28823;16596;12744;16597;6380];
[32804;8617;17082;10316;9320;12070;11992;28701;8367;8495;32924;28751;12959;12839;13047;28696];
[11473;17399;12392;10533;20484;32907;28769;28721;9448;6395;8642;13019;17247;12384;10495;28689];
[13170;9239;11105;11648;9755;16448;32858;12860;32833;28811;13030;32807;8439;12871;16517;9358];
[13186;5597;5721;16578;10607;6174;8322;4982;11125;10896;28683;12941;9262;11452;12755;13079];
[6272;17072;13197;16543;11150;28695;28794;32784;8579;12803;12462;5664;28798;32794;10115;28764];
[12672;28772;12911;28676;12804;32859;13180;16688;32923;12778;12009;16680;12299;32806;16444;28705];
[16438;12980;13138;17209;32775;4156;12876;28724;12406;12467;28793;16825;8814;12442;9704;4362];
[12498;32880;16682;9675;10476;12756;17161;28713;9091;13139;12452;28686;13078;12705;10579;20482];
[4566;28683;12851;10489;11264;11714;12828;11754;4916;16778;12729;8470;16688;12911;11474;6216];
[9375;12394;13102;12567;11459;10583;32818;12827;12499;5915;32859;12954;28679;28800;12792;12791];
[10872;17249;6008;12648;12359;28822;5449;10349;32828;12508;12875;28818;9656;28770;16834;12812];
[12290;12347;13006;11751;10876;17151;28694;17225;11839;8778;28818;28745;16614;32908;16697;5956];
[9686;12383;4810;28695;16519;28776;12439;28675;5431;9619;12382;16831;12960;12658;17227;12876];
[28761;12346;28730;9202;11393;11693;12382;5447;11443;28808;5614;8423;28692;8359;8412;16523];
[28735;9752;13113;12887;28754;8480;12678;10857;32869;28709;12310;8642;10662;28791;13029;6137];
[8789;12983;11700;12780;12466;12960;13135;32869;13060;28761;32898;5347;16742;12395;12636;5153];
[8479;16719;17400;10567;13052;12768;5915;28771;17260;28717;12851;11454;13007;6217;20482;12359];
[12700;32845;28764;12331;8508;28744;12956;20483;6442;12292;17136;32785;28805;32845;6138;16696];
[10283;28812;17065;28693;13137;16677;13101;32849;11409;11710;5272;12323;17062;28686;5658;11707];
[28805;16497;32917;12843;32884;12958;6310;8712;28730;16467;16462;12876;12971;6314;28757;12002];
[10685;12754;8470;32812;5558;17173;9386;28732;28766;16765;28673;17088;9610;8254;20486;9236];
[13124;12732;16981;32849;13179;12883;5915;12058;12311;32872;12774;13006;12403;11400;11915;28681];
[13114;11418;28680;11460;10274;32789;12635;12872;32778;4485;12743;4463;13172;28712;10161;16544];
[17015;12718;11178;32784;11707;17308;28817;28699;16700;13124;8650;10853;9649;9125;8935;10274];
[9687;9975;10876;16798;12796;28694;5651;12799;9905;16492;28761;16784;11951;12787;9686;8479];
[16410;9985;12840;12632;28807;12815;11053;4463;28725;16685;28715;28749;11707;12548;9019;11653];
[9387;9256;12845;13181;32818;13114;32902;28737;12947;12826;28683;13212;8760;17014;9579;16765];
[9146;12369;16855;9919;9386;12018;9076;5733;28757;16698;16857;6314;28682;28695;16542;28746];
[11947;32859;12456;11945;32885;17016;17240;10539;13191;8794;12984;12490;9600;10461;10872;16616];
[28760;17373;32850;28817;13049;12632;12732;16835;6321;12660;11110;12515;17026;12346;9302;12408];
[12311;9088;16608;32872;16435;28701;12346;28690;8554;16763;28784;13038;12983;13115;8411;32807];
[6081;10998;12670;12840;11646;10392;12310;11346;9900;10286;28742;28755;28692;10836;10349;28678];
[13037;9321;11168;5908;9914;12309;32829;10962;12756;9664;17241;6426;28804;28818;8203;10281];
[12351;28817;28783;16737;16542;28713;28713;13193;13071;8701;17067;11699;12888;12863;8833;4266];
[28806;11962;32789;12729;17241;12388;9564;13188;16616;12418;32774;16475;28705;9520;12876;28826];
[9963;17002;12452;28791;8254;12801;6173;16848;28793;8769;20484;10452;4534;8749;28818;17245];
[9547;28734;11639;12644;5449;12417;12864;11457;13061;10956;11963;32881;28694;12756;11180;28681];
[12399;9008;4624;12870;16914;12317;12646;16833;28754;28749;13115;28701;28712;6404;9013;11182];
[28795;12888;32793;8303;13097;8249;32781;6354;12452;17322;5521;6125;12495;10043;28775;10760];
[8658;8491;11281;12732;28713;12960;12463;12562;4937;11609;9463;13065;10283;17369;13098;12441];
[12980;4753;12888;5048;17411;6437;16420;11775;28680;12488;6217;17408;8957;12576;12827;17294];
[9765;12852;16800;32850;9043;12521;28678;10687;12343;4523;12498;11713;28750;16677;16598;17332];
[6173;12915;6299;28708;12453;12400;12428;10844;8965;4287;16555;32871;10882;16525;12850;8423];
[9676;12308;12463;28677;28824;12837;12381;32779;4784;12450;28792;12678;11692;16621;10878;12559];
[12719;10090;28750;28727;12023;12344;11749;10149;16519;6390;16844;28806;28790;11653;28792;16924];
[9853;6285;12945;32855;10515;10240;9320;13067;9685;10559;12754;17298;13173;17171;9806;13198];
[32794;28698;32909;17150;28799;28823;12584;28805;28731;12659;12693;12299;9452;12297;12883;4178];
[12536;11464;12479;28750;6217;9608;6359;32794;9256;13127;16643;9824;28781;9202;12582;28793];
[12872;32829;28674;28690;5356;32911;12754;32850;12648;28723;28781;10264;4237;28775;10114;12963];
[32871;12479;12908;4624;10872;32793;28744;28721;10494;11104;12883;11143;16500;10498;32792;28703];
[16846;28783;12332;32794;32812;8713;5876;11710;12996;10867;6431;28685;12872;28805;12995;12919];
[12744;12675;17088;32843;32859;9676;16394;13179;12351;16990;32923;8322;28809;11468;12852;10415];
[4561;28769;12062;9715;12822;12454;16856;16923;16737;28769;28694;17083;12068;12823;32838;11105];
[13104;16570;6043;16594;4594;10568;12513;32855;28812;28716;12584;12575;10871;12755;12312;12635];
[12008;4704;17081;17274;11752;8779;8250;32911;9088;8639;4258;13128;28793;8869;28694;12383];
[9254;9617;12078;16824;12756;16936;8491;28726;28692;28696;10815;5065;28812;10877;28774;16695];
[28699;12587;11319;16472;9676;16577;28730;4624;12888;17241;10151;6282;28683;16851;6304;13072];
[17027;5775;8920;12684;28725;6210;5800;13043;16594;17150;17366;12810;9517;12587;13111;32793];
[11094;8722;10376;9685;28802;16937;11157;8703;12729;10284;12395;13191;16618;17332;13003;32780];
[8679;12588;9356;16834;17368;10987;28723;4956;12936;16557;12960;28786;28793;11011;12069;11115];
[28795;12321;9984;5414;12840;8256;16620;32807;5741;11282;13206;28781;12645;17014;32924;16438];
[28827;28793;28704;11081;32918;9076;32832;11902;12515;16593;16736;13162;8748;4957;12969;9126];
[28755;28774;28782;12302;28828;8351;9253;28721;12324;32836;28699;28683;28685;13163;28690;16491];
[32922;28782;12311;8839;13212;12611;11395;8491;28704;9012;28810;12953;12342;28793;12384;13072];
[10712;13126;32917;11777;32912;28694;32924;12780;12391;32819;12641;28689;11873;16414;4958;9022];
[20481;11449;17387;6314;12876;5638;11616;32897;17081;8307;17297;28771;5651;28721;16538;28689];
[16699;16844;17106;32816;20482;16515;28795;12864;11450;32805;10724;8359;28706;12479;32794;16778];
[6442;5073;8966;28781;28777;28693;5859;16609;28817;8636;13126;12443;12072;11951;13124;12396];
[12659;12055;4645;8796;17219;10279;28705;32785;8423;28759;8666;12911;32889;13092;13186;32871];
[11645;13180;8422;28743;12658;10583;10543;28810;28744;12972;12883;16923;16855;13138;16682;32855];
[12778;10450;9983;17320;8772;13224;28700;11908;32780;5160;28702;13222;4128;28807;5556;13126];
[5753;32913;8766;12984;16451;13008;28807;9685;9634;13191;10664;12660;11467;13127;12737;9348];
[13123;32866;6432;11749;9636;11275;16745;9664;6349;28730;12849;20490;11105;28696;5065;11414];
[12742;9687;12872;13090;12945;13139;28772;11414;12960;5738;12918;12403;17029;28710;11023;12984];
[17318;17366;12468;8947;10877;12972;16605;4687;28689;10210;28750;10002;12990;32877;13089;8236];
[16825;13168;28769;12716;12755;12484;8621;8769;6418;11994;28705;11952;32871;28701;13160;9252];
[32898;32915;17146;10407;8789;16813;32792;12323;9617;8283;12929;12344;11691;10712;12883;12472];
[17085;12395;12427;16698;8466;20483;16622;8204;12864;28687;9319;28698;12911;11763;9468;13224];
[13103;8473;17172;28693;28704;32869;28676;12862;32877;28820;11753;12852;12415;20482;13101;12756];
[10280;12766;16556;6395;11412;12324;13113;32819;16530;12899;13034;17218;16973;17239;12849;12046];
[12324;12659;12066;9673;10444;28761;32856;12958;11596;12359;12765;28751;32868;9983;13054;11958];
[10988;10496;10677;28722;10240;12598;8271;32885;11176;28702;28746;16981;13127;12598;17045;12720];
[12357;12821;16439;28744;11005;12314;11102;11567;5820;28722;4941;17251;9037;28785;28806;16451];
[12597;16854;10407;8778;6386;8321;12862;12564;16547;32936;13176;13079;32785;10706;5449;32859];
[13091;17077;13180;8413;11153;12825;16621;13003;28746;4696;11763;16741;28722;32833;12927;8383];
[6064;10569;12297;8440;17245;12852;32921;32877;28705;12992;28768;9684;11946;28782;10451;28712];
[28767;9985;4717;17180;16760;16865;32881;28798;32793;11759;28793;13215;9538;10198;12534;12512];
[11983;5052;10813;13003;11703;28824;10411;28695;28708;10254;28791;28781;13186;13137;28760;13040];
[16776;16546;13055;17388;13066;28693;10976;28784;28707;13210;16844;9366;9778;9265;28769;12799];
[16450;12558;5432;17172;20481;12492;12960;20481;12506;13188;12984;9319;8653;12968;11815;12716];
[28678;12767;28703;12969;28712;6209;20487;32903;28744;8812;9773;12839;28775;16608;4338;11618];
[12648;17124;28693;32831;12452;9738;13192;13160;11481;12041;28827;16846;12730;32838;12407;6008];
[13152;4254;12939;11951;32779;4946;11770;28806;9316;28822;13139;9089;16841;16594;28824;28776];
[32819;32869;13222;12552;8958;12485;16730;12420;32792;16736;9021;11617;16577;32820;16688;28731];
[12732;6030;28716;17067;11908;4597;16924;11702;32915;12755;8597;12332;8964;13204;28687;28747];
[8424;28679;12427;28741;13115;16855;32910;12408;17338;12658;13103;28712;32832;12383;12635;13076];
[16557;9373;17135;11393;10858;13183;16445;8790;28819;28692;8460;12017;28812;13200;4196;9319];
[16542;13056;12754;28689;12660;4503;8723;10273;8307;10415;13126;16959;16983;10862;5893;12400];
[12801;16855;12957;13192;16554;10562;12885;12348;32787;12527;28683;13172;32820;32793;17319;11769];
[8424;17409;28753;12051;28742;20488;16568;13139;8865;11100;9059;9294;11323;10648;32890;11996];
[12660;4647;13223;11633;28818;28744;9790;9022;11865;28726;28822;32883;12680;28816;11908;10565];
[32777;4308;32865;12862;12597;12812;12927;11658;12576;16528;16540;10872;6179;10281;12970;12548];
[9529;10706;5973;28812;13116;17094;5725;13103;12907;28686;13181;12825;11362;12996;16675;10399];
[10003;12894;11108;28708;16505;10251;8768;16676;16754;8620;11609;12450;12360;28693;12790;8752];
[12671;11749;32923;13079;28808;13068;13030;13139;12756;5416;13102;12918;32778;16501;11353;28732];
[17252;17171;12851;16595;16515;32770;8492;16608;9376;8490;16845;12383;9673;28725;6351;12006];
[12669;12335;8947;28709;17048;8503;9358;11640;10273;9924;10376;17146;32806;9290;9375;5484];
[12394;12492;28731;12929;12756;5656;16571;13103;17184;10044;28821;16990;16439;10343;28775;13101];
[6220;9075;13186;11365;12821;9974;28756;32895;9673;12511;12939;32793;16541;10334;16858;17215];
[28757;28818;12838;11347;13054;17124;12606;17016;16579;13003;12450;12416;16856;10743;13193;11346];
[12839;28797;12348;11581;17130;9281;12605;12863;12467;28774;28801;12010;11967;28711;32881;28795];
[10415;16462;28688;16974;28716;12465;12358;9941;8778;12485;28700;12312;4684;11353;32838;32774];
[4127;28754;16450;16462;12343;12659;32872;20490;32812;12969;13061;28794;8421;12353;11441;12882];
[16743;12779;28800;11952;12932;28775;11392;5720;11008;12404;12933;17309;13104;28674;12477;28695];
[28827;11993;12456;13049;8248;12693;12657;12941;10881;9687;17077;8413;12880;10880;16430;5590];
[6180;28703;12801;20483;28732;17226;11455;28811;32890;28694;12981;10881;12576;11773;28783;11224];
[32869;12743;16990;11646;28805;32793;12659;10742;17303;28710;5484;10513;32935;8255;32781;6317];
[28724;12946;9620;16697;10071;8815;5483;12957;10500;28760;9364;4446;28783;4878;28792;13090];
[13092;10293;12825;11574;10743;11651;13187;12478;10217;9086;9784;16530;12586;8745;9533;9684];
[12526;16816;28678;10749;12659;9485;28695;6144;28793;10457;32846;10327;12514;12948;8416;12840];
[8250;12356;8723;10163;11779;13078;9599;16614;12944;28795;16832;5898;12490;12515;8994;12633];
[10022;12802;28701;10072;9355;13150;16579;13061;10663;9845;10120;28823;16419;16856;11101;32867];
[8667;28718;10337;12395;16745;13092;28704;28683;12571;12430;9890;5579;5659;16804;17324;9579];
[12512;13220;12396;8779;28769;12944;5305;16667;8277;28700;10513;12369;9068;17156;12311;32890];
[16677;4426;13127;28805;12790;10811;11691;12670;13128;4691;17087;16841;32818;12416;32818;28707];
[12348;16740;11291;8738;8621;12298;11992;28753;10825;32883;28782;9358;13210;12663;12057;12383];
[9534;12685;12324;28678;28722;5651;12342;20481;12597;28811;16457;12672;16430;12454;4552;12443];
[12751;28673;12391;12784;12297;16430;8489;28733;5993;10760;4463;12425;10858;8611;10131;12803];
[8488;28801;16745;17127;28726;16857;28810;12466;16621;16430;16700;28827;10962;32816;9321;12516];
[28747;32781;11787;16619;12390;12730;13115;5643;28742;12684;5130;13058;11150;28725;28789;10571];
[8641;12756;13044;5373;12067;16483;12355;32804;10986;28756;10426;12672;9956;28701;10584;28769];
[11574;32858;12300;5102;8657;9687;12838;12430;6145;11110;9241;12394;6008;11260;11156;28743];
[28719;4310;17002;12514;28686;13204;8745;9388;32844;28770;32814;10560;11123;12826;12539;4703];
[32804;12759;12318;12322;5616;32935;16421;16675;9302;8338;28736;32802;4216;16667;16463;13151];
[16833;12514;12456;12731;12394;16542;12033;12502;12396;32779;4802;12658;5029;9354;32927;9858];
[17167;32919;17216;4188;16541;28802;9683;12840;10867;12356;28782;28697;28733;32850;12430;8957];
[12780;32802;8544;5716;12442;10206;32845;28701;28676;16614;17386;13043;10488;13210;28817;13083];
[12357;11321;8528;12994;12322;12958;12752;13056;28735;12071;28701;9132;16982;12982;28686;12768];
[12335;8949;16845;10985;32934;28673;8788;20486;5661;12348;16754;28723;6145;16956;11303;13047];
[32777;4350;8234;16426;5342;12345;9051;32858;28673;16462;10218;13222;4447;12755;16737;12349];
[8965;11538;12596;32785;32861;28805;4243;16389;16933;13044;28690;12600;13092;32937;10205;10644];
[12863;16767;28747;12426;32922;32804;9186;9919;5884;13210;8658;9457;17323;28704;28783;11406];
[32781;11876;28766;28702;13038;16902;12658;5902;16541;10811;12357;17257;12827;28826;12644;28810];
[8288;32909;9562;28759;28781;13137;16981;12310;8613;17216;9169;28802;12636;8314;11797;13170];
[5136;8722;16824;12072;9264;12872;11414;12876;5460;5651;11601;16639;16405;28679;28767;11024];
[28794;11666;5051;32829;8767;12655;12459;12381;12840;16698;17393;11907;17259;9276;17359;4349];
[28702;12525;16519;13059;9607;10788;4704;10712;11240;5607;17028;16937;11646;32805;5075;17314];
[10262;12346;17399;12672;20483;9721;10183;12848;11645;28805;13007;9367;11253;12354;12465;28750];
[28807;32804;10687;10942;12743;32907;12852;12810;28717;9385;5830;32932;17234;16856;12564;32793];
[13188;8620;4603;16843;11005;32792;11652;10503;12576;12563;12838;10161;6395;11110;11768;12356];
[32832;8963;12740;28796;11706;12788;9234;12960;13002;5915;17218;8259;4718;12753;12654;17287];
[11163;10271;16990;5887;28696;16764;12408;16754;12610;12407;28778;16615;9302;9619;16764;17230];
[12872;9554;32793;12752;5587;28759;16540;12574;8683;10415;8489;11322;13184;9094;16857;12960];
[28698;17088;13059;16676;32801;8528;6124;16754;9850;8301;9066;17130;9285;9666;8490;5321];
[9616;13198;12791;28729;13002;16685;28818;12297;17372;16488;32855;9683;12636;13029;8704;12523];
[8351;28692;28744;9003;16723;12062;17105;12718;4941;8827;16570;16935;17313;9385;28771;8478];
[13032;16834;12694;12983;6358;10159;16686;8658;10049;9606;13017;9376;28697;12648;4857;28700];
[8696;16751;11695;32877;28689;12838;17178;12583;32869;28780;17238;16542;5262;11213;10712;8584];
[28820;28821;12983;6035;12755;28739;28794;28768;13005;16597;6186;28720;13032;17370;28725;16529];
[32780;5127;8199;10712;16519;9088;11956;9302;12887;9607;17062;32908;17166;16965;8745;12971];
[12908;13162;5460;12991;10865;11150;12815;10078;9247;13020;11912;12393;12706;28748;9631;16751];
[28741;11149;16463;13125;8424;17372;12690;4608;13049;10376;6399;9265;13054;12078;28757;13147];
[11173;10770;12920;10274;12608;16697;8671;32851;12851;12694;20487;16666;8479;16845;12356;12756];
[28684;11275;8250;12347;16902;17093;12790;32919;32844;10569;12863;13175;12947;11165;28693;32781];
[6400;9663;8737;9675;12535;13198;13125;12821;32883;28818;13135;16937;12311;5586;13037;12407];
[9049;17176;17130;28699;9001;28773;32786;17293;28774;28769;10749;10114;28741;8365;13072;10218];
[28793;12624;28803;6389;12837;17373;11422;17130;8313;17011;28783;9182;20481;12840;17137;13111];
[4364;6402;12935;12648;12837;28771;5501;17287;11164;12540;13101;12452;20489;16451;12887;12311];
[12727;6210;12490;16742;16391;16672;10264;12366;32854;16530;28771;28718;28714;6209;8491;12888];
[8710;28676;13162;20484;28681;9089;12956;12797;28697;10880;17343;28710;16620;16456;13216;28684];
[17015;28818;17045;9965;12577;12619;11877;11059;4871;12455;13196;6216;8602;28747;12851;13150];
[16843;32828;16563;12597;12788;28771;12464;12296;10197;11463;10756;32890;11983;9672;12524;28786];
[8321;28673;32841;28752;6431;16542;32885;16487;5585;9294;17402;10583;12789;11012;13176;28702];
[17328;32798;28709;17010;16473;28807;32868;32832;32832;11221;11048;12635;9365;6325;32819;8696];
[32844;12596;28707;8533;11997;4400;32897;12744;11275;28779;12405;13216;28703;28677;12643;8896];
[17011;13200;28824;9858;4236;10844;16687;28800;16421;8310;28825;5435;5023;12848;12419;8955];
[28776;28726;13219;9279;8723;28772;9685;11602;28700;13076;9164;16451;12864;12995;11895;6212];
[12514;28806;17051;17093;28825;28772;10283;32891;32858;8789;12588;28795;9635;12654;8412;28741];
[13103;10851;28820;12765;12873;28678;4687;10559;6138;9909;12516;16752;8481;9862;17146;12598];
[6392;8769;32806;5408;12863;4705;12929;12864;16924;12779;10229;8664;4939;4107;28722;32820];
[28701;9280;13159;9941;8487;12816;12345;9947;10220;12369;16597;12874;13003;17185;6037;11070];
[5304;13161;28823;12456;11769;12611;16484;9945;28706;32857;10407;28752;11694;12824;12992;12755];
[10255;11914;12739;16674;28795;28779;32776;4207;10579;12971;16463;4752;28693;12515;28682;8469];
[11042;6313;13101;9617;11747;4817;32852;5564;10153;12838;9911;28694;28695;12612;17051;32877];
[17172;12767;13072;8437;12598;12335;11011;8949;17405;12765;9917;12681;8710;28787;8531;28694];
[11559;8368;16609;6386;10020;11551;11177;16793;28759;13181;5546;12671;8790;16490;13077;28683];
[12336;12931;12821;16530;28738;28695;12864;10862;16609;32818;12919;16463;10233;17077;16621;12623];
[32833;16802;13188;28683;10489;9158;28679;12846;9388;9610;12655;28770;6191;12810;12356;28709];
[5651;16484;28782;12500;28819;6378;12525;13003;16767;10664;12459;5624;16889;20489;20481;28793];
[5354;16407;17058;28784;9051;6396;4384;12420;28732;13174;12754;5623;5658;8200;17288;12464];
[6036;12369;5878;13140;11620;9951;11878;16857;9343;12647;16677;6122;12828;28743;12883;5313];
[12034;12345;11011;17392;5065;17213;8620;12969;8306;28807;12546;12886;28817;10487;9586;12489];
[28718;9036;6351;28754;32833;32854;16620;12827;28676;28707;10397;28684;28775;16764;32868;12516];
[28827;13135;16507;13104;10282;12504;32890;13195;5743;12660;12634;12861;17223;12669;28694;9518];
[32910;10497;13102;13124;9473;9664;17397;16701;28773;12775;28702;28712;9946;16556;8702;12959];
[32881;32889;12444;12443;28678;16858;9089;9366;8881;10755;28704;12508;4558;12520;12982;12960];
[32922;32794;9055;32924;8965;12778;17137;17401;8423;12636;28700;16914;16912;13114;12336;9151];
[16656;28677;28772;12703;12640;16540;28682;12766;12439;12765;11879;28706;6166;12455;10533;32927];
[6443;12407;17000;28695;28783;17288;17050;11261;20483;5994;32793;28697;10810;32790;9067;28750];
[11275;28724;9518;16614;16508;28693;16558;12599;9620;28825;12869;12490;28694;28787;16540;12873];
[12598;17295;12803;28770;10789;20485;12823;12752;5900;10000;11574;28711;8916;4942;11048;8987];
[28793;32893;8499;5657;12660;28690;13102;9374;32793;16446;28786;9547;28740;17001;32871;12799];
[9664;28685;12645;12992;32901;12311;9735;12766;8723;28685;32877;12941;16728;12586;9795;6330];
[32845;17403;9320;9375;28682;12624;4180;6386;8367;28683;20490;11323;10213;11126;12852;12461];
[13053;20482;32909;13127;28803;12523;28744;28700;12736;28674;9757;16518;12921;28683;4965;13049];
[8769;28793;4213;6393;32914;28686;17174;8459;32858;9917;11712;5226;6017;17325;32781;9324];
[11109;12840;4905;11465;9919;6123;8963;5356;28761;32827;6114;28808;28800;28699;32819;5036];
[16677;9299;17297;28800;13091;8584;10496;9495;11088;12516;11518;28710;32832;17410;12372;10581];
[16620;12550;28751;16534;12928;12396;12429;17309;8480;10263;12679;13079;32794;4208;5100;11398];
[28786;28690;11761;28736;28757;12668;9983;28705;32831;12404;5821;12291;12668;17070;16519;16756];
[8341;10319;28818;8712;12370;12862;12612;16973;12938;28677;28752;9673;12303;4623;16406;9656];
[28742;12552;9012;16993;12990;12324;12934;17182;13135;6183;28770;5398;10394;9375;9088;9656];
[28673;11574;12348;16440;11859;28759;9952;12716;8423;17045;9311;16462;28798;28711;17331;12861];
[17214;9358;13159;12863;11467;12525;11574;4323;17051;12503;28724;16541;13078;13139;11034;12648];
[13089;12940;32919;32869;16700;12972;5884;28675;13101;12948;10584;13005;17360;12837;28817;28692];
[20490;28680;8848;10261;12983;5902;17051;13180;12940;16895;16460;13221;20483;16673;12836;16772];
[10285;5484;12432;11402;11416;12645;13048;32772;16624;12292;11310;28736;12527;28807;8271;9439];
[12764;11058;13006;8593;13203;12716;16530;28718;17012;10862;12323;13047;28704;10516;17146;12731];
[9285;10563;8767;10706;12994;28706;12959;12595;10858;28737;16576;5343;28772;11763;5590;11646];
[13211;16673;13178;11170;12512;17240;13116;12815;5181;10283;32814;11775;8703;32857;28706;9255];
[28799;17141;28695;16741;16990;28725;12348;10810;13009;9367;28707;32780;5206;16764;16647;28698]]%N.
Definition LOOKUP_2 : list (list N) := [
[28741;16816;28766;9065;12967;28685;6439;12584;5417;12598;12538;28804;13088;13043;17124;6138];
[9241;17092;10513;28716;13068;28781;10743;13170;28806;28824;8723;13192;28801;12634;12013;12755];
[12656;28755;12707;16685;17221;8405;10264;10208;11410;28702;13051;6320;11310;8704;28724;28706];
[12719;10795;28708;9619;10025;28816;12821;28794;8356;16835;32882;12053;12862;16766;12840;12719];
[11511;12360;28700;9965;10851;12947;28735;13115;16463;12839;5220;5655;32936;17077;8927;32870];
[28786;13179;8479;12309;6235;28751;13189;12557;28683;13056;16699;28799;13055;12911;12344;17060];
[10233;9075;28766;12647;28676;32806;8401;8789;28771;12468;28705;11109;12075;8713;28721;10207];
[17174;32890;28698;12624;9666;28698;9610;13003;8410;28752;9281;28775;28787;16620;9617;16526];
[11354;5470;16853;16800;12932;11161;5813;28827;11074;28687;11042;11560;20490;11779;12300;12660];
[32818;11015;8632;12811;12752;13185;16858;12003;10504;12432;10246;5657;12348;12632;13063;28777];
[8899;16618;12308;32894;12648;12959;13032;12969;9547;12402;32778;4572;11392;20488;8722;28812];
[12552;12912;32788;16608;28774;12312;13192;12612;11150;11458;28676;8469;12941;10406;28771;12461];
[10750;11101;12730;17004;12822;13191;6138;12732;32878;28697;13139;17306;32776;9134;32826;4732];
[12812;9960;10218;28806;11157;10569;11984;12743;8658;12344;12378;6138;13127;11997;12295;11622];
[17254;12593;6355;20481;28785;28713;28682;11777;12684;16463;28685;12996;16649;28753;8278;28706];
[12956;32894;32896;13115;5510;28780;13005;12659;16405;12864;28696;28775;12863;10072;17381;12839];
[28795;28712;28760;16983;5630;28806;11873;12496;12993;28754;32790;13222;12295;12395;12929;10459];
[5041;10974;9089;28719;32857;10060;16516;10604;28737;5948;12720;16436;28807;12323;13027;32789];
[12923;28772;8289;16744;12439;28736;28695;28781;28753;9377;28700;11425;32884;13071;11347;32780];
[5138;12538;9776;12594;13061;32851;32926;16763;32891;17000;11750;28743;12822;12587;13045;32934];
[9772;16695;8445;28789;12660;13080;13136;11720;28776;17162;32896;9590;12862;13210;11357;32770];
[16464;9683;12535;8618;8957;6297;12618;5644;13038;8776;16516;8313;11692;12780;32936;8823];
[9218;13159;9971;16894;9067;32826;6349;8701;9713;9011;28805;9272;12960;8790;16825;13116];
[16621;17082;28735;28762;12588;9496;8244;28783;12355;32807;12022;12847;13184;16523;12732;10869];
[16816;8788;12941;28736;5450;16990;12560;32822;28723;12596;8799;9676;28711;11873;32786;12396];
[16542;32803;16417;12732;32781;6074;28680;13041;17292;12720;11926;13219;11357;5100;4720;5382];
[16446;12873;9087;16799;11178;8942;16779;12875;12599;16492;28741;28793;12324;13202;16831;12684];
[11708;12876;32902;11378;8648;5478;10749;28720;12756;6356;6393;8779;32805;8337;13193;28719];
[12010;32898;28794;28771;13126;28774;12656;16735;28779;17082;11042;32883;9673;28707;11341;12909];
[13152;17059;16745;10430;28752;28743;12598;4115;28709;12959;28686;12971;13140;11766;32844;28770];
[16779;10560;17027;5094;17216;5561;12839;32833;28703;32845;13060;28799;12897;12334;13128;8359];
[28720;9532;13068;11408;13163;28728;28683;16991;10621;12755;11462;8302;8778;32881;16523;12684];
[32844;28759;8621;28715;9503;13128;12453;17241;9260;12681;12727;10452;28696;9619;11393;32859];
[28708;28787;28698;11947;12498;10867;11414;10857;4602;12706;28713;32842;32936;13214;12993;12304];
[13114;28699;13104;12780;13092;28743;28826;17407;12416;10273;11048;28793;28809;28784;32844;28770];
[12994;10560;10749;28708;8619;6210;8777;12569;28819;28770;13056;28765;17331;12647;16450;16604];
[8389;12972;12600;16721;10273;6124;12707;12876;28674;12322;12299;10460;16937;4174;13080;16460];
[28686;10280;9707;12744;8991;28709;10987;12379;32781;10221;8790;10811;32928;9376;16925;5094];
[16409;8479;32902;12695;12429;12587;11706;12621;16776;9983;28803;4398;10920;11991;9983;17233];
[12396;6392;17217;16497;32858;13134;13197;9203;9077;9649;9358;32928;32795;4103;17000;12300];
[32784;8920;17244;28682;16447;11609;6391;28703;28807;11166;28709;8909;8533;13199;9875;32806];
[11667;12539;28782;16438;8965;28737;11110;12336;28692;32827;10279;28688;11963;10688;13032;12574];
[32848;28820;28813;32882;12857;16430;12860;5978;28688;8760;32855;4493;28772;12744;28684;10795];
[5076;32927;8480;9164;28758;12681;28811;9983;12653;28696;16604;28767;13152;12740;11393;13092];
[5848;12007;12766;11856;16744;13164;16845;12941;12636;12380;10759;10866;32866;16459;11769;12599];
[10757;16440;28817;13187;4878;12870;10789;28684;28821;17013;12945;28797;5478;28734;28708;10184];
[9909;28794;28695;32814;28721;17393;11698;12384;6001;10812;32885;28698;12840;6435;12461;12345];
[32858;5198;12621;9240;8618;13052;28817;11694;12319;6438;32823;17091;8765;16777;8443;28711];
[9591;9487;12563;28761;17252;12540;16438;12547;12636;13135;13032;28794;16706;12539;28743;13112];
[4463;17106;11409;28673;9685;13061;11114;16923;12864;10724;13114;12537;28760;12359;8480;28718];
[9241;16461;28695;11094;28766;28817;16435;13042;11150;28684;28742;12599;11285;32928;11453;16675];
[13200;12780;12009;28701;10751;11609;5576;12656;8423;13101;12516;28821;11136;4384;17149;11165];
[17300;32828;16470;28804;12648;16825;12932;13199;28707;4702;12839;8479;10662;8252;9474;32850];
[11171;8879;9337;12370;9307;17027;5430;12612;28805;28807;9636;28740;16419;11111;5262;32832];
[12332;9517;8490;12318;28704;16571;16993;28703;8854;20481;13066;32813;28719;12404;13079;11160];
[9310;28795;17390;16667;8787;32794;10240;20482;32793;8605;13056;28811;17167;9519;28692;9077];
[4363;16766;9687;32818;13176;28677;32913;11646;12862;11653;8798;12657;28681;16508;4185;16694];
[28804;28692;11413;28816;13020;16745;12357;12775;28810;13218;28702;17002;32776;4231;32924;6452];
[10686;16858;17011;10771;28813;10876;16798;28795;11050;12920;10431;12539;32820;12651;17239;9608];
[13176;9686;6171;12300;12054;12803;4658;28701;16575;9501;28682;32778;8601;17080;9343;9078];
[10961;16687;28725;13150;12635;13061;28785;12741;6361;12527;9685;9208;8488;20489;13140;8912];
[6212;12586;12791;28715;11538;13053;17240;32883;28783;9365;6173;28705;9386;16621;12501;16529];
[12658;8789;12523;13092;5434;11424;32856;16856;28731;16509;28790;16815;9562;10515;12348;9554];
[8359;9183;28693;32902;28686;28819;10867;28808;13008;12647;28692;12441;9028;12466;10583;32805];
[11207;9256;12315;11692;17181;28763;13211;17013;28673;11657;12996;10285;28805;28677;12767;13111];
[17015;10875;12320;12888;17103;16608;8779;8948;13050;11175;16901;12972;8667;13208;28707;28692];
[28681;13090;8466;16615;13212;28797;8367;11640;28695;12430;16934;8405;12828;17366;10105;28733];
[28728;16439;28717;12547;28676;12299;32818;9809;11068;32872;12068;16752;13090;11699;8422;28805];
[5690;5645;28751;4669;8368;13065;11769;9242;28799;12946;12576;32885;28805;32815;12453;11393];
[32775;8520;11409;12404;16603;28802;28796;28757;32792;17002;9706;12395;6325;12754;9619;13163];
[17004;12461;12756;9839;28673;12968;32774;16782;8478;32884;11166;11400;28673;9086;8486;9814];
[32903;28730;28819;28772;32775;8819;9675;20482;28821;12507;11170;9021;10699;5674;9708;8414];
[9802;28828;12383;13170;17360;11174;5890;28794;32915;11873;16548;17373;12407;32778;10082;12634];
[9385;9018;8424;16571;32846;13220;12427;28682;16542;28744;20487;12077;8362;16620;28742;11640];
[32898;12930;11259;12780;4868;12393;12648;16585;28818;28678;6044;28696;20490;8491;12864;5051];
[11341;9684;6363;32924;12077;28771;10184;16530;13115;16702;32904;13072;12804;28706;5661;28697];
[28721;32820;32859;12588;8744;13180;12981;28818;17311;28678;5261;9081;32918;28684;12442;28788];
[9387;28769;12837;16843;12813;32806;5381;12810;28750;12563;28711;12960;6210;12985;12887;12540];
[16412;16542;12756;32827;11005;9853;28766;11400;28711;16428;16925;9851;28795;16743;12691;16957];
[10712;10413;12478;13224;28676;32841;9675;12600;6217;16858;32830;12862;28729;12977;28685;12980];
[12407;20487;9059;11024;10845;6379;13163;11829;8741;11460;11748;28734;17058;8837;12850;12418];
[13146;32789;13215;12380;12369;13212;6217;17288;11184;5342;12716;12016;32937;28787;12406;17067];
[10664;16684;16992;8932;9553;28707;12648;32792;6138;6102;16844;11260;12741;9310;9430;9388];
[12347;9265;12468;5205;11603;12635;9022;10769;32868;16761;17313;28771;17140;4921;8768;5100];
[32845;13190;4257;11807;17070;11010;28706;28784;11692;12659;8832;9486;5662;4686;12408;13137];
[28744;12669;32934;9044;9868;8712;13061;5434;32855;32819;17053;12469;16777;32803;8570;13127];
[5094;6417;5784;28799;11699;28744;12450;12672;9864;11954;5660;8439;13028;12455;17386;12780];
[13203;12984;16608;32922;8446;28794;28793;4705;11144;12504;32866;16549;6204;28767;12348;11320];
[17137;12924;12731;28731;12600;11583;16656;11150;12658;11747;12325;12475;12992;11478;9600;5269];
[28822;6037;11456;11055;8491;28774;4506;12732;5384;17410;8972;12792;12657;8461;9418;9632];
[12408;6447;5342;5608;10945;17012;6314;32869;32806;11069;11883;11067;28723;20482;4878;28819];
[12331;28682;9874;9772;13091;17093;9362;13140;11058;10554;9599;12624;12395;12755;12647;12393];
[28707;11275;32896;32830;28744;12996;32818;28818;20482;16957;16700;8706;17399;16842;16494;28782];
[12348;9617;16935;8696;12813;28684;32936;13161;28721;12678;13031;28784;32846;28778;16529;28698];
[12479;12982;28761;11945;11873;32897;12907;13104;11041;11403;28806;10877;12323;10490;10188;4972];
[6386;12888;28718;4959;5248;12564;5460;9026;28719;32814;10664;28755;28772;12419;5620;11952];
[12633;8722;16617;28742;28737;32778;4469;28784;12022;10877;5901;11011;16937;6037;28704;13089];
[28795;16677;20482;13162;11760;9686;16667;13110;13016;11349;12597;17367;6043;11471;12683;16983];
[5033;9078;12917;12392;28718;17174;12319;4686;32814;9229;12684;16460;17137;10377;32927;9744];
[13202;32881;12743;11686;17067;13164;28774;10867;17124;5621;4218;9533;10782;28814;11722;32831];
[6103;28775;32859;28821;16735;8789;16564;32771;4099;12744;17337;13128;13220;12774;28770;12750];
[12587;16446;9073;12570;9076;16936;17014;12359;12408;12953;10108;16491;28735;11663;6019;13223];
[9436;16913;11944;16753;32832;12360;28713;28818;12425;32914;16957;12658;6432;16421;10963;28676];
[12768;12946;32772;4106;17130;12921;32784;12838;28740;13180;28796;32803;8267;12366;28719;12596];
[28722;16431;13079;9791;12665;13138;13044;16621;9636;28705;28780;10815;10646;32837;12848;11474];
[12972;32827;28755;8656;11754;12046;28719;28771;12525;12587;12744;10664;13191;9554;28737;28790];
[32921;17209;12658;8411;8491;12851;32816;12053;12693;12357;16672;17304;16491;12296;32814;28808];
[11081;28766;12940;4302;11160;13102;12342;17330;12516;11456;11158;12597;10584;12764;28701;5572];
[32872;12380;12593;11859;28805;28795;13115;10824;8620;13073;12623;5013;13090;12646;16657;8278];
[12972;13220;17015;6394;13064;9975;20481;32845;12392;28712;6146;28688;13044;16696;8981;5349];
[12971;32805;11322;13104;32936;4499;16461;28762;12918;12707;32845;28745;12719;13192;28818;12669];
[32780;11577;8977;17205;16616;17225;28815;28687;10606;17309;13050;13125;12628;12992;13198;9825];
[10945;13200;11481;28744;16744;12599;12984;28738;9317;12813;11275;12754;9907;13056;12559;10963];
[8344;28707;16449;13074;8476;28785;9209;11921;16821;13211;12634;12815;4580;16460;17095;12885];
[28765;5651;12719;4251;17053;28823;12840;17314;12863;4203;13172;28737;12336;13113;17223;32915];
[10877;28709;8466;12322;16509;16728;9078;16588;28796;12404;32869;28794;16412;9011;16577;16604];
[17295;32902;16846;28817;28775;32871;32925;28782;16700;12704;12392;28823;12055;32915;13095;12927];
[4336;9468;16863;12356;12982;32819;32898;28711;32911;5460;32855;12948;32775;8522;16857;16621];
[11906;4748;9656;28784;12348;28701;12715;28683;12354;13102;5612;28681;5658;13114;13062;8786];
[10893;5154;28787;12334;12336;12367;9230;12536;12595;11169;12321;28807;32866;12312;10325;32820];
[28743;13020;13210;32857;11558;12536;12322;16925;5820;10815;12716;12944;28806;12369;11038;9084];
[12864;11451;28692;11964;16707;9884;12683;32879;11013;16579;12635;28685;13102;9656;8461;28707];
[12538;9592;11465;4281;13181;5657;8723;28772;12560;13192;16982;11478;6432;12358;6069;16955];
[11011;16621;11419;8952;17399;10870;16459;32897;12863;17209;11094;12774;12838;12680;32803;4370];
[9986;17093;13067;28758;11945;9050;28770;8533;10504;13215;6015;32817;12705;12648;11664;32831];
[11662;28703;4595;32907;9073;5589;12395;12420;4375;12384;17224;16491;28740;17124;16686;13015];
[10398;28693;12816;12452;12496;10743;28766;8364;11400;12346;32827;9366;8488;16708;16655;16519];
[16461;28775;28735;16557;12851;16436;13002;12552;12324;32885;28698;28771;12403;28826;12812;12382];
[6448;12439;12382;13115;12876;12371;28693;28828;12984;32794;6138;17258;12707;12863;17156;11873];
[28786;10693;16460;17003;11609;17253;13088;9011;13193;6439;28688;8920;17027;20481;17246;8491];
[28682;12837;9095;16997;28756;11168;28707;10144;9517;9087;10582;9076;5627;28705;16773;28707];
[5614;32936;12792;17173;32869;12852;28779;28795;12694;13210;16989;10441;4704;8643;16699;8689];
[32890;9673;28805;16542;12610;16462;16883;17168;20482;12394;9753;28716;8800;16990;28765;10868];
[32786;9022;11908;11574;13181;32900;10449;12971;12645;28818;10285;32799;8206;5994;28710;13049];
[28710;28685;13038;13068;16676;8789;9299;28726;17247;13004;28682;13006;6396;12548;4878;12753];
[11908;8778;9256;28756;32915;12372;17130;9986;28693;8470;28755;12996;9683;13163;10218;9832];
[28787;5474;12680;9554;28723;17072;28736;32801;12342;11114;28727;5908;32902;10322;16596;13172];
[10987;12372;11013;5565;32871;6439;16786;8577;5093;12969;13175;12970;16489;32776;10288;5035];
[12480;10460;17382;12936;12840;8874;11952;9078;11368;9078;28791;28782;8788;20484;32806;5589];
[32870;32814;17095;12646;12653;8424;12994;16439;9963;28716;9579;28725;8480;12420;12665;8790];
[11110;28733;12327;8905;9291;28712;9386;28685;32836;12840;16816;28756;28782;12370;32789;4560];
[17013;8790;12808;32843;13185;16536;11873;11837;28795;6121;5280;32922;12484;13128;9508;6440];
[16463;8604;5577;28777;9088;16956;12598;12956;17324;9097;12907;5864;13164;6043;8286;13020];
[28820;12358;8918;10152;16620;16484;12776;8470;28760;12427;12959;12307;9534;28806;28805;12980];
[13193;9885;28717;16542;12876;16410;13008;10643;17309;10858;12503;13060;12755;12754;9466;12396];
[16667;28705;11755;28822;28783;28703;28691;13092;6395;12311;12369;12768;10725;28701;17391;11585];
[9617;12885;12538;11421;28685;16755;28717;12443;9562;12744;9038;32907;9067;28677;9970;28731];
[12324;28771;12761;10797;5565;9276;12660;28812;12660;28775;5064;12958;5051;11356;12599;4810];
[13043;12384;9665;11290;13187;12418;10191;16921;12350;9255;12620;8414;16741;12874;9246;17411];
[8722;12929;28767;16935;16858;12646;4353;28814;8667;32859;28741;28695;5821;8641;17209;12969];
[12811;20481;12994;12956;5035;28701;32910;28684;32924;32846;12948;12588;32917;32921;4920;12920];
[12384;16563;8769;10571;32820;20482;9332;32793;17368;12753;17216;8994;11657;17167;12588;12850];
[16781;28726;9385;32898;32833;32776;8538;11705;5627;13224;11992;17094;13149;9554;13194;12768];
[11024;9563;8600;9182;11678;5492;9527;6442;17324;12514;9087;16844;9718;9420;32844;12334];
[32794;28706;16677;8364;8650;10554;28786;10360;13047;10217;8664;4260;6353;16924;12931;6318];
[13030;28692;28821;11653;13068;8490;9854;28682;16948;28790;12659;32867;9284;28692;12408;16698];
[10100;13116;12862;9235;13032;20485;16577;28717;16749;12914;13075;16676;9605;8559;5974;20490];
[28740;32780;9567;11161;10661;9021;16542;9329;13204;16957;10637;13139;28715;16824;10690;13042];
[11245;13210;17088;28691;28774;13181;12525;12588;32933;28788;11750;11952;12636;16912;32794;28771];
[12996;13138;12465;16615;28738;5072;32870;8966;9068;28762;4618;10646;12660;5435;12731;9194];
[28764;32883;13112;12465;17328;8884;5262;12525;16751;32791;10664;28743;12504;12884;28819;17332];
[28783;32820;13160;4110;12732;28683;8620;32872;10751;8414;16845;9600;13059;28795;5433;11201];
[8368;13102;32880;10515;12526;28774;13161;12823;28706;28734;12307;28802;13077;32895;12755;13171];
[11780;28693;28775;11707;32814;20482;5821;8620;17095;16608;28804;12682;6123;12072;17179;4959];
[12551;5862;16767;13149;12838;4360;13209;28676;10959;12319;32819;12647;28811;17303;10936;11449];
[12452;28767;17107;8491;20488;11161;12860;5326;16693;12372;32898;13135;13176;12432;12669;32897];
[11165;32937;4877;28705;8358;11110;9302;11998;32853;10107;13176;28770;5034;10459;28822;10481];
[28682;13116;8722;17397;28819;16438;28723;9554;17241;5562;17291;10827;28807;10404;9979;16937];
[13091;10857;28689;13032;9601;28738;12609;9664;17332;12384;10005;13113;11157;4261;12960;28718];
[6184;12618;13222;8711;16609;13187;5285;32775;4176;16698;12442;5651;11284;32883;32885;28783];
[10776;9127;32819;5261;13221;16963;28757;12646;32803;9167;28768;16409;13089;10143;28762;13069];
[12444;12379;10477;12382;32830;9021;9383;16540;6138;13104;16687;32902;32816;28755;12987;16676];
[12383;11775;13086;32780;12961;9264;6349;12700;12636;17312;12610;28711;11050;12372;13040;12766];
[12323;13056;16529;28749;17409;12536;17241;28706;16728;32880;28760;9008;11461;32910;28796;28817];
[16550;9032;12912;32792;32786;13072;20485;28680;11243;11435;28735;9685;9656;28772;28791;28799];
[28698;8723;12347;17117;12407;17166;9373;28825;28679;32780;5142;9782;11991;10865;28708;12900];
[12502;17262;12623;12489;32804;8296;9310;13104;28753;13199;16416;28716;12756;12384;12887;28694];
[13164;12572;13124;10771;11075;32872;8478;11393;17062;16650;8501;12648;12648;12442;10063;9608];
[12888;28761;28794;28828;9332;12072;17294;12875;12414;28807;12537;10291;9497;28741;20486;28755];
[32828;28707;28706;5435;9044;12384;12354;5593;9218;16609;9280;8307;11139;16852;16764;11993];
[6418;28768;17032;8750;28819;32830;28685;12336;12473;28789;16568;12359;16734;12561;16746;8713];
[12852;32883;9990;6392;6383;32851;11176;5512;16728;12076;12047;12731;28808;12450;28814;5325];
[6335;9052;28806;13184;16416;32794;13036;13090;16844;12391;8480;13078;28682;13186;8704;13162];
[28681;17011;12535;17030;11544;12708;12054;28754;28754;13092;32934;12492;11719;17002;12645;16846];
[16593;17250;13109;6322;32816;13005;6300;11070;11464;10470;16728;12333;32920;12763;11609;12744];
[11286;16527;28817;10845;13140;12898;12838;9362;12432;28793;12008;16529;10451;8763;12761;13102];
[28673;16401;6447;16457;28809;28722;12538;10562;8981;28785;13049;10435;12447;9655;16451;8370];
[9630;12682;20484;28728;9089;12863;12683;4812;9302;12417;32830;4158;28799;28705;28686;28807];
[28740;28791;9311;12636;13188;28700;8847;12425;13040;13078;12970;5410;12850;9126;12946;10872];
[20488;12526;28817;12959;17111;9211;12461;5618;12958;13112;6362;28735;10730;12370;9497;17092];
[16419;28792;28813;11960;20486;12295;28681;17398;28736;10543;4788;5758;12875;16754;12801;17249];
[32813;13056;11057;12418;32856;28676;20482;16608;6443;5822;12636;8258;9563;13182;16959;9088];
[16973;8657;28708;28721;10551;11720;16594;12659;16935;32894;13030;8480;16875;8414;28818;28711];
[16779;11557;28675;12372;28806;32817;13206;10554;16462;28703;6386;12754;5821;28682;13061;11880];
[28784;28823;12792;28674;28799;12348;28674;9011;12670;28795;12779;13104;28707;9934;28679;12883];
[9709;17051;12801;17093;12406;13031;12500;11180;32817;12312;17245;12744;28716;32770;32782;20490];
[28813;9561;28677;12623;11470;17158;6036;10806;9318;16426;28771;12576;32865;5978;28801;12367];
[11029;12597;13019;12440;28696;13114;6405;16699;28790;20486;13175;28696;9366;6323;10706;12849];
[28807;10826;9373;8490;12346;12477;11638;9068;12982;32856;13090;12804;10452;12019;11176;32858];
[28747;32870;28801;9019;28723;28828;28754;17161;12953;28731;12988;12755;32813;20483;28702;12063];
[6397;28828;16775;10285;13067;10515;28706;28723;12792;5583;13072;11985;28767;12055;28684;9617];
[6312;10796;12370;11341;12600;12670;9446;17033;16621;28694;28788;28737;12729;28683;17051;13221];
[32830;10254;12936;28821;9153;11011;5034;6137;10269;13025;9636;32907;32911;16681;12538;12980];
[28717;9089;8760;28715;12455;5052;8272;12539;28750;32897;6138;10677;32828;20485;5822;8722];
[28817;20489;32815;12836;12564;9973;13016;28710;12393;13104;11575;28734;28702;32778;4496;28796];
[12540;11961;17124;28818;28681;13053;12899;17083;32871;28732;12563;32801;8523;28743;13114;32892];
[16646;12295;6300;12804;28701;10804;17288;32830;12862;12403;5994;32830;32780;5103;13127;32842];
[12752;28819;17058;13020;11369;11713;28718;17167;9546;12309;9343;32842;9348;32807;6324;10867];
[13079;12294;12515;10831;20485;32807;6018;32817;11647;12766;32781;5727;32855;32882;10274;16777];
[12814;9263;9294;17320;16835;16488;4509;28699;5638;16526;12654;12995;28795;10571;16903;9890];
[16932;9366;11241;9994;28799;28825;8453;11168;11456;17055;32857;9975;12414;6189;32844;28828];
[28707;28700;12536;12658;8658;8292;32774;8509;8479;11672;17304;9656;32894;11910;32915;16540];
[11115;11541;11734;28691;9609;28825;32772;9092;4112;32831;32785;16485;12861;28728;32935;28707];
[9620;8466;5821;12670;11413;32816;8843;11011;5955;28684;10612;8470;12760;32820;9580;16608];
[28822;10407;28815;10013;32857;12936;28756;16446;12972;12680;12379;12648;12693;8936;32833;10207];
[28818;17058;9160;17226;28723;4805;16768;17309;9618;12918;8461;11773;16615;28770;28827;28761];
[28808;12800;28773;32805;4840;28679;32877;12395;12912;28821;10748;13044;20487;8874;12750;28723];
[10218;11011;32805;9233;11380;4140;9767;28759;28798;5325;12828;28684;28723;17133;12811;10877];
[32905;12372;16753;6013;32872;17260;10712;28783;5343;12960;10458;13014;12983;12611;28687;12928];
[32805;4728;5549;28814;28766;12899;16772;16934;12360;17241;9533;12886;28732;10804;20482;6386];
[16688;13063;12996;8419;9975;32780;17256;28761;10712;16507;28709;17399;12320;6062;10910;28694];
[16858;17058;8656;5100;9956;8711;13090;11347;9258;12948;8475;28723;28732;12776;12706;12744];
[9182;11151;12293;5547;13172;17137;28744;32890;12475;13091;11857;12850;12443;17067;28704;28683];
[28706;32844;8480;8976;17397;11005;16675;8649;8957;9022;12821;28796;9311;28804;11047;28684];
[28703;13092;6045;10507;9076;28708;13020;10062;32791;12672;12732;11596;9552;10100;12632;32877];
[5820;13025;9078;11176;9357;16688;17220;11402;10173;17090;5977;11931;28783;17239;28678;10533];
[6328;32890;32812;28695;12928;12958;28771;12383;9729;5995;16824;32787;28776;13125;13016;16570];
[12886;28817;9610;13054;12918;9889;12840;9683;12840;32779;4743;28677;12477;32907;32857;32827];
[28706;28827;20484;17313;12911;16609;5821;12970;28724;12336;28786;32885;9609;12596;4114;13161];
[12756;12403;12802;17209;12012;10823;8846;28694;28784;12417;12631;9265;28678;16688;12596;12827];
[12850;9664;12647;28787;9687;8490;11401;16542;5465;28799;16935;12631;28827;10853;28795;32790];
[28717;6220;12371;9366;8966;11373;10368;17321;28804;28677;4625;5398;28740;12768;9088;17388];
[12393;28699;10949;17031;9962;16620;9607;12870;13104;9601;32870;12680;12369;12500;12368;16746];
[10285;16540;12839;11773;12648;9472;6104;11977;12940;5579;16683;28771;11567;28780;12079;6358];
[28707;28732;12696;12803;8689;16663;28771;12332;20484;16698;28806;13177;13079;9986;12774;9610];
[12742;4936;4705;28740;4116;17402;10206;28686;11595;12647;28721;13030;16570;13103;20488;12645];
[9077;28718;32836;12307;13088;28692;28817;11245;28681;28779;5614;9295;12753;8831;10946;28755];
[13204;32868;16936;17403;9884;9388;16795;28823;28708;17230;12367;28774;12343;13050;4334;10944];
[12526;12967;32884;32915;9068;6327;10811;12888;13140;12383;10260;16412;12981;8665;12033;28821];
[9219;16908;12965;17053;28822;28697;8477;32848;28828;16463;12538;28676;13222;8915;11996;12635];
[28721;17392;13063;12928;13199;32794;8723;9964;28719;28712;12777;16663;12828;12707;5579;12755];
[12646;8956;10245;32808;20482;16609;13007;12940;13104;4879;16463;28796;9089;12562;11048;9384];
[32831;28793;12370;9619;28740;16983;8777;28741;12970;13185;12695;28797;11353;16858;11369;12612];
[16662;12599;16535;12485;28724;12826;28792;9972;8411;28693;12524;13032;28809;32788;5326;16427];
[10215;28783;28744;28771;8480;10208;12971;13116;13103;12658;10553;28782;6044;28805;20482;8489];
[12062;12731;17174;12647;12335;9562;12599;12464;13020;12384;11110;28794;28716;16846;16596;28747];
[10838;4357;28698;12635;12344;13088;28711;16542;12939;16474;12643;12583;13115;5035;8848;5171];
[28736;5057;12371;11094;9265;9067;28679;12940;16439;32807;6185;32885;9264;28819;9058;16563];
[28722;12311;28710;8847;16845;8667;28743;16672;12370;10450;9168;12570;32933;28754;16775;9056];
[9528;17334;32894;17224;8535;32830;12508;13103;5730;28718;12549;16775;28716;32851;4333;16913];
[4701;16687;17332;12659;12417;12981;10216;16983;17212;12801;9665;28709;28811;8631;5124;5884];
[28726;17290;28794;12415;28673;12862;5065;28783;16855;13090;12535;28704;12677;12599;8760;17066];
[32919;5091;28806;12611;17162;16619;28684;12775;32906;28822;10789;9564;12959;4456;32817;12524];
[28717;16700;12922;28749;9492;28827;10472;11088;20485;12396;28766;32831;28776;28758;11873;8911];
[8703;16698;12067;12660;12836;17140;16825;12786;13204;10513;16615;16540;13176;6138;12755;9885];
[28725;8803;28793;32889;10813;32786;9384;12753;28813;12583;17403;12646;12946;12742;9592;12643]]%N.
Definition LOOKUP_3 : list (list N) := [
[28824;10431;9619;12488;9497;12657;17225;13116;28733;16694;9022;12382;11109;6159;16489;12600];
[28719;5484;9367;13160;9320;17174;16673;28783;6108;32818;9534;28776;8460;9256;8423;10810];
[12428;4676;9294;12863;16936;16542;28772;28828;12972;16406;12383;9620;12512;28725;13199;8491];
[28818;28821;28692;5262;9281;28801;28711;6316;12984;17361;28721;32792;4877;11298;11088;32821];
[12372;12460;32896;28779;11651;16558;12743;8774;17367;12608;12934;10431;28685;11326;12309;28676];
[9377;10254;9308;12077;13172;16903;13157;28766;12716;8366;12900;8723;28705;12971;6153;13116];
[16422;13183;12632;5995;28684;32879;16887;8247;13160;12827;17170;20485;28752;6324;16855;11703];
[12526;13125;9281;13148;9814;16691;12300;12371;11159;28783;28772;16699;9454;5658;10489;13038];
[32853;10721;9248;32842;32851;32819;12920;28735;11407;17160;16564;28697;13199;9562;32936;12813];
[12728;28683;16997;28735;28779;9318;16687;32879;16766;12319;28707;13104;28820;32841;28746;9264];
[16518;12535;6408;28766;17275;32844;28744;12299;28787;5356;12716;12370;13124;13181;12600;28709];
[12964;12316;17088;16418;10786;11357;13183;28688;28797;12958;16902;6442;28711;16519;32841;17296];
[12527;17082;8459;12705;5464;13113;32794;13038;12385;12996;4863;28788;32786;12372;28742;28743];
[9038;28702;28741;12395;28706;13195;10960;16824;12796;12516;5915;11923;32793;32897;16925;5362];
[12990;9860;5907;32920;12407;12839;13089;11728;32815;8980;12624;28805;28749;12357;12837;28740];
[8713;28705;10285;5548;28681;12812;9974;32833;12840;11480;9077;28765;12494;10149;10349;11652];
[8219;13158;5566;13135;16666;9554;32934;8926;28736;11574;32800;12447;28751;10184;28771;9986];
[32851;28708;32859;8721;12367;13124;28724;20483;28815;16579;13152;9038;12490;11156;13148;4716];
[28810;11466;13102;12732;32909;8802;13224;8966;28690;13216;16843;11574;32866;12535;28736;12395];
[5256;13101;5782;28696;16779;12646;8779;28787;32866;12490;12067;28695;20485;9367;11685;13111];
[5593;9334;28680;11393;20481;16603;12875;8786;12996;12383;12500;32806;5315;16618;16628;12012];
[12754;28800;28757;12835;10157;11450;9321;12802;10560;17140;20486;5487;13048;16779;28695;5670];
[32825;12731;28686;10216;12883;12635;32806;5626;28675;32787;28757;8696;12335;8966;16700;9385];
[12838;13199;13163;8490;6042;28816;13066;12680;11261;9074;28683;28740;12357;13103;17141;13072];
[5862;4879;12753;13122;17388;11625;28758;12804;13085;8396;13163;28694;16981;16542;28719;28786];
[9211;6281;9302;32878;12849;12911;16755;13052;6394;6215;12573;4970;28751;17240;9598;16621];
[17159;8480;13126;11286;32807;5794;12892;13151;10814;12742;28776;16842;16683;9218;17378;12912];
[16643;12347;12543;28801;12959;10552;12728;32880;28824;9235;9654;28737;8739;10138;28782;16958];
[13114;13059;17320;28772;11460;16552;12646;12597;32785;12618;12311;10693;11323;28754;28706;28777];
[13060;12972;28763;28817;4687;5035;32894;28729;12756;11066;16833;12633;28744;12708;12078;12850];
[12672;10647;6008;4705;28702;12727;13091;8414;5684;13079;10831;28686;9675;12525;16404;9003];
[12668;17324;16458;10273;28775;12875;28807;28741;9710;8696;11448;13113;28749;12049;9376;20483];
[28816;6450;28819;11297;32832;8773;12899;12741;10498;28765;28737;11692;9915;28721;6215;20483];
[12739;13172;12822;9483;6440;16587;12932;17240;20486;4120;12659;13203;28692;8620;28694;17378];
[11334;10743;12967;12743;28682;4287;9608;32935;32859;12932;10477;12824;12491;28730;16835;28699];
[28812;28673;28771;11460;12383;9373;8674;12765;9376;12567;12705;10881;8359;12296;11392;13079];
[8491;12332;13188;9012;28716;12768;9302;6314;28784;12993;10208;16395;11704;8966;17151;17097];
[4938;12804;28678;28811;32780;5619;8713;32885;12864;12552;11584;12922;9885;12594;11130;11708];
[9275;5032;28827;5581;32793;12888;12370;12497;17410;12492;12452;17339;12993;11115;13113;16598];
[10284;8342;12971;16542;28773;4514;16893;12897;12600;12624;12658;12873;8351;13018;17392;12743];
[12622;12910;8720;28800;12670;8470;32891;13184;16910;12742;13209;28680;13150;9985;13055;13221];
[12334;8949;16990;20486;10877;32801;16483;12347;32826;13038;28744;5971;32872;28762;28741;16929];
[13100;13017;12636;32916;13087;9846;12958;16936;28734;28783;13102;28799;17371;12551;32789;16775];
[12547;10866;28733;28696;6386;8422;12418;12778;16492;17110;32828;17130;6314;9676;10853;9058];
[8804;10728;32866;10749;28751;28800;11708;5822;5326;11280;13116;10539;32855;32884;5902;12840];
[12372;12498;12348;28788;11858;28689;12600;28761;12441;16462;16801;28703;28765;10216;28742;8760];
[8554;17301;4381;5885;10677;32924;28677;9816;11181;12536;13186;16756;13223;8779;32833;11310];
[5094;4763;11182;28706;11757;16421;17366;28735;12322;9861;12611;8767;32906;12861;32829;12732];
[8287;10875;13067;13044;8314;12850;32842;11286;11176;11454;10477;12814;16617;28724;12958;9077];
[12838;28811;28708;16886;28718;13104;11164;8423;9720;28763;10515;17302;11341;28787;12816;6000];
[28801;32839;9367;16858;28807;11165;12465;8549;11919;32875;9366;17229;8414;12980;9546;10255];
[11113;28673;9302;6019;9202;11027;12372;12636;11166;10274;28789;9593;16734;12453;9628;12910];
[12659;12827;12515;28694;12551;17339;12636;28683;8491;12399;13185;28828;9608;28674;12718;10476];
[9074;28683;17295;28677;5322;16699;32878;12876;10976;9601;28764;5683;8848;13068;12768;9917];
[11449;12679;16461;17162;6008;28733;13076;16900;28825;12838;13092;8704;12300;12892;4119;28693];
[8948;28698;12508;12668;28681;28706;12873;4348;10207;28799;32804;9196;8713;28774;12659;12732];
[10876;32858;28719;13077;9809;32896;13184;10152;32856;17161;28756;16686;32819;28809;4153;9740];
[12442;28770;9367;10400;32905;12611;13164;13163;12310;12447;28795;6314;28681;12960;12539;11166];
[16526;28798;32832;5431;8752;12537;12933;28696;12715;10856;13170;11140;10178;16742;16462;28675];
[9685;16699;28828;8453;11465;28794;10208;11902;32793;9656;11175;11894;12521;28813;32927;28769];
[12946;16756;13224;28732;8805;12312;28825;32820;28754;9891;12822;9358;8489;11954;28765;11611];
[4283;11560;32883;32802;10337;13124;28785;6349;32915;12463;11094;28783;28826;13092;32898;11011];
[12648;12391;32884;12936;12968;17183;28818;12764;28705;28692;9265;32803;8575;12957;28811;12888];
[13163;28712;28752;28696;11175;11805;12599;16451;12404;10533;8229;6188;16767;20482;16608;13012];
[12598;12846;28755;5608;17082;28721;28782;8468;12529;6391;6172;11723;11888;5094;8836;5608];
[32887;12320;10660;12686;10264;32868;10093;28745;16688;12895;12945;32910;28781;9905;12528;12852];
[16461;28720;28740;11656;4532;10101;28755;16450;12668;12540;28679;6393;8722;28771;17331;10821];
[11058;12612;8876;17137;28741;28711;6444;32806;11621;12393;28826;9664;28781;28730;13187;12368];
[28809;28771;16824;9384;12634;12516;12826;8834;13102;13040;32923;32789;32810;32791;8759;28797];
[5471;11171;10284;11747;12864;28750;12731;9954;12803;13212;28771;28706;5590;12875;12497;10815];
[28756;12767;16854;6220;9447;12864;28714;12744;11523;12657;6431;8769;10187;8424;9374;16463];
[12766;16697;32841;17062;13215;12407;12658;12972;28788;12837;32824;12439;12874;32780;11614;16578];
[32813;9059;12431;12456;12827;17225;28677;12781;13188;11304;32794;13067;10138;28777;28812;11648];
[13100;11105;13078;32777;8578;16667;28741;28805;8723;17399;10178;12595;8479;32907;8453;8695];
[4877;12812;32851;28763;12983;12347;13091;12720;12536;16833;9067;32897;12430;11275;13163;12562];
[6301;12984;11115;10816;8351;12753;28776;9891;11031;28685;13176;12321;12918;32859;13008;12535];
[32866;6299;17044;12929;28817;9553;16857;8688;9086;9554;10250;12560;8777;6434;28705;12441];
[13017;13116;12909;9897;12993;32809;12492;20482;5200;32922;28730;32928;32841;28742;17000;32936];
[9022;12719;16753;10823;11921;28735;12576;10258;17253;11367;32928;12319;11741;9445;6326;9664];
[13211;28782;11967;5393;10412;28744;32855;28776;28820;12646;32811;13089;11160;17388;32935;6312];
[10789;12336;12720;9264;32906;16415;28820;32936;8226;8272;12342;28827;12527;8491;12984;10795];
[12874;20481;8655;12449;13113;6360;28803;13080;17151;9686;32849;28715;13032;32858;13043;16540];
[28823;8205;32871;28710;9003;28802;6124;13110;32814;10816;8853;17336;17031;11773;11544;5822];
[28795;5070;20487;16858;17016;16674;11004;17241;16746;8777;4271;28753;8713;12992;32830;28818];
[12466;32807;6148;10285;12932;28713;8276;11948;12431;12707;8962;16959;28707;28796;28712;28793];
[32911;32870;28674;12776;9969;13076;10880;11122;12730;32869;28675;13003;28702;12864;11615;28684];
[11585;16750;12960;12671;11093;12940;32936;32909;12645;28766;12615;10240;28778;12742;16451;9320];
[10449;8551;28782;12583;10830;12958;20487;12727;11400;32859;9674;16936;10376;32882;32869;11355];
[5486;12875;12632;8790;32830;11873;17072;9311;16854;12395;12803;12969;10513;6185;32798;16625];
[28673;28719;12860;28743;16542;20483;12540;32884;28793;16587;13137;12512;12970;10273;10345;32920];
[10991;13161;28760;17024;17235;32895;17309;32908;11990;28798;12624;5466;28759;17011;11713;12065];
[12996;28716;32789;11795;16395;17015;28710;32846;9778;11748;9981;28804;11949;6087;10114;13100];
[12322;28750;16430;12636;12864;11938;13012;9686;8314;17391;13179;16835;13103;16605;12533;10845];
[28722;12681;16462;9762;11316;13044;12633;20486;16726;28754;32836;12528;28782;32857;10851;8389];
[5650;17222;32777;10651;28740;17240;13125;28681;28763;32881;8966;32841;6431;6197;10477;13049];
[13128;12558;28724;5207;12368;28734;10961;12693;12993;9366;12798;12538;12764;28698;12533;12983];
[16553;8965;8776;6352;32802;8254;13115;9066;12948;16607;8919;8769;5571;10684;11671;12429];
[12406;28722;16722;13139;5194;32805;9827;28757;32844;12775;28736;32841;28813;11990;32903;8444];
[11748;13104;12665;9292;16649;9974;8469;13207;12660;9376;16937;12764;16429;20485;28689;12873];
[6267;16665;12672;28811;9664;12368;16931;11122;17018;9068;16834;13090;28737;12835;12336;5100];
[12346;32793;16498;16538;4875;28785;32920;12753;9099;28693;17104;5456;13140;28689;13210;12934];
[13178;28735;28703;9948;13091;16656;28681;12694;5657;12658;11522;9554;16641;10137;16677;16450];
[4704;28818;8307;12340;8769;12348;11290;12460;16754;28817;28717;28786;11042;9256;8237;10829];
[11657;12633;28694;12924;11764;12477;16650;16687;11769;12419;16833;32851;12633;13030;12948;16463];
[28691;17102;28757;12432;28806;12924;28707;28693;32779;10717;6388;28692;12972;8966;8899;12466];
[28799;12752;11945;5146;12743;11400;28731;9384;12535;12873;12355;11950;12740;16541;6037;20486];
[12336;16620;12850;32838;12898;9547;9042;4259;16463;28825;17249;12394;10977;9318;8344;9935];
[12524;16485;32781;6178;13210;6149;12574;11995;11414;10430;12802;16846;9441;28711;12984;28698];
[12933;28759;16577;8478;13190;8489;32780;5582;8281;28693;6204;8306;12537;12754;28715;28733];
[13067;28744;10414;28817;11396;8658;12929;32803;9163;13181;16752;11246;4955;12659;12959;8908];
[12643;12883;28753;11127;13076;17099;28740;6190;32860;16766;10582;8883;12394;28778;12620;32804];
[17105;8779;10664;9102;8419;8338;13173;28704;10218;11945;10365;9211;28681;6107;32928;6138];
[16490;17000;16667;12394;12297;13127;12508;28772;28682;17251;4767;12732;32883;5047;11991;12450];
[12671;12849;12597;12405;13078;13038;9496;28702;4315;8713;6221;12444;13049;28826;12707;4687];
[28742;9089;17288;9740;28684;32934;28694;8613;16447;28708;16845;32776;8550;11640;6311;12763];
[28772;8752;10795;12322;12803;32845;9089;17369;11844;9103;8459;8995;11646;28721;12837;17173];
[8962;17332;13124;12669;9657;28725;28744;4797;13183;11317;10477;13048;13104;13193;9219;16776];
[12440;28744;12328;32804;8590;28818;12804;13006;9600;17071;32779;4822;4380;28741;12503;5478];
[9377;28754;16699;11428;11456;12464;10963;28810;12802;12658;12693;8941;28807;12798;28740;16777];
[11456;10262;32866;12401;12648;28820;17304;28677;12655;16912;8636;16649;32854;12515;9444;9555];
[13061;16780;12765;13104;28741;32802;16410;12970;12647;12983;12764;9086;12857;32818;12420;20488];
[13061;32829;9530;32829;13007;28725;12610;9918;16507;9609;9890;4940;8421;32898;9310;4959];
[32857;28764;8359;12753;28763;16463;12729;10442;16536;11711;12551;10001;12389;10208;13056;6086];
[13092;12936;9691;12823;9729;12635;16553;12370;11907;32810;17319;28751;6279;6343;32885;12624];
[9012;9309;10184;28756;12971;10184;28752;8488;9736;12900;6043;32852;5033;12012;28697;8366];
[8301;17295;4517;5081;28800;12946;6131;13164;11654;12477;6329;12669;28793;16615;28786;11449];
[10517;8995;28741;10009;11171;12563;12694;12646;9591;12826;28738;12598;5413;16895;28744;8414];
[32923;16620;8787;12755;13102;28741;16413;11144;10743;17151;28815;32932;12743;28805;12671;12335];
[9741;28778;13224;16607;12572;32857;12756;12371;28689;32856;9287;16694;9874;10881;32846;32824];
[20486;12358;9248;13115;28711;28765;16542;32858;12046;12719;12528;28701;17252;28807;12596;5071];
[9723;16609;12538;16604;12660;9309;13127;28751;32846;11079;17354;12667;16542;12958;28705;13219];
[12780;9104;12828;11465;13099;32880;16845;12299;16446;5431;32842;11152;12537;12537;17051;5100];
[12644;12516;12883;12011;9310;32807;6361;32856;8272;32852;8778;20485;4771;12719;5820;12756];
[8422;16515;12984;9386;16411;13041;28820;12441;8920;12860;9934;12742;9390;10533;9946;28718];
[12744;12660;8453;9687;12800;28695;13123;8366;5540;28784;10569;12468;11042;32819;28803;5622];
[28740;12672;12849;9655;17388;12946;28673;16451;32884;12621;11855;12049;11780;12352;12467;13220];
[12860;16700;11169;12920;12297;9264;13132;28678;12993;28673;32829;5471;17317;20483;28741;12360];
[32857;9727;28680;8790;12740;10481;13212;20487;28709;10138;8688;11276;20488;32853;10208;12763];
[28791;16760;12586;12467;9675;5633;6441;10820;8220;12942;6393;13064;32908;12862;32843;28745];
[28752;9366;11011;12447;16451;12599;16609;32882;28806;32819;12680;12611;32819;16992;12075;5324];
[5844;17250;5324;28724;16406;12910;10776;17162;8816;20485;12766;12967;17004;28705;16430;12935];
[17015;32815;4244;28751;28698;28686;17229;10882;28767;9675;12550;12479;10477;10398;12864;12935];
[28777;12682;32883;11242;16458;28784;32819;11858;16655;32789;8419;11359;12827;4325;12468;9555];
[11882;28706;12993;32855;11409;28721;9982;17250;28785;17409;9392;11625;16540;12323;32928;32869];
[28748;8412;28708;28772;12753;28793;12732;13008;12528;5436;16835;12705;17410;13222;10693;16771];
[20485;28770;10765;10458;5094;5623;12300;8524;12526;13053;32781;11118;28714;20485;9608;32800];
[9712;20486;13172;5100;16608;28737;6439;12298;28782;16505;16857;28708;17237;6218;10274;32805];
[17184;12023;12419;13200;12955;32910;13066;28742;8759;12454;10579;11918;10208;12354;8389;12935];
[12347;5485;13104;12947;11895;28799;28779;13136;12646;32846;28743;13161;16648;12599;8713;12982];
[12742;32937;11475;16981;5549;16621;11341;32883;28679;32882;5325;12600;12900;12825;28788;28716];
[8956;17218;11579;10050;28772;28754;32933;28784;9058;5343;12957;17140;28789;32921;9038;28772];
[12828;17209;13116;11307;32883;12360;28714;12766;11358;28743;17346;12311;17373;12980;28705;12968];
[12495;13187;6177;16688;12669;8964;28758;5652;4267;9728;28706;9020;12708;13065;20487;12478];
[32780;11361;28730;12451;28752;12803;8711;32908;13068;12600;10377;11932;9620;28794;12970;12919];
[32817;12049;12358;28755;10217;28807;12636;5590;10640;16846;12860;16616;12610;32829;12933;8721];
[11842;11005;12815;28828;12444;17314;12492;16688;20485;28744;13066;28699;11726;9311;10573;13100];
[12599;28821;12849;16677;9928;28794;12624;16538;32857;11755;9393;9367;12486;5478;12636;11481];
[12497;20485;28721;9656;11130;16801;12570;16930;12659;10264;10388;16492;16937;9376;12318;12922];
[28714;16936;32928;28762;12705;12980;10476;11699;28765;28786;10793;12367;9198;12374;9358;9610];
[13080;4427;28828;9173;9948;28712;28791;12501;12485;6425;8810;12432;17216;28736;32787;28742];
[12838;11231;8405;12648;28777;28711;10483;12665;11581;9656;12894;10239;16492;32852;12935;28801];
[28751;16427;9687;13126;12609;12427;17202;17094;8905;12825;11144;28681;9059;20482;28765;10206];
[8776;16607;12671;13164;13160;16406;12816;9508;16854;28705;16735;28822;9280;13043;12564;12345];
[12767;28815;17328;12408;12851;32867;12490;10817;12960;12648;13216;9068;16845;12526;12946;8296];
[11290;28710;11174;8470;28695;10699;17140;9376;11349;5608;11087;13100;32872;32891;32816;28745];
[6189;17253;8971;32806;11368;10757;32793;12839;28787;12396;9086;9384;8446;9255;11092;17247];
[6434;11911;17398;17160;9824;10369;17171;10532;32804;9790;12393;10815;32858;8658;10871;32778];
[4590;28828;13183;16958;28707;6315;28797;12744;9002;13187;11610;12761;28757;4179;12537;6448];
[8461;9898;32807;5896;16904;32820;32933;17217;17230;6109;17376;28728;16594;28684;9089;12420];
[32776;8835;12947;28783;11297;11925;17032;12620;28764;12346;12396;17094;16620;20483;9394;11920];
[12851;12561;8485;28808;12348;16694;13003;9676;32921;17225;17366;11842;32880;12632;8422;12980];
[32898;17062;12980;28820;16529;4625;20482;10853;28719;12323;11860;11102;13170;12777;16514;6142];
[6217;17209;11779;32842;5549;5550;32868;13030;32894;17147;9863;11585;9571;12597;16857;8376];
[16588;12347;13031;9319;8777;12596;28695;12648;28743;16451;8321;16516;28777;32846;12717;12406];
[13208;9068;12655;12982;13116;17052;16406;12499;16712;9672;12933;17155;5653;12825;28701;12839];
[28798;13005;16462;10809;11409;11094;17093;28678;11458;28680;8248;9396;28724;28793;28765;12594];
[28713;8813;9253;10577;9474;32787;28756;32833;10563;5763;11481;12066;12416;28718;13126;9458];
[10583;11968;12401;28819;32885;17225;16658;12433;12552;16621;28758;32787;28735;28693;11998;12995];
[12824;10963;11769;32885;4942;32903;6103;16688;5705;32858;16937;12755;28788;9657;10218;12306];
[12826;16936;32827;12765;28692;10625;32896;16620;32814;17060;32869;12586;12631;32815;12934;16767];
[13078;16744;16463;10862;13115;12669;11137;12406;17078;5881;4245;12381;16524;28805;12007;28748];
[16459;9319;28788;6044;12386;10544;12751;32906;17308;8488;13103;16934;16462;11821;28817;17203];
[12387;28765;12392;28799;8957;10963;10735;11108;16972;10452;12526;11653;16808;28781;6314;16530];
[12708;8619;11755;12660;32818;28735;13209;12670;16855;11170;5975;17388;12360;8468;12587;12453];
[32828;32794;12924;12575;17011;6351;5058;16677;16619;12959;32788;8883;9022;11991;12852;12972];
[12508;16835;12333;28689;32819;12636;11747;12828;12875;12600;8657;12012;11400;28824;12888;28708];
[28729;4354;16632;13140;11372;9319;10845;12909;32858;28749;28722;10162;10207;9740;17398;12799];
[10929;6221;10711;28751;13008;17082;12432;32818;8966;28784;13031;12323;28705;12695;32885;32908];
[12754;12670;8390;12442;28742;28735;32936;17220;12400;12611;8519;12532;12957;32800;4132;10338];
[16778;16700;20488;9601;28730;28689;5608;12923;12851;12488;11034;13078;17397;16506;17235;20485];
[32819;12010;12803;32898;11403;8489;12395;8357;28674;10444;17255;32780;9866;32937;12570;16736];
[13078;17174;12537;11115;12742;12668;11710;28705;11902;12720;10804;28828;12576;28709;9497;8739];
[8778;13002;32859;12835;12849;8390;28750;9076;13055;11119;28787;12598;11312;16699;9228;32843];
[32825;10094;28784;13049;12516;32813;13055;32936;10152;12910;11144;11589;16756;28766;12971;12641];
[6149;12450;12839;20481;8469;16463;9262;28786;28805;12564;13223;32894;13113;17241;9204;28794];
[12924;9973;5131;10760;28816;16685;12898;9985;12826;9321;17328;12562;11327;13088;10815;13197];
[32932;12054;11059;16517;12348;28724;17150;10240;13116;12049;9812;11952;12390;13019;6432;5575];
[12588;32775;4183;32885;13006;11699;12358;11977;28826;28683;11529;12372;16541;28745;17308;28726];
[13204;32851;8480;17240;28745;9600;9398;28813;12335;17236;12600;12931;32920;28761;28764;11685];
[32908;11544;13171;28696;28813;12587;11380;12540;12461;12623;5915;9265;12320;12600;12535;17329];
[28677;12418;11152;10797;32817;16958;17171;13137;12552;28684;10845;12300;28724;28805;28777;20486];
[28674;32817;13053;13041;32859;12647;28827;13066;8485;12957;12564;12934;28736;4309;12858;28701];
[9017;12730;6448;32871;28824;8470;11759;12995;16772;12623;9241;32870;13128;28805;28753;28799];
[28805;12540;28757;9012;28750;32905;12668;28807;32791;16484;12356;9077;13052;16461;17115;17087];
[9553;5436;28735;6357;10760;17081;10733;13080;32829;11470;13123;9666;32871;32789;11115;13064];
[28796;6043;28789;8405;28758;20481;13211;13127;28744;16502;12396;28814;13162;9367;11423;12943];
[11700;28795;8275;4688;13224;12922;13054;12992;13222;17297;28795;28677;28744;11596;10365;12743];
[12515;32858;13100;9276;8314;28721;10845;11096;12679;17288;5239;28692;32858;4155;11144;17410];
[8412;8338;6284;28826;5252;28822;5549;10101;12448;8322;12668;12633;10217;9891;8364;28734];
[28697;9385;28816;12066;32897;16607;12882;28749;28768;32833;11692;4623;32870;9358;28685;8234];
[13078;6169;9683;16902;16824;12453;28756;12378;32790;9918;12561;4307;17240;12780;12367;28794];
[28773;16700;28791;9066;16700;6387;12727;32898;32802;16646;11032;12840;10285;5566;12547;6398];
[10496;32833;9497;13053;9571;17251;5565;12491;32816;9384;5978;11467;28760;17304;5390;12384];
[12330;12376;16542;4709;28809;6325;12755;32790;16609;32794;20485;12947;10507;6296;28699;13221];
[8912;28688;8423;32825;13159;16700;28787;8586;12389;12679;9619;6419;16832;8397;12671;28797];
[6153;12384;11113;12852;13077;20485;13200;10517;17094;8865;9401;12668;11648;12079;12764;17110];
[10094;28736;12333;8384;28806;12347;8490;10727;8284;28706;9020;8956;4623;13205;16425;12740];
[28765;8789;12717;28779;5483;11755;16438;28813;6221;28770;12647;10394;28794;32869;28806;28794];
[12658;32910;10571;28768;12777;12657;12679;12040;13015;28804;11456;13176;16541;28717;8480;6092];
[10870;12775;28812;32817;28783;8595;28780;13065;11686;12417;9683;28735;10883;32817;9534;12828];
[8965;28821;6395;12764;11442;28780;9402;8665;9687;16767;12935;5689;28824;32819;11841;4960];
[28751;10684;9853;28781;9098;28790;28772;28686;28715;12047;13018;12634;4877;12775;9022;28809];
[28676;28693;6411;28738;10238;9590;12852;17326;13116;28690;8788;10431;11171;16853;6153;12764];
[16825;20484;28795;8752;12668;28802;8964;9182;20490;11470;32872;11025;10128;28805;11922;12863];
[32806;5288;6406;11449;28802;8491;28691;10253;4874;32805;8328;28719;28775;28693;16824;28806];
[17309;28761;9925;12672;12754;11244;12486;13068;13078;12863;11908;5912;28777;10510;20486;28827];
[28680;12660;28827;13041;9956;12876;11176;28825;12883;11059;8779;4814;16450;12063;10066;13031];
[16435;17304;8957;32935;28827;11457;28720;5644;13219;32789;9545;9087;32880;9174;10415;9264];
[11947;16421;6160;12847;28781;28803;10581;9365;32881;28806;12624;9779;28680;12524;6432;11017];
[16981;4415;28761;6279;28717;12598;13175;16540;12849;12766;32817;11567;28683;12957;5116;9182];
[32771;8494;8358;32878;12077;12814;28704;9086;32820;13212;28709;12800;8733;11875;11952;11449];
[13222;12852;12948;6285;12899;12968;28707;28765;12874;13040;9318;13127;32910;28692;8779;8369];
[8351;9385;11854;13030;12426;13186;28805;16819;11679;8745;12527;11456;28826;16508;9261;17230];
[17171;6204;10976;28757;12730;28754;28689;13134;10871;9397;12972;13123;28688;17304;17071;9600];
[28684;10874;6448;32830;28772;12622;11750;6434;17367;5052;13193;9169;12660;13032;32816;32840];
[9355;12624;16673;13185;28818;12300;16688;8533;28742;13216;8703;12598;17319;28783;16825;11779];
[12730;28752;12624;9898;16447;10721;12839;28715;4941;11621;17015;12364;12624;28757;12528;12647];
[32880;9562;5885;9011;11838;4625;8490;4959;12570;32883;8832;12426;10284;16463;9161;32842];
[9350;9358;12009;12334;28742;28708;9087;12345;11414;20482;17331;10414;13097;16779;32832;12706];
[28708;32921;28819;13078;12768;16934;32793;12978;13187;32898;28825;12990;17383;12466;16539;28722];
[12681;16519;9168;28814;8665;28759;28800;17253;17383;12677;9388;13173;28814;11443;8767;28786];
[11314;28728;9059;12719;12751;11172;32871;28809;28772;13103;10691;28756;10806;8788;17252;12371];
[32924;16993;32820;12598;32852;12672;11181;13197;12526;16745;28792;9265;17092;32882;20481;10204];
[8358;9515;8790;28707;6001;16698;12668;13113;28698;11020;12548;28818;12074;9193;12345;16856];
[12861;32780;5452;28715;16530;28738;28684;28806;5883;17388;32891;12598;9908;6397;8768;12647];
[6029;32937;6410;11481;32870;12498;32859;17320;8657;12450;8689;16844;12804;28810;32872;13054];
[28766;12670;12367;4688;12700;32915;32898;28767;20486;32932;12720;9320;8956;17251;17229;28769];
[5100;12444;28735;10272;12536;12708;11176;28784;12549;32921;17162;4959;12850;12773;32829;12670];
[20483;9299;12935;20486;6343;28826;6448;5455;12959;17173;13032;12982;10756;28781;28774;9318];
[5034;32908;12296;6349;12310;12537;11694;32805;4851;9403;32911;13224;5343;12779;12680;5052];
[13204;11223;11126;5561;11766;32870;17251;12816;8665;28794;16937;10213;12742;9552;11888;8696];
[12537;8477;6152;5451;28682;28731;28696;28704;16665;9227;28801;32919;13088;8301;8424;28784];
[8789;10398;13157;12743;9600;28699;28717;12527;9917;5417;4567;32807;11723;28773;11884;9265];
[16619;11884;9388;12538;9364;5914;9302;9218;12796;28724;20481;11481;28702;11436;8982;13148];
[20487;32910;11042;17141;12660;28719;13217;9387;9020;10550;28696;32921;28749;12936;12922;13210];
[32844;8752;10693;12766;28692;12971;12848;8703;17319;28779;12002;12552;12047;6309;13008;28783]]%N.
Definition LOOKUP_4 : list (list N) := [
[17146;16772;10262;5580;28808;17353;13137;10729;17095;32854;13102;12766;16699;13102;17392;8957];
[28766;11480;12776;16756;5561;4971;28767;10218;9001;17395;32814;28775;12490;16462;12671;12776];
[12729;32819;32896;28749;5242;28691;28811;16404;6397;10448;17149;16450;17171;28761;12595;12319];
[17398;9712;12932;5209;17003;8642;13181;28811;16594;28706;5356;12536;12516;10432;28818;11764];
[28737;4122;10160;8667;17229;28784;4816;12408;12799;10584;11323;12984;9074;12852;13067;32885];
[11105;10007;11769;12488;6336;6219;12516;12703;28760;9946;17252;32852;32908;28793;12560;28728];
[9564;11404;28801;13127;8208;28691;17111;12876;12372;17264;28820;32870;28766;12462;12955;6212];
[28734;16397;28807;16857;10834;13224;28718;12307;32858;9318;28716;11028;11181;13195;12863;17077];
[28809;28811;28711;8890;9904;11171;17149;12595;13056;10407;12416;8207;28715;28711;12932;28770];
[17002;12597;9077;12401;12536;11560;12900;5415;12434;28760;32895;9563;11527;12428;9218;12778];
[17251;32884;32870;12932;16844;20481;12944;8423;28810;17080;9663;28784;10880;32895;11161;8440];
[32806;11584;17320;13199;32773;4117;16598;28691;32786;16396;12669;13188;8466;28720;28795;28721];
[12922;9012;12942;20482;28772;28793;12599;12848;12077;20488;11765;13068;28743;28689;11779;13104];
[28786;12994;12768;5608;13174;28815;16448;12754;13053;9986;13004;20485;32807;11424;10583;28826];
[28723;28673;13211;13176;12960;28811;16937;32898;11132;12497;12947;28730;28717;10582;28755;10940];
[28811;5263;9350;5653;28752;13087;32921;32801;12484;12009;10218;9564;11245;12872;32779;4731];
[9912;28795;12680;9983;28741;17080;16765;13056;32846;11245;13100;17317;32837;28810;9593;10066];
[8489;28743;8548;10058;12713;12427;16937;12968;16463;11475;5651;28694;32905;11104;11888;13137];
[11179;11966;12416;4449;12837;10407;9675;9463;32805;10425;9466;28819;9779;12923;28720;12936];
[9774;28816;28770;9985;16980;10198;12647;10507;9086;10584;28760;17393;28768;28743;8704;4450];
[13103;17309;9088;12968;13223;5419;11956;28799;10879;12634;12852;28827;32921;11480;17399;28774];
[17399;12816;12912;32854;20481;32820;10705;12441;11481;28782;13102;9357;28788;5566;10478;16508];
[10204;12826;9563;28688;32793;16683;12501;12820;28720;10458;12550;5028;28718;13185;9067;12900];
[12619;12407;11182;5326;28796;5964;9635;12623;17409;10480;28806;12682;28755;9908;12420;4125];
[12391;12792;12479;12441;28767;32776;4290;17066;12809;12636;20481;11182;12851;12670;9980;12551];
[12025;9684;12930;28781;12007;28714;12348;12947;32872;10533;11955;12984;9022;8210;5065;32856];
[13204;12703;12395;12948;12911;16856;12068;12012;12707;13212;28735;28770;13187;10458;11481;20482];
[12320;10285;28736;9665;16618;5659;10309;12944;8429;28812;12762;28705;20487;11047;28740;32869];
[12077;8788;28735;6107;13056;12695;8841;9089;32937;12502;28680;10575;10584;13091;28793;12466];
[28755;16579;6125;12585;13127;11622;16687;13224;11924;10497;12587;17003;28711;28781;16456;9235];
[9059;13068;8263;13199;6451;12634;28741;12980;9647;28793;32868;9320;10589;12400;12683;32855];
[32781;6090;32774;8511;28711;12310;28673;12420;9498;12861;11522;11054;12047;11117;16563;12430];
[12861;12766;11780;12600;28824;12820;6148;12863;28752;11757;16461;10509;28775;28733;11612;12755];
[8460;20484;32802;8539;12944;13173;16856;28708;11369;12682;11181;9851;8768;5549;28685;12008];
[13199;28763;17411;16767;32872;11408;9377;32778;8614;28820;17253;16398;11932;28673;17409;32935];
[12851;32809;12406;8506;28702;12850;11735;28782;8720;11998;32923;12982;17368;12552;12722;12416];
[10480;12571;9620;16936;9129;8423;16476;12598;12972;28770;28812;10458;28753;28763;11945;11560];
[16711;11667;11290;8722;10743;9601;28781;12341;9374;11044;28818;12825;10496;16449;12926;16688];
[16694;8440;28734;11574;13176;28764;16857;28824;10516;28767;12875;32924;8267;12820;12461;32910];
[28704;28791;28808;10822;32817;9240;28682;32787;12307;32889;13172;32872;32866;11542;28701;9664];
[32937;10755;8211;16829;13204;5902;12683;28804;11303;8647;6424;5631;12390;12778;28694;12981];
[17385;13175;16857;4305;17378;32855;20490;12359;12671;28698;16697;16745;12982;28734;12355;10845];
[28793;11779;28789;11622;5065;13149;17331;28821;12297;5449;9131;5653;12924;12714;28700;8769];
[5483;17329;5976;12960;28777;28697;28770;12670;10504;4311;17045;8774;28686;12742;4250;16895];
[28699;13224;28780;16490;28796;28767;32922;17348;11042;12659;11385;12970;28761;28827;32856;28719];
[5645;13085;12938;9065;11993;28769;8777;11048;28755;20487;20487;4314;32812;12972;28698;4126];
[12047;32889;12861;13197;28788;13115;10851;11120;10255;10754;17405;16973;12046;32872;13067;28765];
[28813;9534;8786;28714;16582;17330;12486;11479;12491;12600;13163;28746;32819;12534;28750;28755];
[32820;32810;12672;16474;28677;5243;5883;28796;28765;9573;13221;8881;12767;17045;17016;11932];
[12455;12587;10160;28734;28705;12670;32778;8589;8488;9386;32841;13062;28741;16657;17059;11665];
[11564;28758;17411;16593;8696;12980;16688;12664;9673;5902;6186;28784;12401;28787;11005;16835];
[11758;12435;12394;28717;12063;13005;12960;13127;8905;8510;10858;16982;6008;12012;10496;10414];
[12507;16822;16765;12703;28731;12672;5793;8611;28760;11100;11309;28749;5479;5995;8487;6086];
[8233;6296;12936;12527;28751;11544;5977;13211;8778;16617;11150;12910;28781;12427;16569;16856];
[11886;28781;28712;9319;28823;8768;13152;16821;16619;12635;12324;5449;8490;16477;32843;28674];
[12658;17253;9468;12755;12969;17398;12586;28684;16895;4322;13115;12500;12756;10152;12335;28712];
[13128;12419;13078;12647;8831;28782;8915;28726;32866;28700;32826;11978;28812;8918;8480;28803];
[9673;28697;5214;9142;28798;12608;12934;5356;11633;12935;16834;12760;12932;12549;11611;12768];
[16419;12836;20486;11745;6124;28682;17330;13056;13174;32898;28772;28804;11626;10512;17167;28710];
[11410;28826;28734;16437;32778;8592;28815;8722;8424;12768;28720;11778;28803;16831;17015;28780];
[8778;8852;28693;32857;16444;5654;9182;11626;17071;12738;10250;9509;17308;12995;12068;12936];
[17072;16462;12707;12670;16981;16741;12536;10550;12816;32924;17052;28769;4359;11107;17145;9018];
[28803;9912;11391;5738;13044;28805;12927;16662;12309;12935;28763;16914;12468;28825;28766;16776];
[10262;6022;16855;32842;13163;17250;10706;28799;6186;5999;13184;12079;12636;28811;28696;16982];
[28826;32779;4886;11954;28813;12519;17332;32866;13211;4910;28732;16846;28752;13196;9666;13090];
[10755;12660;12624;12564;32895;12719;28675;12331;12864;10446;17015;16743;17072;13027;28816;12648];
[28743;28815;12078;28781;16699;13044;11392;16673;28776;12692;28780;32829;13174;8212;5978;28762];
[13091;8871;28687;13198;11371;32790;28745;10080;12706;16667;28743;13212;32881;28819;16519;32828];
[28745;13103;28683;9075;5616;8664;17304;11275;32908;11054;12780;12596;28826;10581;12802;12731];
[16681;16747;17411;28677;6443;28775;11900;16594;10646;12981;12939;28715;12497;17076;12332;12912];
[11341;28826;10963;16402;4740;13197;11470;16716;28804;16700;4667;12790;12840;8603;12812;12828];
[11167;12919;28774;16846;12600;6128;9794;6045;32842;12439;13019;13143;11943;17403;17303;12068];
[28763;6343;12622;28804;17145;12756;32858;13152;32937;17264;12598;11965;12927;8912;11626;16913];
[12816;28717;17250;16742;12552;9762;6165;4940;12630;16778;16399;12840;17241;12981;12299;4705];
[12756;6388;12930;11700;28816;32933;9377;16430;32871;28727;6108;11589;13163;5673;9976;32814];
[28698;28761;12562;12744;16778;12523;4943;32816;12395;13027;12461;12669;11274;12507;5356;11865];
[12323;8239;12886;12941;12065;11352;9375;32815;28815;8778;12912;28808;10945;13041;32891;17340];
[11649;11100;12606;32858;13137;28741;28743;10526;11302;32895;12415;12740;17203;13216;5052;16815];
[13224;12823;12299;4351;16541;8584;4921;12970;16437;13097;9636;12900;16752;28765;17367;9468];
[9564;6452;28716;13162;17072;12514;9086;5449;11988;16598;17310;12078;11393;9563;28690;28682];
[28676;28801;16571;17076;12622;28753;32934;28761;28736;12335;11671;28778;10913;28782;8480;9610];
[12776;12971;9845;9288;5915;16594;12942;10560;32818;5969;32895;12918;12566;28825;28756;32776];
[10303;9311;12876;28805;32831;9172;17208;8875;11304;12684;32911;28827;11392;12876;16754;28784];
[28673;11691;32816;9003;32811;17087;12316;16449;28824;32807;6407;16579;10801;32869;12049;28692];
[9680;9666;17383;12924;13128;28721;12876;16440;12779;13216;28740;28716;16451;28764;28801;28743];
[11409;16936;10285;5608;12382;32892;28678;12756;13073;28770;12767;10560;28675;10169;10815;13104];
[16801;5614;5614;6394;12522;16856;12419;32909;8408;28771;17132;9687;11341;32814;17408;32882];
[8241;12648;8786;5579;4570;13116;28802;28686;28693;12555;28773;28678;6218;12539;12876;16912];
[11860;28737;9560;5140;9068;17150;28686;28816;28711;16877;32906;12874;16775;11102;5645;8723];
[28699;28826;10262;16524;8577;28722;9374;12840;9234;9386;12875;8790;12610;32816;28691;11823];
[12563;16621;17160;11608;17318;28761;16704;16700;5081;11156;16958;28714;28691;9952;9077;16856];
[13223;10199;8461;32922;11881;17408;9321;28680;28753;28675;32908;28716;12629;32903;11311;12596];
[9016;28685;28802;11086;6432;13212;8817;12982;12451;9953;32788;6284;10647;17384;12611;32801];
[9998;12860;11114;6447;13088;12348;20482;8477;16752;17131;28814;10482;8650;12753;6408;8642];
[17011;10750;16911;6190;5488;28782;6284;12848;12624;28689;8779;28702;4625;9733;13224;13054];
[28766;9554;8424;11691;28728;28717;13217;17086;12371;9124;12859;12910;13080;16450;12598;11721];
[6153;6328;9464;9256;17081;28691;13123;32937;28701;28805;9078;9863;32776;4219;8489;13065];
[16849;10851;12596;12755;32833;12909;12840;28816;13053;28782;28804;20490;32858;17253;12455;12631];
[13185;28692;28819;9342;28770;32826;12597;12527;16857;28747;6314;12731;28793;12599;12355;8490];
[10905;12600;28819;8321;16729;28827;28808;5773;12039;12755;8404;11333;8779;16559;6037;13046];
[10946;32788;28817;13002;28803;28684;12581;16612;28824;9452;16654;16717;9287;12887;28746;28742];
[8513;16564;4747;13103;28801;28815;20485;8722;16440;8940;28810;12582;10692;28718;28682;5608];
[5236;32820;28814;28791;16500;12714;17320;28678;28729;11806;13115;11155;12528;32934;28750;28755];
[13135;12462;6203;12911;12893;12512;28784;12419;6424;16500;32777;8563;10597;12935;12671;12406];
[28771;11603;12669;28697;11859;11150;12898;9020;9502;28826;16895;13223;16834;9387;20488;28808];
[12899;28824;9778;10945;13056;12801;28774;10854;12741;12442;32885;16429;8760;4561;12536;9636];
[13101;12428;10963;28760;28781;32843;12871;12608;28823;11095;32910;32779;4990;6284;12504;10806];
[16429;12513;5470;13058;12357;10072;9388;12597;8617;12391;28760;13188;12667;8957;20481;12623];
[12935;32819;28780;12672;8919;12667;16606;12347;28802;6342;13078;12444;6209;12624;12429;17383];
[12984;16614;16816;16683;12837;20482;32843;12789;11921;32931;17189;28799;28762;17399;28768;12571];
[32771;16466;10151;28777;12473;13046;12508;28823;17235;28788;8964;28819;28700;28743;17253;16895];
[10871;32774;4135;10444;28683;28733;28784;9918;6172;4293;32802;8553;28759;12695;12695;8929];
[8721;12771;9759;12427;28822;17399;11884;32802;10310;28761;9873;32936;32832;9518;12731;5031];
[12718;16505;13185;16830;13001;32923;20486;8349;12636;12346;28815;13006;9663;8990;11650;8920];
[16766;28812;32794;17160;10742;32911;16825;12765;17015;12867;17092;28728;8350;10851;16857;12551];
[9226;12957;28697;16858;8779;9986;28801;13137;28811;8966;28710;17236;32898;32777;10591;11115];
[4941;32859;28696;10883;10872;12657;13044;8414;12538;12540;9500;12635;12751;12766;16966;4959];
[12882;12775;11859;9863;5627;17288;12586;12371;10992;13057;6037;28770;9206;12597;6449;12729];
[12526;12873;16767;8986;28826;6342;13135;13180;12002;28674;4688;12562;9879;32807;11883;28742];
[16459;32859;9248;9713;10434;16605;17092;17253;28720;28787;16509;12077;8665;9106;28711;11691];
[9555;12741;4129;28769;8993;28686;13197;12299;8687;9555;28711;10431;17166;12774;28727;9977];
[16518;9879;10057;12711;10864;16617;28696;12905;20484;13104;28754;9773;32897;17111;16449;13115];
[12068;28764;28823;9265;28704;11411;32837;12801;10263;28797;11413;9386;9367;28787;32859;28784];
[5827;28681;12983;12707;12896;16697;12968;12670;12442;28783;12828;32822;32893;12768;10857;11065];
[32816;10719;28698;13212;17014;12612;8269;9599;12431;12355;12780;32842;20486;9562;28690;28682];
[17409;16835;10517;13132;5081;16829;32910;12996;12359;32894;28799;16517;28792;32775;8518;32807];
[12348;16716;11998;16420;11779;12996;16844;8995;12983;9010;12843;32781;8761;12396;32807;17342];
[28816;28731;32781;5944;17236;16858;11479;11156;28817;8910;12744;32817;16564;8667;32856;28750];
[11860;32859;13030;28776;28718;16615;28681;17287;11162;28694;11622;12707;28708;28789;12753;28772];
[12670;8546;5681;13078;4641;12882;13073;13073;28795;12533;9388;28756;12573;6210;12717;13018];
[4688;16858;12526;11861;10573;32777;9455;11344;13020;11627;16835;11993;28709;8360;8677;9219];
[8222;12395;17166;28782;28727;12872;32841;12552;12600;28677;10863;5617;12919;17309;13013;12466];
[11567;8278;28734;12835;11900;5882;8988;32937;12479;13091;16687;12444;12767;10693;28795;32777];
[4365;11756;12646;16618;13030;28731;13091;28727;28742;9764;28718;28780;12739;12923;12848;12357];
[10554;12323;28732;28821;5886;5548;11387;28726;28754;16709;16516;13140;10263;12776;13029;16958];
[9676;28807;32851;6213;5566;4841;17251;11887;12382;32771;8793;13068;32867;9580;11341;12803];
[13102;28708;13125;28717;12908;28683;6165;11993;17320;12612;12910;28828;16507;16948;28728;12535];
[32805;9251;13101;11402;11632;28775;16458;8584;10435;16608;8939;12983;12835;17318;5482;12948];
[12668;12919;12814;12418;12333;12814;17362;12922;28810;9307;6432;5260;32841;12599;28806;4288];
[28751;4625;28774;32846;12864;8413;16558;8379;11725;28710;8404;12335;13090;32853;28770;11745];
[12597;17111;12328;16615;32811;9174;6439;5565;9321;10730;12540;12572;32878;4688;12983;4618];
[13031;28742;28817;10583;11448;17185;28813;12852;28728;8880;28738;9230;16775;11603;10584;12816];
[9088;13140;9010;12756;28678;6173;12371;12431;12021;28679;32804;4677;13200;12564;9728;28680];
[8221;12501;17241;28680;16973;5478;28799;9673;9654;9131;9580;12448;17032;9446;28814;12874];
[5079;13150;9657;10369;28734;12311;17189;12710;28770;16699;12810;16752;16412;32924;12441;16820];
[6349;13104;6204;12980;12764;16508;28828;11005;12680;32793;5611;5627;9518;12335;10116;4130];
[5265;32819;28686;32921;32830;9316;32882;16541;16936;28732;11953;13152;13127;28736;16777;11780];
[12834;28752;10414;12959;17032;28787;28763;28775;11470;17308;28809;32870;6380;6380;32882;12468];
[12994;12623;28755;16772;13123;28717;12900;13127;16934;12052;28814;9087;9021;28822;10580;32833];
[32936;9198;12859;32870;12381;16884;6024;11245;12767;13101;12800;8962;13210;12369;16846;10044];
[12538;12756;13076;12731;13170;13159;13194;12721;17251;28781;17399;17246;17060;11136;9082;12432];
[10992;12634;12863;12571;10164;12888;28800;28708;28788;20488;28769;12806;12606;9021;13063;12455];
[28764;16959;12987;12562;11938;11481;16773;28734;17161;12312;5819;16828;12023;5741;13128;10852];
[16932;11925;12787;16990;16447;6131;28727;11366;11943;17320;28789;8479;5448;32908;16841;9656];
[16459;11747;32883;10648;12539;12852;32893;16878;10992;10274;4971;9860;28782;12678;5263;12704];
[28738;28753;9616;12564;32868;12874;12487;9375;32871;28800;28718;28777;28795;11103;8283;11543];
[11457;32854;5631;10273;12670;28709;12899;8527;13126;16526;32937;8720;17409;16745;11561;12648];
[12459;10806;12431;12606;9022;10399;32895;17388;28700;28811;12840;12371;32832;11105;13169;10883];
[28766;12803;6439;12714;28722;11026;6434;4134;17148;6196;11924;8307;16619;16966;17138;28727];
[12931;5094;9320;10774;12872;12946;28695;28675;13080;12840;8964;28802;10115;16858;17306;17050];
[5688;17343;28800;28765;12851;6343;32820;9728;28710;4599;12513;28828;28712;32833;11585;12703];
[32839;32774;9107;28684;12391;8822;12379;10947;5578;28690;4239;32826;8965;12835;11114;12561];
[11938;12774;12994;17174;16588;13222;13170;9807;10460;17261;17410;10883;12408;12813;28751;9453];
[28776;28796;5159;16609;16700;12851;28689;28794;32771;12313;11040;12912;12813;12455;11372;17253];
[9131;10407;28681;12951;13116;32910;13018;12752;9384;12824;12970;13003;17016;28705;32837;12355];
[17411;8489;28706;16562;28814;28790;13043;13091;28751;32826;5931;16754;12672;28717;13006;10869];
[12750;9539;28806;32895;28774;32894;28681;17079;12368;28718;9198;13159;32921;10760;13002;32916];
[32916;12983;13164;11010;12382;8947;16856;12918;11779;6262;11944;12969;28731;28690;13223;10190];
[12958;8720;32858;32876;11304;16992;9247;12672;11429;11058;12593;8658;28722;17147;13170;8214];
[10253;8654;13181;9059;12924;12930;32910;16420;9066;32824;9683;12406;32856;32855;13185;12539];
[12293;10546;12862;5653;32792;20485;17411;5995;9320;28726;13185;32911;12969;28742;6300;32882];
[17010;28685;9756;16695;11296;11589;8223;11556;28752;28789;16779;5213;32845;32893;28725;32929];
[10605;28713;28739;32917;17253;17203;12480;9347;16695;8961;8788;11347;16744;12683;12840;16998];
[28763;17051;10844;28737;32884;28740;32807;9370;5461;8704;11327;32893;16728;28795;9326;5086];
[16858;13002;11944;16903;12347;12551;9022;9068;8477;28761;32856;28815;32876;12474;12429;28797];
[12996;28695;28708;28719;12899;32868;4972;12820;12935;28781;8982;12768;8618;5902;9609;9087];
[28828;4294;6362;28785;12588;16682;17236;12537;16621;12942;28733;12682;17078;28800;12528;28722];
[12557;11657;16399;28773;12540;28827;9472;12720;28704;10536;12511;10498;12312;20487;17189;28700];
[8936;20489;10535;12744;32843;28772;11312;17059;12920;17174;5976;10781;16993;5476;9657;12599];
[11747;32846;32909;28782;10903;12684;20487;12605;12837;5566;12719;28770;5608;10458;8759;32872];
[12945;12779;5484;32875;10461;10413;12639;28800;12827;28704;12799;12401;16530;28709;8942;12318];
[28701;12012;12381;6450;32885;9320;17188;12834;12460;12732;17003;9256;32878;10760;16570;4972];
[32936;28790;13092;32804;9207;12672;17211;12528;12666;28801;12995;17237;17070;32895;12882;11088];
[28748;11046;12740;32856;17059;9342;28778;13170;16419;28738;32910;12815;10805;11700;12396;8521];
[11102;13091;32791;16850;13089;12432;28789;9301;12413;8749;11058;17239;17411;9892;9068;12501];
[12383;12960;9089;12715;20488;9021;12984;8759;6053;12765;11475;17138;11765;28675;12319;9321];
[28806;12976;16685;28807;11303;11345;10451;12449;28773;32907;32781;6011;12550;28786;12815;12382];
[11544;9260;11910;12361;28673;12340;9421;8790;11308;28681;12621;10247;28782;16710;12672;28725];
[32793;11779;9265;9672;11774;11774;12864;17247;12331;28815;12408;28807;17383;5594;8403;17410];
[12822;8723;28784;12731;32876;6206;28807;17068;28739;32771;16545;16767;9919;10699;28758;11990];
[17083;6108;11701;28754;12624;12395;16495;17332;17138;8827;11161;12502;16935;11344;28781;28795];
[17068;20481;8898;28826;28694;12984;28769;16910;9374;12011;12348;16774;11048;16567;17330;16699];
[10843;32892;11703;12752;28817;12923;16766;12811;17062;16530;28742;32905;6120;12863;28678;28817];
[16992;17194;28675;28719;9846;13126;17281;12526;8745;28706;8424;32858;32934;32778;8886;12918];
[28827;17206;6301;11075;32891;32807;9630;28787;28767;32818;17140;8758;11304;12867;12911;12659];
[11507;11304;17070;32870;16925;8361;32855;28764;12539;13031;16936;13027;20486;16621;12475;9352];
[32775;4164;8487;32898;32891;12731;9616;8658;9040;12703;9711;9618;32856;28709;13066;8683];
[5477;32924;28676;12704;20482;32936;13019;13188;32935;8478;28756;13209;32806;17263;12501;11384];
[13211;28758;28743;11358;5482;32871;28784;9802;32881;11647;11052;12969;12715;16436;12670;28708];
[12587;28800;32806;8418;12054;6300;28683;32775;4160;12875;16619;32788;13041;16526;11304;28677];
[13014;28819;12875;10630;5607;11990;11713;10806;32801;10022;5094;32830;28813;32895;17267;11087];
[12959;8489;13049;11352;12930;17061;12599;17266;5612;16433;12012;11312;12537;12007;12007;5632];
[28693;12635;17332;10789;9298;13135;16804;28801;10789;17264;17160;28707;28691;11310;6021;28750];
[12923;16420;12539;13212;32929;12396;12294;28760;13161;16773;28800;12464;28828;12799;28812;28677];
[11939;12972;28719;12634;28732;28753;28820;16542;6344;12587;12762;11346;12730;13161;17319;13017];
[13038;10816;12559;12852;16530;13101;28756;12850;12823;28678;11341;28787;6395;12957;12992;16451];
[28687;12874;32826;9839;28751;17220;12012;12294;12528;12706;13149;28699;32924;28717;11470;9088];
[32928;11114;11412;28759;13101;28820;32778;10928;28754;12584;9350;16903;32776;4215;28824;12765];
[32789;28762;28807;12467;28804;6108;12671;12715;12660;9064;10801;12671;13065;11595;12332;6125];
[16958;10584;12659;10505;9375;17154;13210;11088;16539;13205;12491;28802;32909;8256;8424;13161];
[9089;12672;32831;9885;10795;28741;11094;16981;5267;28800;28722;13077;12545;4136;9086;17094];
[17252;10536;20486;12958;28811;16858;20481;17145;20488;16847;28800;16856;8852;13077;16459;12926];
[28694;5579;11151;11866;17279;17162;17159;17208;12324;10706;12345;20486;32892;28810;8322;12682];
[20486;5478;28790;12078;9051;32923;32777;4361;32929;9962;28779;5132;28772;10798;28708;12537];
[32857;9358;10592;28767;28760;17239;11998;6366;16699;11656;11355;12672;13206;28777;9500;28755];
[6366;9564;28712;12477;12636;28802;28792;12436;17072;6282;28784;12811;32820;17226;17155;32893];
[12333;28720;9088;28793;28824;13090;10809;28772;10514;32815;12740;12485;28825;13188;28695;9319];
[12054;13175;11115;4451;6007;16760;12633;8424;12909;13140;11389;10295;12299;12390;16509;6037];
[28767;28707;12362;11171;28687;9320;13224;28728;9965;13037;12008;28799;16914;8477;16859;11670];
[28683;17157;6407;12937;12767;12897;17076;9366;16676;17174;16936;12041;28820;32898;5613;5471];
[32937;32903;9610;12778;28779;16592;32903;28801;12299;13104;4945;8477;13104;12320;16587;9248];
[28815;28779;5645;13043;28727;32778;10890;4163;12919;13188;13171;16621;9109;4535;12596;12540];
[12504;20484;28713;6411;28750;11428;6029;17229;11142;28760;10274;12691;6409;10871;16901;11657];
[8776;8964;12647;28805;16846;8882;12393;11708;12893;28681;8723;32778;9783;12444;12958;28783];
[28708;17147;12564;16776;13044;10104;9123;12930;12491;32791;17108;12768;16621;32858;11358;28773];
[12336;11607;11414;28730;28744;28820;16992;16699;5579;16410;28696;10862;13064;9088;28763;12576];
[13157;12863;9642;9049;9580;12600;12518;32796;8198;28763;11100;9077;12363;28778;12352;6283];
[28802;16508;6167;12648;9349;10459;10132;12515;16858;5908;12813;28802;17095;13148;8787;20481];
[28752;28763;9365;12850;16667;28763;11642;12921;12983;11954;28698;28750;32924;12970;12669;10497];
[10844;16440;16539;9845;9891;17157;8573;32831;16727;32805;9238;16568;6329;10812;32891;12787];
[11387;12921;6159;28713;13075;28807;28782;16697;28723;11645;12959;28777;32893;11239;10969;9851];
[32796;16390;32933;28700;28754;28789;11401;28720;32777;4339;11688;16540;10572;13038;28771;17399];
[17078;32906;12588;10710;28685;13118;12986;28811;6190;16461;11603;9022;28800;6029;4524;12718];
[32859;6443;9387;12715;5173;16614;13087;28761;12598;32896;10573;32903;17070;17093;28790;16914];
[11243;10505;9986;16904;5915;9853;17267;12441;11115;16722;28778;12636;12576;17203;12516;28807];
[28749;16423;11115;8485;12983;16506;28708;12720;28805;13223;10444;12331;32813;10816;28796;32867];
[11694;12370;28784;12422;17091;32859;9493;32797;8497;28728;13038;16856;32929;28700;12058;11712];
[28816;11443;28808;32797;12291;28708;10348;11603;12719;16498;17369;28817;8786;13174;11355;28811];
[12488;12704;12540;17123;9002;28760;28699;28743;28676;17086;9068;32935;12958;13050;9375;5528];
[28755;5579;6175;28792;28709;28766;12375;17128;17013;6349;8786;10806;9044;10870;12715;10746];
[12504;12922;28706;9386;11426;8476;9111;12667;9265;16920;12599;20482;17248;5915;13159;12996];
[11058;4515;12875;28790;12454;12701;9286;5325;32884;16937;17091;28801;10552;17083;12946;11148];
[8711;16482;13066;9828;5608;4138;6380;28797;10497;32818;12425;28744;12960;12862;32819;28738];
[11648;17318;12692;11640;12876;12599;32772;16468;11160;28715;12994;28826;9385;28820;12619;28777];
[13015;11182;9899;9235;8398;5645;11786;10271;12073;8768;28800;11692;28684;32858;28755;17326];
[28679;16825;8487;6208;10553;28794;12600;28794;20484;28798;28756;32937;28681;9635;5436;9362];
[10107;13062;17235;6037;32815;12026;6171;11765;11105;28777;13079;13017;17016;12540;28812;17160];
[9367;28720;28681;13217;8488;4515;32937;28806;10507;28789;9311;6329;28764;12609;32786;6366];
[4377;8513;28680;20484;17219;17089;11843;16688;10283;5442;13212;16850;16436;17366;12728;11843];
[12564;16538;28771;13032;28807;12827;28789;8846;28793;28806;32910;6205;28767;12864;32883;11708];
[10514;28745;8779;12994;12539;16858;16801;28774;32775;4172;9377;12897;12392;16937;12681;5108];
[28720;6220;12458;32896;28743;28730;10429;8789;10284;17248;11855;16667;12544;10572;17013;11434];
[16856;16405;28755;12958;12562;12732;12768;28793;32894;17157;10882;12457;11766;16936;13067;11444];
[12948;10812;20485;32909;12431;12909;11709;5231;12372;11699;32840;9368;10285;32910;32935;6167];
[16400;28807;32827;8462;20486;13223;28709;5608;12381;13079;28791;28723;11768;12306;11984;12550];
[32779;4765;12897;9771;12368;5915;12728;17367;17367;9684;16463;12671;32842;16911;4536;32788]]%N.
Definition LOOKUP_5 : list (list N) := [
[8790;16567;8583;32885;11401;11395;12852;17162;4422;12453;5045;32840;11144;6423;17399;4300];
[12354;28790;12380;9446;16621;28798;32826;32846;28721;28801;16833;12768;28801;28703;12966;13073];
[28722;8484;32896;12305;12640;10569;11410;9388;9604;12330;16578;10881;6167;16959;16577;28689];
[6441;13039;32884;17366;11769;9239;9087;28821;9551;12840;28783;6173;32936;4220;12960;10014];
[11712;6214;10868;12948;16508;32830;6347;9367;28799;32922;28736;4141;17383;16571;16778;28702];
[8232;11404;13074;32777;10602;11348;9217;28797;32837;28733;13073;5133;4639;13185;12680;12295];
[32910;32776;12553;28676;8554;8414;28797;28818;8779;8874;12886;17309;8515;17299;28736;28784];
[10208;32816;11478;12576;11144;17014;17250;12474;12756;32870;32910;12334;32797;16469;8779;28698];
[32807;11966;8789;11111;28826;6212;28779;28794;6204;28694;13209;4689;12888;12357;28720;9377];
[17083;12799;28747;5572;28733;12523;28811;32804;12736;28775;28691;16935;11654;28818;32846;11180];
[4380;17083;11448;28718;17320;28802;11657;32830;32794;12464;12393;12394;13027;12732;28741;12936];
[4497;28702;32804;12333;32819;10106;32911;32778;4530;28723;4142;9057;12852;12358;32774;4139];
[12803;17309;13124;17241;32872;8584;28825;28681;28733;17296;16700;13187;32916;12948;8752;11469];
[28803;28722;12609;12804;8812;11356;28804;13078;4888;13125;20481;28686;16507;12791;28709;20488];
[12387;12683;8643;28728;32818;28727;28761;5637;12552;10861;28808;16831;12668;32920;8790;13062];
[9441;16517;10072;20486;28784;12513;13116;28791;12405;12955;13066;28745;12610;5335;12503;11410];
[28772;17409;4144;10699;28821;28806;4462;10369;5644;9252;10561;32853;12332;13198;32859;16816];
[9105;12696;9807;28686;17374;12560;17239;13090;6218;28687;8359;12816;13103;12359;12563;16936];
[12537;16516;16825;12948;9010;12900;9529;28785;12345;32827;13056;11466;6314;11013;16592;12682];
[13079;10281;28809;17299;10873;8820;16700;32832;17032;28785;12573;10859;12972;10882;12413;12492];
[28689;12657;16508;28691;11404;12346;32828;28813;5615;12407;10488;32883;10804;12824;8994;12581];
[28818;11748;17330;28750;12564;12358;17398;28820;17384;12380;13042;12780;28734;32851;12584;28823];
[12020;12509;12828;28799;12347;12960;16697;28688;32935;9219;13088;16658;6443;13008;28748;16937];
[32841;11041;12923;16613;17246;4276;11654;16406;11171;32872;12535;11769;17174;9350;12415;13012];
[6380;16795;28761;28818;11386;12540;10570;12550;11219;32790;11448;9809;10205;11703;12854;8883];
[13115;12024;28802;11969;28797;11469;17253;32841;11414;9235;11181;13185;16406;28758;11843;32924];
[8863;16485;9088;12778;12309;11764;28737;28733;6385;17252;28706;12306;13188;20481;11774;17168];
[11713;16412;13062;12311;13211;28783;28776;9916;28779;32815;20482;17314;13222;10720;12729;10647];
[20490;17246;16636;12322;28797;9909;13089;28772;9164;9562;8255;16858;17411;13073;11656;16914];
[10868;8790;8468;17172;28771;9881;28721;12595;10872;13113;28709;17094;8594;28701;12567;12583];
[9517;16825;28825;16606;12476;12576;16840;28769;12768;13127;8395;6439;12347;28716;12983;11180];
[17385;6218;9219;28815;9578;6426;12706;32911;11170;8667;12306;11602;32794;12420;13089;28675];
[12657;12923;12984;28677;28687;28697;16999;12560;9339;28696;12920;10878;6397;32832;12333;13054];
[28692;28779;28825;12718;12572;13102;28719;13065;12982;12616;12371;8395;28735;9953;28740;16779];
[4836;32937;10495;17171;17408;28723;32847;16715;17013;17410;32774;8514;13079;12483;12424;4965];
[32936;11018;28673;12816;13184;12768;17015;12970;9675;12876;5069;32805;8355;28771;32859;10383];
[11777;8912;10461;12864;28808;11443;12598;8650;12509;9517;28752;8388;17173;16935;6105;12756];
[32772;8498;13044;8358;28816;17250;16799;32779;8629;12882;16459;10991;16620;28805;17290;11741];
[12318;8985;5908;16778;5477;9745;13174;10670;17410;9709;12419;10882;10581;8883;9256;12372];
[28828;13222;11479;17072;28783;28723;28702;13134;28764;12645;32774;4143;10729;32818;13193;17305];
[32923;5439;5174;10273;28761;13198;28800;9076;16756;28768;9221;16492;4625;12455;11991;9963];
[28814;20487;13139;12648;6448;13043;28720;28782;17410;6426;32833;11257;17174;28706;28812;6314];
[12612;13032;6204;28813;12764;32818;12876;5260;28803;10138;8650;13184;12704;10846;12958;10573];
[4876;12753;16933;32916;28758;16764;12503;16530;8667;12453;13207;10698;9600;8716;28705;12840];
[32832;13188;13103;8368;12295;9554;16833;12775;32831;13089;32910;17095;11656;4167;11459;12612];
[9219;10692;12883;28802;9068;32882;17061;5077;12449;16732;10396;17211;28685;28729;11327;17329];
[11779;9386;12968;12448;32922;13031;28797;28701;5259;10479;13008;13219;12647;28782;4146;12764];
[12852;9337;17253;12855;16561;12646;28703;12741;10871;11748;32879;17315;9388;12437;5025;12742];
[10845;12634;12849;13205;13136;11470;28803;9860;4879;16608;12859;20486;17298;28693;6380;12669];
[11475;13015;16598;9320;8936;11755;28679;32804;8300;9321;12972;28747;17320;16405;12701;17319];
[13008;32826;32923;16597;17399;13031;28818;10271;11768;17395;28764;28710;32780;10763;28744;10689];
[28694;12056;12588;20485;13101;12886;8517;17398;11262;16790;28700;12692;20481;4224;10572;11277];
[10584;13200;12573;12516;16857;4149;12753;10326;17253;16463;12564;12414;28680;12922;12539;8694];
[11942;28817;5616;12679;12873;9012;8367;12732;16574;28793;16755;28806;16913;32842;12406;28681];
[16854;11180;13209;8583;10530;12668;5263;32792;28681;28763;28698;12696;9256;12874;11468;17318];
[12910;10883;10542;12681;4352;11020;8912;28712;12677;28682;12054;28756;10882;4169;32935;16618];
[12551;17252;28756;28770;12359;10394;12358;11755;12449;28816;28692;28828;13108;12898;12406;28768];
[4959;4472;28826;16594;28686;6343;28746;28744;28815;5035;12002;4598;17360;17299;8314;5706];
[28681;5072;32780;5367;28769;13172;32820;12501;5549;8977;9274;16932;12670;32865;12041;9003];
[8600;8824;6440;6434;11984;32788;10766;13181;13116;28748;5419;32933;13031;5034;16993;12984];
[12730;11902;9608;12972;16846;13056;16835;9112;16854;28761;16530;32909;8666;12708;32844;10676];
[28729;8452;13114;32907;6449;10816;9780;12622;32893;12764;4964;28726;9010;28693;13066;10572];
[10759;12954;28819;12960;28742;28706;9653;11182;32923;11908;17230;17043;32793;12861;9113;13089];
[32779;11315;8713;32936;28762;12032;13208;32885;20490;28803;9898;32772;8797;10272;17329;11469];
[9600;16979;28804;6211;13176;32924;10517;12826;12996;13032;12765;8621;12520;6426;32922;32921];
[16512;28676;12335;9319;11778;17319;11939;12839;11007;28802;12065;17037;32779;11278;12731;28820];
[12766;13080;12384;6103;28720;17014;13044;12011;28771;12336;11064;11910;11953;16676;28783;17341];
[28692;32852;11822;11947;16746;13210;12634;8777;28682;12624;12548;28735;8574;12837;12418;12767];
[13210;6307;12370;20483;17282;9765;28703;10742;6452;5349;16937;32922;13032;9114;12332;5261];
[13042;13028;17331;9382;17149;17249;28808;12911;28818;12396;8491;8414;9115;6335;10477;11003];
[13114;16846;12443;9675;12645;16696;13015;28720;5456;16895;11998;12732;32936;13164;32867;28727];
[16700;11481;12298;10946;12899;12360;12826;17252;32791;10457;10882;12778;4689;12011;13115;28744];
[12792;12969;12536;28754;10368;8491;28677;28760;17343;12324;11779;28771;5326;12364;32828;28710];
[5749;12419;28722;28711;10767;9110;28795;32937;13044;16852;12497;4879;12031;10207;11742;8750];
[9608;11999;12537;28708;28693;28794;13115;28808;28788;17411;11019;12636;13188;12318;16571;28810];
[16570;17002;9310;5462;12635;32923;16794;12439;28796;16844;12611;11041;16490;12407;13210;28776];
[28745;11780;4972;28785;11479;32794;12537;10403;8461;9020;17357;17329;12531;28756;13029;8743];
[16529;10450;32852;17080;12356;12945;28784;28701;28705;12369;12579;12548;12549;12552;16959;9404];
[20481;13127;13042;16451;11377;10806;9428;32911;12984;32798;9093;13017;9617;11476;12432;5035];
[17174;12574;6443;9361;12956;12917;6350;32895;12331;13041;12454;28807;10882;28751;8666;12751];
[32859;16765;12499;12368;16882;16595;16427;28681;16743;32833;32798;12326;28769;12633;8293;13151];
[12345;12912;28808;12526;5566;28708;16498;6418;28763;5616;12058;16428;8722;28716;12660;11143];
[8397;28751;10730;28797;32909;9265;11313;28776;11074;12763;12876;13200;9518;12776;12825;8310];
[28737;17331;13185;28722;10177;9600;6082;11626;11990;12520;12311;11759;10204;12467;28819;16991];
[8413;28789;28725;8657;16606;12717;28726;9337;28700;17325;10150;9151;12975;32778;4500;12407];
[12678;16834;20485;12730;17319;28777;12501;8319;10433;9908;32908;11594;13217;28797;11769;32923];
[12680;28722;28784;12979;8935;12647;13224;9854;28763;16499;28716;6109;10495;12431;9610;28779];
[12658;9033;12428;12441;5885;28790;12647;12972;28715;9555;12730;9405;12370;11478;13182;12046];
[10992;17111;32872;8424;32871;10206;12490;12719;12708;12972;28732;28675;32817;28788;12538;13222];
[16855;11338;32812;13211;12376;12395;12996;8533;5448;28710;32854;13092;16983;5454;12753;11953];
[28674;28767;16845;12430;5628;9904;13197;6012;12563;12815;9795;4819;10502;12993;28764;32911];
[10452;12562;16755;11669;28796;28717;17252;16491;17201;28788;13102;12816;16695;9685;9162;20486];
[12076;11332;28827;12658;8966;28816;12994;11767;20489;16436;9382;17229;28722;28773;9377;4346];
[13092;13171;10563;11531;28827;12063;11702;16698;28828;12743;9407;17409;28739;28757;16935;11028];
[12538;12550;12646;6160;12754;12715;28698;28780;6010;12402;8457;20481;28750;28674;12047;12437];
[10992;9263;28743;11985;28775;5819;11351;16794;28730;16584;12824;32815;11873;12539;9020;20481];
[11991;32798;28675;28691;20488;32781;5678;28744;20481;11029;32804;8599;28722;17199;8962;12329];
[12756;12838;12634;28819;13114;28824;32878;11245;16992;28687;28756;16825;8341;28724;5161;16936];
[12077;12875;32774;4147;16778;16619;13113;28679;12849;12455;16565;32820;12816;12992;32789;9021];
[12885;32820;9563;16686;11543;17383;12681;13198;9012;28680;32869;20481;28793;28743;28817;12370];
[12365;13182;12995;12968;12528;11369;5463;12041;28736;6120;11613;20481;8245;12476;28710;13116];
[28675;11894;32923;28721;8778;12400;12047;17208;5815;12811;4165;11326;28722;12872;5818;9111];
[9309;12468;10676;12413;12983;8785;6022;28697;16966;28772;28747;6229;28703;10801;32893;16765];
[17374;32898;8995;6313;8759;32934;11576;32865;32832;12779;32924;32870;12980;13134;12789;32854];
[10443;12406;12695;16835;5605;28803;11029;12439;12441;28682;12822;11009;6190;9918;13222;16778];
[28756;28804;11540;8682;16979;17132;28821;12994;9019;10676;8786;28825;20481;10751;12073;12647];
[10377;9071;32781;10819;32772;12337;13185;12816;12383;12743;13128;12383;5968;12732;5419;12636];
[6158;17393;12838;12012;13080;28677;10704;17397;9075;11999;28674;12372;12981;12539;12417;32833];
[16530;9386;12798;10378;12460;8987;10115;6125;11993;12861;10273;28760;12334;12923;12467;17397];
[32924;28734;5464;13032;9302;9310;20484;11312;5194;28732;28780;8776;28745;28796;13103;12788];
[9059;17155;16779;11894;9301;10853;17045;12372;12918;10807;9210;12300;16541;12539;10285;17230];
[28755;32819;12741;5822;4716;12837;13127;13210;13169;28733;12717;9321;5465;28818;11676;12559];
[12479;5419;9376;12528;5595;10065;32825;5097;16776;17331;16934;32774;9406;9066;28693;17393];
[12563;28717;8788;4201;13209;28689;28681;12648;13090;12991;17360;9377;12010;12419;12779;8628];
[12808;32802;9440;11121;16609;9601;12600;28743;13174;28744;5549;17330;9609;12551;17187;10881];
[28816;16858;9599;8759;8533;13198;17211;16542;12648;28719;16857;16687;6388;28805;12687;28815];
[16541;12489;32897;9145;28746;16536;28805;5978;17378;28756;12055;8685;28795;16451;9019;6014];
[13224;8367;32814;12717;8528;12586;6284;32924;12715;32866;12672;16655;12368;12461;12635;10108];
[17061;17016;17360;28787;28717;28798;10816;17388;12917;28818;11711;5977;17014;12522;28788;12389];
[12768;12815;16858;16913;32774;9690;9191;12875;8787;5465;5995;12729;28739;28799;9609;9153];
[28742;12534;12822;28761;11710;28790;12851;12359;5907;12377;28816;12744;16921;13211;8424;28802];
[9854;12921;16857;28732;12404;12992;32924;13185;8299;8215;28798;12341;10454;32790;17189;6176];
[11161;28814;32819;28756;28823;5594;5631;13080;9618;13223;32929;13160;13196;12693;9408;12563];
[9076;16688;12783;12898;20484;10490;13007;28712;12299;13212;32924;5013;11355;32781;8726;12521];
[32874;9385;28717;16609;12663;11113;9409;12967;32788;28742;13128;6139;12811;17139;12768;13224];
[9863;11838;11075;17010;17140;17069;10444;6195;32910;13031;9319;12348;12463;17328;16822;13157];
[11088;8723;13200;17398;9204;11851;12567;12078;12861;9410;12958;28765;13223;9376;12993;12344];
[16858;16974;32843;12552;32909;16514;32891;12780;28761;28680;16602;20486;13148;12390;10757;16657];
[28735;20481;28765;5447;17083;20486;28751;10742;12705;28685;12464;12504;16727;12995;12394;17225];
[28701;13137;13209;28783;4751;9021;8490;16698;17374;11312;11631;10747;28814;28685;17330;12634];
[8470;28690;11370;12828;12449;28793;11272;9563;12420;28807;12994;16762;28798;12320;11373;12493];
[32835;6036;12754;32788;12817;32802;8548;11220;17217;12586;12812;17367;12715;28744;16400;5064];
[12341;10450;17138;28784;5355;12390;12884;9446;32881;5822;17068;9462;28823;8309;32793;17375];
[8344;12332;16637;11433;28819;16621;28734;16519;12917;12696;28826;11339;5645;11168;9265;11310];
[12405;28748;32834;9599;16618;12851;11681;16412;16983;32791;8488;16966;12703;12731;9366;13223];
[12955;28760;8245;8350;10215;12320;28694;9086;13138;28718;28808;11041;12368;12924;16843;10552];
[13211;11588;10883;10584;12714;12419;32830;9411;9552;28792;17061;11042;11341;28680;28675;10491];
[10797;16846;6415;11040;12384;5099;11674;28814;10677;11589;11340;12074;12680;9003;17264;12576];
[28794;16913;16937;9918;28731;16773;28789;28783;17399;16779;28752;11373;6008;16580;5304;10812];
[12811;32791;16598;16616;11624;28786;9011;32853;11656;9412;9022;16767;12924;28822;28811;12574];
[32911;13053;17003;28792;12924;12033;28774;12360;28755;10115;6334;28741;28770;28825;28760;12669];
[10832;12742;28778;28705;12969;12970;12861;12548;10711;16858;32856;17329;16777;16914;12336;8787];
[12492;28732;28750;11501;12776;17237;28804;12527;28719;28741;8710;8723;12484;9413;28684;12941];
[10027;5885;12455;12756;16696;9729;12569;28775;12799;28790;28764;12669;32838;12936;32820;12929];
[16672;12732;28778;28743;12514;12563;16542;9673;20483;12427;12838;12888;8769;32937;28741;16771];
[13209;5477;12552;28691;12741;28741;12990;8722;28722;12636;20483;8869;32880;32929;6351;12311];
[11104;9863;12981;32896;17068;16857;12992;32929;13136;28793;17000;8880;12587;32792;12856;11355];
[11611;13080;5355;12394;10260;13224;12995;8778;28701;28675;28741;12635;9414;12383;28676;6201];
[17280;28826;10448;12636;13217;12322;12946;16695;28826;28761;8909;20485;16857;10198;5606;13032];
[13222;9964;28760;9203;16774;8721;20487;8599;10760;5760;6023;12478;28821;28695;10554;10537];
[16973;16820;12876;9665;28781;4626;13032;8610;32909;28790;28825;12372;13020;28715;17407;6195];
[16903;12660;9068;12550;28754;32876;28688;9088;32885;28827;10144;32775;16861;16777;12562;12912];
[17016;8414;9685;13020;8757;16814;5476;8367;16846;12995;5222;32883;28818;11130;12540;12920];
[10832;11160;12682;12391;32935;9089;32798;12338;4171;11574;12716;17057;12707;28761;12814;10458];
[8423;28826;17082;20483;10976;16607;10803;12777;28819;28752;10677;11058;10272;8769;12744;17158];
[12635;12564;16983;28825;12945;10459;11855;11131;17149;12765;28819;11437;9064;12827;16845;12708];
[12528;13037;8312;12320;32889;6108;4828;28795;12682;12612;28820;16921;10754;11932;12907;9388];
[16605;12624;4972;8636;28820;12456;6152;28693;11181;9386;12971;28815;28773;16826;32891;17287];
[9665;12323;16438;5179;11779;12860;10757;9319;17083;12820;13041;28742;12467;11640;12563;32876];
[12648;10583;28815;6408;28784;28785;12405;11672;32923;28803;9077;12681;28724;5610;12623;10414];
[32924;32929;11887;11639;17000;28817;10498;28784;20489;6187;12861;28817;16765;12669;16903;5139];
[12538;12918;12984;12838;28807;16412;28769;28772;12799;6378;17157;10862;32937;28820;10976;12934];
[5065;28801;10812;10513;17157;28782;28787;32794;12992;32872;12368;28770;12344;12810;12515;12408];
[17059;28815;6340;28820;32924;12671;12861;17080;32794;32923;28736;12811;12778;32911;4839;12945];
[17144;12599;12720;28786;9688;16699;13063;12945;10086;32870;8461;9908;17404;13079;10198;13105];
[32858;12417;20490;32794;28828;6301;9689;8372;12826;16597;17253;32843;11115;28824;11893;12575];
[16682;28815;5478;17132;28680;28808;10496;17375;11708;12587;28775;10751;16688;28761;8789;28819];
[16910;12563;12850;9265;32793;11860;17369;9077;17150;32935;5356;8320;17003;17361;32937;28744];
[17174;28784;28826;28755;10142;6175;12876;28805;17211;11841;12730;12876;17342;9846;9975;17229];
[17150;13125;10496;28790;32802;4247;28718;16699;12933;28755;13102;32911;13164;12409;10805;13004];
[11386;28733;28817;28818;32814;17398;10515;8553;32936;12491;9460;17004;11731;28704;28742;20483];
[11387;28778;12873;8779;12958;6038;13040;13127;11384;28812;11387;32857;32931;20486;17290;17075];
[13163;12539;28794;32779;10119;16735;11144;9559;12410;10805;17117;4255;32896;20481;17238;12969];
[9078;11358;10736;13031;17268;10247;32889;12912;28781;13223;8225;12394;12756;28757;12634;11050];
[28820;9086;13146;28677;13073;11640;32803;4344;28744;28722;12538;28708;12353;16621;13100;16836];
[28726;9552;28739;13186;16448;28705;12851;17081;32936;11682;16759;32819;28742;10204;17157;12631];
[9576;9076;12360;11647;12453;28699;10812;11644;16479;9618;17161;9385;32883;10253;12909;17081];
[28743;12844;17083;12875;17235;12933;10568;12981;17217;28791;9908;28721;8489;10215;9663;4617];
[8778;32816;28698;12696;9692;12946;28806;12696;20483;28784;9956;28713;12825;32774;12421;12981];
[12516;8459;28681;11058;6431;28796;32839;12886;16698;8722;20489;11050;8490;12012;17316;10572];
[17319;32929;8216;12877;28687;11702;28811;13080;13061;28799;32871;17082;11429;16855;17250;13055];
[11181;5607;17143;10390;32923;13224;32858;28769;12395;9693;12426;17295;28778;32780;5186;17308];
[12394;11686;12930;16993;13008;28820;8485;17208;17172;11449;28747;28755;12660;17320;16588;12549];
[12911;9919;28811;10934;13099;13128;28825;12546;11646;10044;11111;13043;6397;10799;9965;10515];
[9321;16656;11404;17090;32906;11930;17253;12873;12323;12945;28714;16992;32894;12411;17241;6365];
[32872;8390;32833;17010;13161;17409;12606;28806;13000;12406;28823;13125;12827;16896;9655;12827];
[4383;32820;17252;8734;16700;5232;11167;28736;12629;17410;12752;28757;10274;9088;9610;11357];
[32772;9096;16650;16421;32885;6137;8956;32921;12600;11451;9597;12943;17071;11465;12382;9852];
[32934;13079;5692;9087;10287;10845;8880;12678;9506;10849;17361;11098;32923;12513;13030;28747];
[12586;17074;6201;32858;12486;9665;12942;13126;28811;11947;13200;17170;6412;11412;5613;32929];
[12756;10585;13164;12839;8920;6008;13128;12971;13156;10759;9807;13018;12607;6007;32792;10552];
[32832;17152;16519;28812;9674;17162;12383;32789;17089;13053;10872;9171;28733;11779;8446;8789];
[11105;11973;8610;12755;17003;8769;32908;8305;10262;6202;32910;10850;16617;32806;9275;12839];
[17211;28722;5030;6434;4298;10514;12390;28730;16406;20490;28813;28724;10907;20484;16636;13020];
[12383;8452;10281;12581;8778;28711;10805;11713;12355;12672;17332;12564;5650;13053;17399;13088];
[13188;32842;12803;11414;9088;28822;16586;10505;8414;11144;6204;4108;28675;13138;17157;16858];
[9426;32790;13131;4341;28787;11097;28686;12851;12695;6210;13037;10285;4943;12755;11439;12585];
[12654;28690;10513;32934;13168;16674;28808;32909;32897;10599;32909;13064;9503;12828;10255;8954];
[9564;16767;12743;16922;13067;9502;12300;28810;10803;16595;12392;28810;8217;28700;12353;32777];
[8567;28700;32774;9694;32884;28808;13091;16666;16827;12405;32858;12612;13211;12935;8647;11149];
[28716;13078;32805;4785;9077;12426;6167;32932;12779;16973;32883;16935;8619;9985;32839;12383];
[32897;12647;28673;11477;16491;16509;28719;12539;13065;6394;9695;16519;32863;12768;32937;12079];
[5645;12836;13198;12900;28727;11780;5650;28764;11392;28706;12423;17045;9168;28701;28753;12396];
[12900;10789;17230;10514;17319;13089;9038;32934;17241;13139;28776;9833;12574;13079;28725;12773];
[8779;13007;32924;11170;12750;6340;17220;9294;20483;32880;16982;11644;28681;9697;9984;32903];
[12521;32898;17089;28744;32802;16947;16430;28779;9540;8420;32781;16531;17157;13004;16777;12996];
[16541;12396;28709;10505;8554;11892;17161;32908;12345;9377;12995;9089;13125;12463;12431;32773];
[8500;12947;12012;20481;8349;10065;8931;10635;28813;12310;4714;28718;6341;12682;12826;12412];
[16499;16542;32829;6310;13207;10190;10862;28743;8656;17282;11757;12972;13111;12969;12648;10107];
[12762;28780;12780;28805;28706;28800;17252;4617;8405;12495;12571;11689;12311;11144;28791;11608];
[5056;10196;12414;32904;12406;11088;13055;17317;17016;16953;11657;10553;10557;13164;4145;12983];
[28777;28686;16588;28792;28715;28768;28744;12996;4534;28742;12924;16923;12708;28709;9900;8516];
[12684;9796;12744;13116;12480;12936;32829;11689;8363;11686;17240;10642;16814;17240;9388;17286];
[4297;13055;11312;12683;12346;28743;16713;28726;12319;12801;12864;12970;12631;12681;13027;28723];
[11395;12420;17229;32820;32780;5149;9813;32832;13066;13164;11496;10933;28808;17314;10583;28720];
[9292;12778;11387;16714;28725;17093;28725;28698;8283;10871;10855;12408;13007;12585;12486;12356];
[32781;5701;28788;17138;11885;12333;28794;8620;11727;12924;8490;10144;16686;20490;12549;13164];
[16459;13125;13222;11603;28680;32780;5202;9385;5534;16700;12694;28812;11263;10159;28828;32859];
[12814;11059;12783;12683;4642;9170;28702;11778;13113;17348;12660;9700;13055;28708;4512;6165];
[32867;11114;10862;16437;12297;16821;6397;9852;32837;8312;12443;12345;9984;12620;12319;12475];
[9702;13055;11748;12875;13055;12311;5440;28694;16924;10797;17240;13161;11843;20486;32922;28743];
[10939;28785;12752;32827;28697;10162;28684;28684;16419;32868;32820;6172;28814;12445;32909;12432];
[32868;28796;9847;28755;13102;12403;12370;13120;13149;12441;8854;32923;11971;11170;17163;20488];
[28809;13176;28826;12430;6208;8531;17013;32872;9068;10311;12540;12504;12912;10365;28733;10872];
[6451;28707;17053;28688;16490;4841;32911;32804;12724;28703;16463;28792;6203;12630;12790;28733];
[13126;17411;12960;5347;13063;12344;12298;12779;28775;28742;16700;12394;9159;17251;13099;20487];
[6208;12334;6204;32819;16751;8678;17171;32859;8681;12803;4623;12803;28734;11312;28680;28720];
[12948;16830;10244;28771;13127;32933;12908;32859;28789;10271;12803;5273;17331;12372;28802;9517];
[12929;5507;5567;20481;28725;28720;12791;28722;12791;28771;9130;12322;9575;9208;5042;8712];
[8951;11341;12888;12919;10581;13127;20484;32804;12345;16648;17172;12310;16857;28801;6426;32832];
[11347;11925;28767;11709;12815;12847;32869;12895;6426;12446;8854;17388;6037;6432;8411;12645];
[11446;12935;10219;16807;12816;32898;16608;32790;28709;12557;16479;12775;11478;28800;8524;6221];
[10838;10923;20484;16598;12931;28717;17329;12413;32801;4192;8452;32898;8661;12764;28753;32820];
[6425;12500;4154;12719;17241;10562;13172;16569;12540;12467;16560;28682;32916;17151;13211;16807];
[17296;16835;12746;12590;6430;5864;4876;11737;28741;9452;16857;32791;13103;32817;12528;13112];
[8278;16418;9120;13079;12941;13067;12370;9121;8424;16665;32885;12582;11451;28778;16579;6060];
[13054;9388;11475;28756;28725;28786;28735;12967;9012;12695;11247;12468;4170;9208;11901;28717];
[28737;12620;12631;6342;11451;28808;13116;12479;12856;16500;9684;9662;28684;28752;8788;28773];
[13182;16605;12046;32922;9615;32817;12298;6347;32815;11182;28680;28699;28716;28673;28807;12392];
[28765;28674;4618;11758;17095;12696;28826;16756;10274;17320;28683;8526;13209;20484;20486;6342];
[28734;11709;11466;32792;16858;12780;12920;32779;12841;28732;8788;11713;12405;12596;9972;13151];
[28709;32848;12317;10285;9010;12503;32922;11991;11096;28818;10647;28696;32884;17170;4978;12651];
[11741;12797;12747;16542;5257;5190;28822;12511;13073;32805;8333;12767;12623;12571;16841;12972];
[9986;12947;28736;11998;8694;16609;12370;12876;10207;12984;8613;4240;4577;17049;12788;10217];
[28787;5332;6426;28807;12606;12948;10936;12408;28675;9518;12383;28674;6218;8825;12748;9584];
[32859;12356;17004;20490;13194;12611;9280;16588;16825;13007;9386;28802;9291;13020;12730;28738];
[28717;9219;9539;11872;9058;28827;28685;11993;16608;12792;32883;32792;9649;12679;4871;32931];
[12965;9377;12524;12058;28709;17014;8648;12657;9309;12645;32793;32910;12477;8712;12588;8699];
[11936;8912;28742;13127;16566;28753;10579;13078;9305;16597;8687;28676;8350;6443;10946;28737];
[5533;8838;16518;12747;12910;11738;12936;10861;17290;17399;11183;12716;16539;28771;4980;12573];
[8767;16483;12643;13170;28706;9388;17319;12382;13066;9962;12425;11611;12001;11709;20489;17369];
[11902;11009;12521;12935;32881;9575;12729;12624;32805;9244;11182;32793;32867;10443;0;28775];
[5973;12049;5022;10580;20490;16413;12443;12551;6385;28772;4987;17282;13114;32869;11909;12463];
[6212;16987;11905;16461;28762;20483;0;32792;28786;28789;12756;28729;12480;9558;28778;17320];
[12658;32820;8575;28719;8446;32859;10692;13223;28748;32911;28701;28783;0;28782;28730;16729];
[28755;10507;28729;10740;8823;6440;16606;11945;10129;12420;6314;16964;11979;12413;28813;12526]]%N.
Definition LOOKUP_6 : list (list N) := [
[10579;9863;32896;13200;12312;9780;32934;20484;17252;12346;28809;9473;12719;9056;16440;12812];
[16517;5268;12574;13001;13169;13042;28712;16943;12667;32779;11185;16462;6348;28709;12852;8582];
[12963;28766;12741;28805;28817;20484;28745;28772;28684;9308;12058;32781;5769;8417;11480;8667];
[0;5726;5078;28793;11902;8268;13103;9256;17211;11480;28806;28692;28713;10107;10991;10878];
[32922;16825;28737;11908;12689;28682;8218;28709;28710;8765;12894;32909;32780;8705;13031;8478];
[13031;5453;12426;16638;8228;8577;12947;32884;28698;10113;17110;32791;11901;28677;12372;13150];
[11470;13184;10726;10108;32794;17072;12713;20490;16667;17399;32817;11780;17407;13019;11936;13008];
[13102;12972;13026;4640;0;4671;9817;13150;13044;16656;8272;32817;28716;28796;13151;20490];
[12815;28776;6426;16700;6045;28793;11167;10217;28712;32885;12830;12681;8368;32807;13096;12479];
[32780;5270;12318;11262;5117;12335;8461;13126;12996;12365;12359;20483;12948;13152;16851;28696];
[28713;28814;8451;12545;12348;10408;12598;9388;12047;28745;12876;12684;12419;4111;12351;28693];
[12396;12693;5561;8358;12464;32781;5851;13024;28710;11646;5079;8695;16449;28697;28683;28707];
[13015;13173;20489;32894;16462;28819;12764;10435;28768;11744;28813;12718;12752;16529;13065;32931];
[9596;13091;32921;12307;12358;16492;4868;12660;11758;17235;28772;28689;9555;10191;10162;28747];
[28726;28735;17238;12549;32896;4965;32805;9528;10357;28684;17308;28707;0;13002;16439;16658];
[11244;12749;28785;16735;9388;11743;28752;8311;10730;28742;28728;11480;12439;13006;0;12848];
[6175;8400;9356;32934;32823;16753;16988;4150;11279;10544;0;20483;12859;12012;13113;8912];
[8658;28719;32851;12695;16884;11750;12334;12334;12382;13068;12802;11262;32883;10584;10206;12780];
[6426;12574;0;12634;9488;10772;13162;28734;28765;12899;28753;8397;11470;32789;12790;12535];
[12528;12976;12417;10584;11481;16518;10452;10263;32917;5086;8397;16845;12677;28685;28814;28786];
[16959;8234;9350;12342;13199;28821;12503;17251;13138;32920;28783;10261;32841;13067;12452;28700];
[12983;12456;10730;12874;28739;12550;28737;32773;4113;13185;13056;12960;28695;13080;16756;9210];
[32794;11485;10648;20489;5092;4274;13136;9002;5263;9085;32816;9019;11029;4994;12432;12874];
[17398;13126;13056;16609;32871;8772;16517;13200;11480;28729;16722;11181;11873;12802;13008;10767];
[28690;28717;10883;16607;9965;9316;10216;12504;13199;10647;32922;9608;9147;13152;8667;9982];
[12504;28754;9607;10554;10399;12731;13101;11041;12828;11937;17347;12623;17031;12335;12574;32779];
[9521;9962;11943;32895;28735;12855;32817;9255;12300;13156;16498;11769;28680;28701;12972;12720];
[16923;13220;12527;5548;12750;32931;32823;28803;28762;8218;12600;16529;16846;28722;28774;13205];
[4916;12909;8721;16605;8461;11944;9663;6167;12370;13205;9311;5080;17158;12862;11943;12336];
[12912;32937;12372;12539;28815;12599;17062;8249;12485;12336;16851;28743;12900;28724;16934;13126];
[12455;28695;8703;11414;28675;28818;12359;13159;28682;13198;16698;17332;28716;12884;32869;13056];
[12538;32884;9387;11066;13076;12427;28691;12816;12298;9054;13187;16562;8664;16840;5644;16842];
[16767;5218;28685;28820;12437;16527;28741;28693;17331;12671;16623;16394;32824;28817;6210;8816];
[10991;11765;10191;8477;12552;9972;9321;17174;12012;20484;5418;12047;16607;28706;11986;10883];
[12731;9909;12497;16514;32897;12753;16676;28700;13224;5436;20489;12462;10781;12539;12936;28739];
[5004;32825;28778;13186;9115;16540;32806;5193;12372;16755;5923;28697;20485;28757;28804;32897];
[28724;9828;13080;13216;16846;12378;28682;8270;10495;9791;17141;13186;28782;28804;32773;8801];
[5616;32833;12045;9263;5817;5366;0;12331;12876;10373;17346;12428;16446;8338;32852;16449];
[28813;9762;16598;13068;13172;10079;9342;6102;28754;12646;11993;28793;12404;11793;16451;28824];
[32854;8866;16884;11483;28735;32790;16620;11756;8366;5263;28702;12535;32817;12767;9059;4618];
[12874;9696;28739;12297;28689;32794;9072;28805;12599;12875;5477;16440;28774;5183;12405;9386];
[9309;13175;32854;12441;8455;5326;17200;28701;28680;28699;12967;8321;12551;28689;28758;11490];
[28674;5080;28695;13014;32794;12993;13162;32792;32923;32911;12479;12864;11209;8598;11459;28814];
[12008;16541;13092;28774;28828;32781;6048;10369;16626;12304;28750;32896;13147;12367;12703;9586];
[10648;13164;12912;28760;28677;12766;12618;28800;16667;28810;12731;11866;12359;12563;28791;28740];
[12537;10307;9122;28727;16530;10407;13055;13090;8435;12883;28710;12449;9310;12742;13152;12596];
[12703;17374;32885;28683;12372;17387;12791;28733;17032;13211;13194;5578;12703;12296;32924;8702];
[10407;11602;10399;12561;28735;13068;32872;11291;13104;20482;11953;4869;10144;0;28732;12047];
[10882;12057;12860;12714;32854;20490;10705;13008;9518;12873;20484;13128;12732;12335;12933;12711];
[9641;16752;10407;13077;12300;12804;16597;28721;10150;28687;10710;28800;5812;12513;16729;13126];
[28777;12619;13199;5294;5780;4575;12776;16620;16436;17253;13172;28709;28723;12377;13103;28740];
[16857;12731;13013;12991;10450;9854;20489;16618;12809;28822;16825;28805;28792;12575;16934;32807];
[8756;16966;28785;28788;13187;4971;13185;10411;12379;11543;12682;0;5921;16445;8583;28790];
[13139;10444;12322;32880;12799;9639;28693;10711;11561;12657;8949;20486;10992;32829;12599;8710];
[12799;12957;16673;32923;12899;5093;12538;9345;16762;28752;32872;5326;28759;16663;10776;16609];
[32798;28710;28815;12324;11561;9255;28826;28730;5928;5098;17123;13210;28750;12594;12635;17008];
[13103;28724;12945;12807;28754;16539;12714;11451;16855;12714;28677;9659;8683;17331;9609;0];
[10883;11373;13068;12066;10450;28680;16542;28804;17053;5092;12851;32804;4518;17410;28755;16989];
[11779;4824;4662;12055;28686;28765;12995;17411;28759;32919;10027;12828;12994;5629;12401;10872];
[12813;12456;12911;32774;9698;28693;11411;9331;10415;9451;12354;32911;16461;9264;8752;9388];
[16628;12316;28804;12449;11047;28694;32920;12824;6046;28684;6036;28715;11999;28783;32884;12899];
[16682;12371;12944;28787;16936;10747;13187;12894;32818;28756;10711;8483;12078;6033;28693;12799];
[13138;9563;11075;16811;17358;9358;28711;28697;28751;16500;12382;28720;16762;28822;13015;32799];
[4118;28822;11072;20489;28682;16974;13146;0;9971;11105;32799;16395;28741;12810;12974;0];
[32866;28802;32828;28782;11182;4261;5092;13116;12981;12730;32911;12444;11013;9203;12078;0];
[12907;8667;28724;17093;28743;12068;0;32854;28705;13223;13029;12753;10853;16439;12822;5087];
[16429;12332;9066;28705;28790;12656;12982;10490;28688;13032;28690;16846;9555;28742;12049;9555];
[12041;12714;13028;28727;12706;13020;16999;12884;8471;12884;8470;12586;12984;12419;6136;28779];
[10198;16642;11497;9872;32922;0;12312;28746;28703;12982;13199;28822;0;32919;9898;16790];
[32819;9173;16756;4222;12708;11291;16742;28791;10788;12898;12452;12742;12646;12336;20487;12646];
[6296;32916;28769;12563;0;16755;13200;12849;6020;13200;16998;16935;8870;12040;16573;32826];
[8461;20487;28684;28780;32936;10537;12744;28756;16648;28725;4173;12041;12804;13018;28825;28799];
[13051;13205;12360;12458;5811;12768;12002;12720;12669;11308;12587;12715;10787;28687;11327;28817];
[11478;13134;32891;5908;32816;9629;32877;5098;12800;12792;0;32924;8348;8468;6107;28809];
[11586;28727;11668;28779;5009;10061;10832;11768;20483;11701;12321;10706;11182;6125;9773;28757];
[12395;32773;8504;16774;10191;28769;6140;5483;32833;32799;8505;28813;11041;28824;5914;10490];
[13014;12765;9777;16924;28765;5661;9665;9963;12804;6125;0;28793;28716;12309;28697;28806];
[28707;28739;10444;12742;12858;28817;17134;28697;12322;28801;28742;28718;12599;28780;13128;12731];
[13173;28690;12079;8757;10554;9376;16845;11844;12384;9899;28706;28722;11304;11179;9701;12959];
[28741;8826;28826;28817;12504;13210;13176;13197;12917;12814;12460;11310;5480;17045;28689;28821];
[12875;9377;12695;12670;16766;9012;32937;11758;28761;0;17186;8480;11308;17240;28717;17210];
[8445;16776;6035;28757;12864;12632;9762;16687;28719;32793;11131;5935;32908;13211;28769;13221];
[11218;16621;28705;11788;8748;32779;8624;9076;12850;28781;12768;28814;28767;28720;12492;12502];
[5239;13211;13092;0;10282;28715;9673;11047;10872;12480;11764;28791;6024;16973;11349;16925];
[11075;12648;5065;11095;16683;16765;11561;12515;12850;4746;13126;12838;0;16835;9621;12874];
[8468;32889;12429;9070;16999;9357;8751;12947;8421;10755;32875;5647;28780;10512;32866;12918];
[28772;6283;12993;12659;16844;12778;8778;16858;13170;32922;12552;16776;13188;12587;28772;10273];
[6301;0;28821;9375;12755;11902;28724;12731;12587;6023;28722;9078;28772;12412;13163;32891];
[10677;5594;6219;12659;5391;12909;32846;10757;9618;10976;13151;10757;12525;32898;9075;12714];
[20487;0;11053;32937;5578;12742;32882;5300;20481;12408;12587;10706;13224;32924;12540;5644];
[32856;28755;13032;10273;32935;16688;8459;17003;28825;32807;5951;32872;6379;20485;28712;28795];
[4202;32895;12918;11346;28821;12744;8987;28790;16530;28737;17211;28815;20487;8723;12802;12379];
[9974;13087;28733;32936;9387;28788;12671;32802;12295;32911;16606;28790;10451;17145;12819;28763];
[32807;8734;8453;16529;16412;12925;10496;16903;16937;12861;9076;12790;5644;17068;28750;28702];
[11750;17410;32935;12669;28818;12538;16887;17360;5643;11391;17268;16655;12908;32898;16797;9930];
[13224;16699;16858;28805;8553;17138;28823;12755;28789;12524;12851;32845;28701;17068;6351;17147];
[13044;9365;28722;16530;10215;9702;11346;12983;12562;28758;0;9618;20490;12360;12885;16481];
[9986;32813;32804;9192;28733;11837;10496;10830;28727;32802;16489;13224;10872;20486;28806;9067];
[12408;16846;13054;10284;28700;10706;28786;11530;13024;12644;5483;12699;28761;32856;10760;5099];
[13014;5616;28816;9283;13108;20486;28776;17138;12820;20486;12931;8722;12874;28828;5611;17068];
[5449;32887;0;5449;11440;28783;28821;16767;12623;11390;28779;32832;17076;17066;11604;32869];
[28814;11056;32896;16912;28685;28688;10079;12811;9610;9564;17241;32864;12001;10199;32781;13093];
[28741;4715;11355;16405;11781;12342;12743;16688;12492;13027;12486;12839;28798;8723;11429;17208];
[12803;32856;28794;28739;28819;12982;28825;9385;8678;11480;12811;13163;17320;5483;17078;28827];
[32885;32903;8782;28811;20484;10800;28743;10171;12647;12646;16700;11129;13037;32789;12598;12814];
[16541;9173;0;12403;28827;28794;32905;28674;13103;17124;32872;12538;16858;12740;28681;16815];
[12394;10285;17150;12862;9887;32857;17404;9631;12575;12982;9089;12822;32889;0;12957;32799];
[12292;10208;28792;11056;10753;9386;12012;9376;16993;28754;32929;9087;28796;17000;12562;9657];
[11607;11054;12574;9088;12935;28778;10252;28687;28759;17399;10582;0;9376;12345;9909;4454];
[28689;17083;32893;32937;28786;12480;16457;13209;12539;10803;10759;11601;17375;10490;28744;12824];
[16620;11386;12957;9956;11386;12948;5613;16663;12369;32935;28704;12934;32858;12731;32923;12648];
[28703;20487;10975;5914;28822;32872;12525;0;28781;5613;10459;28735;12540;28782;12636;5449];
[9066;12319;12453;16858;16649;8250;12941;32773;4121;9962;13205;0;10285;11639;12671;28750];
[6433;12372;11777;32935;11347;11309;17003;12600;28695;32857;16733;16420;12077;28777;10560;16735];
[0;17081;12862;10760;5885;8491;12321;6041;17142;12576;28761;10757;16988;12978;17388;12907];
[28822;28780;16697;12671;28808;11993;0;5356;17211;11648;8227;13212;28687;9863;20482;6412];
[28715;17388;28789;17253;13030;28827;11059;10244;6416;32894;13056;12778;12683;13078;13207;6419];
[28802;12442;12324;32896;11609;12367;28722;0;16845;8300;28764;12934;12863;17151;12453;9365];
[5914;13018;28798;12744;9522;12983;12588;12944;11693;28777;32829;28787;12574;12984;5064;28711];
[28827;20489;11149;8790;12334;12996;12919;28723;9919;11516;17375;16462;28770;32924;10504;32872];
[17404;11640;28705;12779;28825;9971;9972;16698;12576;16598;13223;32799;16474;32775;9989;28734];
[32921;28820;32809;20482;32904;10838;12528;12946;9627;13198;32801;9129;28684;16542;10882;17147];
[12598;12958;17003;17226;28683;12391;13146;17073;32934;8301;28810;9852;28675;10759;12717;28702];
[28794;12360;0;17151;6035;9077;13121;28781;13038;13007;8487;32819;17409;10513;10271;6040];
[32872;20483;10546;16418;28813;10546;8778;28791;12552;16536;11393;12408;28701;16682;16921;10415];
[12816;4494;28771;12354;13055;4757;32896;17211;12336;12972;12454;16857;32884;12923;13029;13212];
[28783;32858;12708;12911;13087;32910;13188;17409;28778;9377;28775;16843;11871;10497;32810;20482];
[12744;28788;12912;10844;12886;12984;10844;28719;28826;16942;12419;12348;10806;28711;5799;28824];
[12755;6166;12392;6154;8479;17399;12539;32777;9754;11137;10849;13038;12948;10848;8228;28743];
[12354;5650;28804;16776;9618;6171;9665;16936;10516;28753;9022;10816;12519;12336;17078;32857];
[10568;17149;28788;12671;12934;12588;11470;10365;12588;12563;12718;12859;32882;0;9149;28767];
[16991;28714;32884;28776;28788;17203;32817;6171;32820;9610;28796;28748;0;16846;16846;32921];
[13030;32870;28805;12468;8722;5653;16540;0;28744;0;12898;16846;16499;12815;12455;28722];
[12827;16541;5952;28805;4622;17082;32778;4670;16808;17217;13200;11860;10340;17021;12803;32884];
[12893;11096;12516;16592;28803;32872;28802;13005;12934;9517;11143;12468;13099;11387;32905;17230];
[28776;32831;0;8779;12330;32832;28708;16579;10182;11404;16593;32934;10514;11779;17002;12612];
[17196;11147;9074;16428;28814;28688;9037;5257;12495;16700;10254;12971;0;9792;10162;28760];
[12359;10560;13185;13125;10281;28794;12792;28806;12370;12645;16893;32839;17220;4330;32817;17211];
[17080;11481;28805;0;12514;32798;32810;12816;12720;6173;12300;9863;28828;10812;10214;12839];
[6166;16858;32818;20482;11081;13054;28705;20486;4868;32811;20482;28713;28793;11450;28811;17411];
[8827;9845;13115;28794;28768;0;12588;12960;11691;12461;9547;11691;28769;9620;6079;28769];
[12659;16457;5616;32781;5667;13112;6204;9385;28800;8595;12864;9309;11909;12840;28775;17399];
[32773;9100;11843;11414;12815;28778;12864;13065;28801;12932;11686;11766;12657;0;11686;13075];
[17230;20481;28752;28732;16834;28679;6207;16700;12672;8480;8658;16856;32924;12500;12407;8339];
[28725;28726;12622;17046;11608;28696;32868;17398;5405;12355;12454;32909;28781;10569;13145;13222];
[32908;12419;13031;20485;11893;6342;5616;9429;10263;12804;12440;10132;16964;13161;28816;9919];
[13211;11111;32859;10444;12621;11954;12588;10322;16620;12331;12657;28795;10281;9481;32840;8650];
[13168;16499;16989;10273;9087;10859;9684;17281;9845;10859;17281;17150;16922;28805;12701;12584];
[11154;28762;6313;11155;12947;28720;13120;16498;13149;16858;16993;13124;17123;16755;28724;16895];
[28696;13161;28787;28697;10742;20489;10161;28802;12665;28739;17162;12692;12809;28692;28697;0];
[10569;32909;12935;0;13065;12720;8788;10816;28726;17148;12827;6365;13195;32814;13149;12729];
[12598;16941;28737;12610;6425;12371;32799;9101;12622;20489;12405;8490;0;10152;16729;8897];
[28827;4683;11414;32780;5531;28737;12586;11692;13027;10552;28713;17089;9859;0;12582;9266];
[28728;11694;28686;10628;28816;4696;6173;6430;8577;28700;16834;32870;32892;17045;12689;28722];
[12562;6209;12436;8384;13125;0;5125;10570;6422;28686;12785;13039;28756;17168;8582;12504];
[10113;8785;4342;12508;11479;17132;10561;32799;12328;16993;17081;0;9675;10751;13152;28716];
[28756;9385;13091;6204;11410;10452;28804;12383;12720;28704;13186;28799;11442;9817;28791;10414];
[9740;28693;12946;0;28714;28821;13055;28696;11414;28779;8922;12730;28707;6042;32792;12462];
[28773;16842;16524;12309;8344;9468;28797;16700;17079;6346;0;12510;6345;16585;32799;12340];
[13066;12451;8469;28737;17297;13044;12574;6428;12570;12824;16436;12947;28786;0;17240;11158];
[13075;32778;4636;20490;28774;28818;13133;10926;28735;17314;28740;28715;10306;32818;11640;28689];
[16439;11005;13017;28741;20484;8790;28801;13224;28820;12744;17173;6388;11971;11448;12777;12582];
[11448;12381;0;28734;6219;28707;12768;32803;8282;12677;28733;28788;10150;0;11105;28750];
[8650;28735;0;12852;12772;12935;28778;10856;28815;6167;28761;12982;17282;28764;13099;17131];
[16535;12466;12405;11443;28798;10871;17386;20486;12576;9854;11414;12438;11268;28802;32817;16674];
[32872;8283;28688;11842;28785;11413;11467;11343;28722;32815;28725;9828;11103;17016;0;4847];
[6210;28747;8256;9245;12406;13125;17014;32935;28674;12571;9389;20482;10553;28791;12600;16734];
[28738;28719;13077;28803;8313;13055;12492;16665;0;17089;10253;6167;12576;13054;12432;9897];
[11769;13007;12323;16421;12979;12684;11694;12480;13152;9514;13055;4420;17031;0;11686;6425];
[10185;0;6425;12612;6348;12468;4190;6348;16746;32885;11637;11312;16699;28722;20483;28808];
[12448;28736;0;13018;16569;8318;32803;10596;12688;12947;9219;17165;12903;20489;12333;10872];
[9558;12971;28700;12835;12465;16937;13126;11161;12310;12707;6343;9986;12947;12624;11780;16858];
[12356;13054;12418;28804;12513;12771;12972;8611;28692;17411;16858;20482;28778;13077;5482;13221];
[8789;17094;9983;13092;28756;11171;17218;10946;8854;11679;12923;32806;5560;12540;9377;12322];
[28705;9808;28698;12506;12429;8357;11451;12581;28812;12995;11304;9965;4162;17093;11709;28698];
[4845;28791;8321;8995;9538;11703;12030;28754;28827;12780;16426;12480;0;16914;0;6209];
[12415;28811;10183;32859;9116;9548;12334;28686;32780;8670;12743;0;28812;11161;28696;12864];
[12828;12984;9622;12984;32911;28683;0;12774;12419;11457;32778;10894;17315;9387;28691;16843];
[13066;12037;32819;8414;16518;28699;12478;12792;16484;12299;9232;17305;32884;12803;28803;28685];
[17171;13043;28725;0;11190;28791;28736;0;16729;17014;4234;16666;28805;13055;12479;28815];
[11901;12670;13052;13136;0;11171;13074;12078;11087;13163;5609;13104;0;16766;12660;16460];
[28700;32910;28716;8351;32828;32803;12332;0;28772;9954;12295;12503;8960;6351;11475;17290];
[32872;17172;11648;13113;32897;16687;28815;13008;8582;13078;32788;10579;9916;12803;28800;12672];
[28815;9022;13186;12756;11899;9008;28733;5422;28687;16605;12528;8368;28687;13149;28811;13079];
[12002;28703;0;6388;32898;28678;12324;12528;10281;16858;12431;28798;16840;6212;8695;9725];
[12748;12075;16873;17196;12924;28674;13065;12299;13212;9375;0;32802;4273;28814;12948;13102];
[4581;32911;28676;0;12370;4296;12942;17016;28732;28678;8788;8998;12587;32804;8291;32908];
[28696;0;13089;28703;32773;9391;13064;16541;4837;20483;13079;32804;4637;28807;12594;28822];
[9387;11112;12510;11906;32932;13065;28677;32831;32911;11460;32898;12416;0;32859;13169;12443];
[13090;12672;10872;32829;12298;11755;8739;28682;13101;9075;0;17308;12359;32921;0;16807];
[0;17296;8720;11443;9586;20484;28819;16529;10255;32777;10595;9387;28708;12876;8256;0];
[16923;12431;6348;6388;12403;28723;12335;28705;9975;0;16526;8491;32814;12414;8881;13102];
[17332;17094;16807;9473;11177;32828;32815;12462;28806;16429;8988;12382;4986;12322;32898;10284];
[13199;16613;4603;12510;16528;28694;10872;4422;32919;28713;12628;32773;12373;9245;16813;12864];
[28723;11942;12780;28688;28687;11741;28825;4298;16614;16589;12442;28710;12612;32792;11436;28733];
[16807;17309;32803;12640;13040;12347;12581;28689;13092;11746;8611;32792;10264;12651;8790;20490];
[13194;12944;12911;11466;9423;9619;32773;9395;16665;5087;11460;11475;5389;28685;28674;12308];
[10517;12078;12744;16508;28814;12491;9516;32776;4227;9965;6343;16684;10280;28681;11901;16585];
[28731;8435;13089;16530;16629;12363;5811;16630;28676;32831;12840;4638;13184;9307;10773;13055];
[0;11476;0;32803;8561;17015;28822;12708;12430;11747;8491;9686;28733;11395;10883;13110];
[6351;16830;8696;32911;11939;28775;12924;28687;11191;28827;16666;28694;11746;13027;10898;17170];
[28745;20490;12394;12948;9357;32864;28808;10870;11742;5659;13102;12895;11742;11757;0;28702];
[12310;28700;12335;12636;11941;9087;12720;12736;5897;8955;32911;28781;4475;17319;17308;28698];
[12624;12747;32828;32916;11180;12536;8648;0;12456;13029;6394;32827;28701;16700;17251;12368];
[13032;10881;28813;28725;9006;9537;9903;16451;12813;10234;32923;28727;12358;12403;28803;28815];
[17320;28698;8845;10582;16631;12375;28712;12334;8278;12946;16920;8935;12598;5807;16856;12724];
[17010;8489;11071;13067;16540;8664;9947;16527;11756;12706;12418;28688;4433;32933;12831;12642];
[12994;28825;11182;4716;11611;16518;28765;9892;0;16683;11480;13170;5548;10582;12874;5276];
[6388;12676;28813;20485;28710;13023;12299;8648;17332;32779;4983;32907;12718;32830;32879;17252];
[28761;9981;13114;28714;13198;32916;28679;17169;9218;28814;32833;16721;28791;20486;16578;17395];
[32820;28697;12040;9488;20488;10329;32920;4657;16508;28798;0;12068;32779;4979;12909;9437];
[12605;32911;6264;32885;0;10883;28731;28775;12732;0;6440;8708;9616;12381;17071;32780];
[5493;32846;9970;11603;32910;28807;16840;28680;16912;32872;32803;8566;28687;17411;10551;16953];
[0;11181;11944;28811;13004;13171;12036;28674;28694;12431;32805;4984;28755;12802;28731;9321];
[13181;9153;17030;12738;12924;12311;13063;12369;32799;16631;28804;10853;11182;13080;12912;10348];
[28817;11939;12960;10554;13198;11939;8453;32780;5107;12079;11984;32817;12924;0;28726;11451];
[11945;28711;12823;4491;13056;10653;20490;32923;8948;12516;16632;12387;28685;12951;28785;8942];
[10271;9510;17289;28720;9343;28720;13128;0;32832;13162;9516;5157;28803;12854;28676;9584];
[0;32922;12923;4906;12576;28680;12612;28795;28682;11182;28815;13080;16588;16857;8759;12731];
[13139;12335;12708;28680;20487;28697;8307;17325;12512;12432;13170;12725;17173;32815;28782;16683];
[13152;8621;12744;12038;12936;8312;0;11902;0;28812;0;17236;13152;11984;11990;16528];
[32773;9399;11954;12549;13193;16816;10990;13067;13193;9560;32792;17317;9563;32807;5810;16831];
[9975;11989;12359;32805;10126;13116;13224;16684;28804;28678;0;28747;0;32923;12984;32819];
[28748;11985;9261;16699;12656;16840;13125;32820;5081;5216;13188;16695;16449;32885;8954;10137];
[16671;9842;17399;6452;17411;16606;16773;9006;28725;28772;0;12996;12558;9750;13068;28780];
[12393;9347;12408;17331;16607;11479;9553;12670;28701;12758;8919;32794;16833;16530;0;16449];
[32897;9477;12562;11939;32799;9400;20488;12728;8964;4705;13126;28695;17411;28751;12514;11956];
[9425;11486;4801;28776;13008;13212;28759;5052;11908;28725;28690;17095;32827;28736;0;28719];
[16596;0;16647;13044;12622;17016;11907;12696;32910;6175;28780;16833;17161;32780;5274;28791];
[12323;28680;12993;32859;10941;16600;12739;28689;17016;13170;10267;28673;8953;13186;9658;11769];
[16496;32828;16677;20485;13056;11939;12312;12656;12752;13196;8957;6387;12380;12466;28683;12426];
[11442;8313;10398;12593;8774;4649;32828;10435;12570;5742;10347;11778;9547;12765;17253;28780];
[12332;10489;16451;13198;12379;8779;16746;9518;16767;16953;6294;12766;16695;9047;12586;0];
[12063;28688;10750;8459;8919;32844;9165;28674;6167;13198;0;12825;11765;12492;5786;32884];
[17111;28727;9640;10693;17325;13152;20485;12813;10730;10610;10881;10642;16518;11944;10072;12618];
[28705;32845;20490;9015;9089;16744;28694;8695;32885;28784;10481;32898;28818;13065;13066;10655];
[9481;9480;28804;12776;16753;12726;0;11999;9058;17241;17326;9510;8716;11435;8396;12300];
[5030;12560;8755;11947;10364;5447;9246;32804;4490;11902;28813;9372;13080;12585;32892;12835];
[28688;0;6051;16440;12975;8618;10758;12908;20490;32844;28740;10776;28733;10101;10434;32885];
[12644;11057;12348;13198;16518;17409;32921;12765;28791;28750;13074;16509;28761;16763;32871;17253];
[9676;28780;0;10106;12311;28813;13182;0;8955;4462;9060;28674;12073;28677;32794;9292];
[28691;12935;32830;8329;28694;28802;12407;17111;10365;16834;9982;17275;12559;28726;20485;10941];
[12609;20483;28694;32799;12364;4699;12348;28720;4700;28796;20490;9367;16603;16528;12491;28710];
[28780;28754;28681;12307;17406;13158;0;8942;13198;12078;28725;0;12948;0;32924;17406];
[20489;12573;0;12584;12370;8613;12671;28683;13175;13067;28825;28734;12310;12643;17023;16417];
[32858;10925;0;17330;12011;16686;0;32792;12924;32922;9517;9585;12513;28718;28741;12836];
[16845;0;28735;32937;12740;13101;5779;13211;0;9593;17387;12466;9219;16685;10572;0];
[28744;12492;10693;9442;11993;13194;11779;32884;0;16824;0;12587;0;12444;28688;12585];
[13186;32807;8457;12539;9429;12947;12586;13029;11778;12586;28692;16528;28780;32833;16577;20486];
[6277;11395;8873;16727;32884;32910;0;12864;12309;16528;16677;9766;13199;32852;12720;17094];
[16688;32853;28802;12064;32777;4411;28716;12833;20490;20485;28704;28816;12502;12847;8367;12862];
[0;12962;9256;13224;8569;13211;0;12599;10692;9640;11517;9029;16925;5414;28826;10278];
[28694;28681;28725;12300;8404;32799;12376;12499;28817;28780;12321;9347;8904;28754;16507;17002];
[28761;12466;8421;28769;28718;16773;8405;12429;12040;28778;32885;16533;12912;4462;10580;9861];
[8419;12002;28695;12814;28811;11412;16913;12405;28759;16539;12896;13186;12045;9772;32920;4879];
[32791;12008;12679;9685;13223;13091;5194;6030;32934;12073;17241;12300;13066;12073;32830;16841]]%N.
Definition LOOKUP_7 : list (list N) := [
[13198;28810;11482;32872;28748;12347;28698;9586;28799;12816;12934;5436;28792;12669;8414;9263];
[32781;8780;12299;0;4949;12630;12779;12845;17218;9293;28818;16966;32857;13056;12311;12074];
[28674;9809;28770;28768;10394;32807;9929;28728;0;13200;12936;17185;17110;17247;12381;16851];
[28679;28804;28813;28695;10728;12348;0;16528;8919;12324;0;28820;20489;8368;8418;8751];
[9219;32806;8673;12835;16673;12472;8919;12729;12800;28673;13210;28716;8422;16894;12312;9815];
[8666;12466;28760;28715;13164;16988;0;11253;6131;16687;12860;12310;11656;32922;32791;28680];
[28791;12730;12415;32781;5776;12671;5101;28771;12876;11113;12407;16834;28803;32896;9150;17122];
[12947;20489;0;9638;28755;17012;5418;10741;20488;9019;12540;8682;17410;28744;28790;16618];
[16681;12311;28693;11297;28717;5436;32870;28808;0;10924;12300;12680;28825;16536;28816;16686];
[13174;13068;12515;5952;28802;12515;12443;5064;32812;20482;32898;28717;8473;0;12836;32800];
[8213;5329;9021;8754;13017;17185;13188;28681;12078;0;6283;13128;12503;28814;13001;16843];
[12863;16851;16843;9495;8482;5777;10474;12859;5924;6301;12720;28686;17140;17360;16825;20490];
[28817;16439;12847;8304;28827;9022;16608;12989;9010;12960;32872;9852;28677;12549;9003;32937];
[16618;16607;28767;12806;32800;16399;8718;28805;28674;12767;10145;5920;10273;17094;8723;32800];
[8512;12634;9518;17319;13104;32858;0;28820;12055;12873;8420;11040;28778;12073;6226;12803];
[13145;28735;5545;13208;11647;17161;13186;28739;32819;16687;10782;32937;13188;17083;0;12776];
[9601;5058;0;12755;28765;5010;8771;12900;12982;5925;28744;16965;11561;9387;16462;12965];
[13209;8368;0;9593;32906;28746;16756;12887;5080;28779;13200;10992;9021;28756;28775;12068];
[11113;32832;17172;10443;11262;12874;11734;28707;10862;32831;28792;16869;13217;12702;16607;17331];
[10762;32780;5111;16775;17411;32793;12908;12897;28683;10049;13148;0;5631;9044;12549;4777];
[13028;17094;0;8704;5543;17252;32793;12851;9749;32871;12454;28814;9647;13124;20482;28685];
[16983;0;9657;32917;5465;11034;28739;10327;17332;10796;10572;13128;28794;28748;32924;10405];
[12671;17253;17151;28723;12897;32800;9108;13144;32775;4198;28792;12707;32806;12964;11081;0];
[13200;28783;13187;12718;5163;5544;5527;13092;0;12658;12607;12968;28819;28680;28814;12455];
[13173;32846;12870;0;12931;16756;16530;9662;16541;8721;16527;12825;28680;16852;20490;17365];
[12395;12600;10227;12320;11289;5660;5135;32833;12861;12874;8414;5343;28828;8314;5884;0];
[9363;12798;28754;0;11060;32870;6024;0;12967;32885;28726;9210;9056;13042;16692;9943];
[0;10001;28745;13208;32923;8667;13172;28682;32853;28799;12414;13125;9350;0;12616;8397];
[12527;12750;17361;0;10698;0;5263;28733;5418;28819;0;8781;28815;8721;9736;13221];
[10528;13041;12540;9076;28740;16753;28798;10375;32885;28700;16539;12695;12516;8994;28748;28748];
[13161;32884;9996;9467;16688;5995;0;9247;8765;11245;17290;28736;0;28713;8549;12467];
[12299;12727;12624;16746;5349;13183;12848;28794;12872;16854;32865;9846;9780;13149;32936;9731];
[12726;9367;28721;32853;10764;16518;11544;0;13154;28698;9055;10775;10670;28706;16564;0];
[12803;13123;16886;32908;28730;16832;20490;16766;9059;12966;28733;12468;10676;20482;11984;12381];
[12295;32807;11805;11479;32844;10537;10757;16998;5404;9310;9649;12767;13212;28719;16906;12607];
[13080;12079;12728;11947;8956;28765;16779;32777;4320;10452;13028;13074;12405;32818;12671;13224];
[10852;32778;4504;32908;5547;16618;20481;16529;5470;28796;32830;13164;28718;0;16979;0];
[9564;32800;12329;12898;8768;0;10832;32852;28679;0;8760;9281;28813;11275;28727;10883];
[9002;9080;16891;5263;8774;9682;28748;12875;13145;5448;17228;12536;16650;0;13221;28719];
[12953;12357;16774;12616;16756;28728;12619;32780;11062;32781;6228;11977;5000;12617;10313;16461];
[10969;32799;16710;9809;13043;5476;12839;28746;13051;13121;12682;0;32934;8477;12560;17002];
[10975;10584;28824;8285;9022;10272;12012;32846;13040;0;28762;28705;10534;17016;28746;16924];
[28709;9450;8757;13222;5529;28695;28716;12702;11775;9319;12511;28705;28697;13212;28824;9554];
[12956;28725;12312;12730;12729;16900;9057;5419;12834;17374;32815;16620;32803;4383;28804;12526];
[12359;10670;8773;16687;12692;0;9310;28739;28799;17188;13222;10670;13217;16745;12502;9337];
[8777;8580;9809;13151;20486;11544;4321;28770;12840;12585;28818;17169;12887;17037;32794;12646];
[0;5661;4710;28795;6108;9044;12572;10239;13065;28785;8917;12442;28694;9224;12517;12646];
[0;13079;8766;13133;9348;16752;16746;16771;9816;32905;8424;16699;28729;8621;11668;13212];
[32800;12341;8787;28709;16854;16535;12468;9884;32924;9076;12564;32815;32865;32791;28726;12357];
[11384;12515;12406;12504;11160;12942;13053;10697;0;28708;28717;11543;16931;32777;8572;0];
[16779;0;17369;12775;13222;32935;28693;6284;28721;32837;32883;28725;0;28694;9900;8403];
[0;16909;28824;12527;12588;12764;13221;9311;28719;9948;16966;28781;32805;4809;8759;6434];
[5594;5880;9057;17375;28801;9294;9918;16699;16698;8270;16698;0;13185;10218;9846;0];
[12501;10997;5349;28693;8994;12468;17060;12360;13174;12802;28753;6108;20484;11403;32871;9985];
[13223;10860;28790;16528;11088;16439;0;28728;28757;9649;20490;12754;12790;13076;8775;5290];
[16779;13082;16674;4137;12329;20482;12982;11713;16633;8217;11378;10135;0;12466;12994;12883];
[8487;12008;12498;8479;10371;28685;10070;12981;28759;12312;16700;9225;12428;9963;32801;12507];
[12360;12872;28680;16855;16900;4458;12600;5630;12876;8760;17268;16951;16634;16400;28691;28699];
[17297;28679;0;10880;9906;9606;5470;12442;13079;12356;5064;32802;9739;10285;28794;28694];
[16697;9809;28767;17263;16612;12971;28703;28817;12991;12551;17036;12372;10145;10638;12068;28712];
[10553;9468;12489;12970;12852;6067;9517;8477;20484;12720;17139;17387;10121;28788;12838;20486];
[16935;0;32845;12707;13052;32924;28731;9078;16973;28730;28826;12990;12454;16598;12838;28758];
[13030;32884;10828;8306;16974;12345;10704;13107;28789;9218;28750;8980;0;11587;0;10386];
[9302;12981;12810;16457;16635;12293;12645;16458;17398;28783;11295;16773;0;28819;5983;0];
[9302;10740;11467;17009;12509;6115;12730;8790;5659;12312;12694;13115;13220;12526;0;17387];
[12970;17265;32820;12828;11266;17053;8421;11179;8852;16855;20487;28675;28820;10145;28767;9264];
[0;9745;13125;12892;32854;0;16966;9874;11404;12885;32844;28717;12499;28806;12504;32937];
[12907;0;16420;16857;28818;12077;28694;28804;8787;17404;28739;12596;16752;16519;10376;28731];
[13052;12861;12705;0;16916;6007;0;28760;12703;12604;16675;10136;0;12514;28730;11571];
[11668;12992;9077;11425;16832;16617;10572;8422;0;28820;8650;13068;12695;32865;0;32820];
[16619;12657;28793;28786;28721;12886;12887;32800;16635;28768;16835;12711;13078;9130;0;28695];
[6107;12659;16743;9088;0;16448;28736;0;28754;16857;10626;0;28710;12850;12790;8777];
[10114;0;16779;11332;6240;16721;16744;12729;10247;8966;11588;12935;6362;11333;8848;0];
[28820;9365;8853;12712;12299;12308;0;16648;11712;12713;12443;17404;17093;5355;16914;12597];
[12683;28710;0;28723;11779;28739;16913;20485;9620;12971;9619;16461;10115;12660;9263;6001];
[32866;32878;8788;5203;11784;16497;8619;12846;28704;16980;12347;9862;12799;13066;17149;8470];
[28808;5598;17249;16834;12821;10378;6023;13186;12551;0;9087;17398;5377;17331;9719;12561];
[32817;5604;28781;9377;16972;12730;12431;17150;12839;8423;9999;10705;32802;4260;28750;28722];
[10976;10144;8898;28730;28684;0;8903;0;9011;32924;6366;12491;16426;5718;11395;16923];
[12838;28747;16734;10571;16542;6441;17044;9734;12456;5467;28678;13050;0;13094;12610;17193];
[32854;12561;12744;0;17161;11308;8789;16463;13173;12922;12852;9319;12660;12809;0;28789];
[17172;0;9302;17050;0;12370;0;32873;10461;12708;28768;11235;0;12594;0;16621];
[8478;9975;12959;6279;6262;12822;10757;13184;12585;0;9771;16446;10378;12908;12573;12682];
[9373;9195;0;10413;8787;28809;13095;6292;32869;6442;13104;0;13187;17080;28813;12995];
[12732;12850;6150;16530;13043;12967;9077;28676;5502;32858;32922;13212;32805;8632;28728;17123];
[12574;16779;10741;13223;28791;16767;17081;28814;28750;16413;5571;12886;0;28772;4760;10705];
[8424;17396;4786;6023;11274;0;13151;8414;8333;16932;28710;9863;28772;32806;9873;10507];
[12753;4603;0;28736;5355;32843;5599;8966;12916;9918;32807;6295;12659;12729;12440;28806];
[5600;8788;8779;16774;9555;12574;12968;11010;9609;11686;32780;10464;12564;9217;0;28715];
[10270;12809;9002;12840;28773;0;12801;12888;12575;13224;17147;13005;20490;12468;28775;28693];
[17252;13067;12930;28732;6135;11425;9375;28740;12549;0;16776;9620;12810;9973;28740;11347];
[16515;10160;16530;8758;12646;16620;10742;13198;8713;0;12429;11349;12510;17397;16636;12305];
[28727;17251;0;16853;9343;12346;0;32857;5476;0;28821;17319;12516;10152;16767;12790];
[28794;28808;32846;13101;10859;0;12547;9772;13003;16806;12766;32857;11376;12837;16462;12579];
[28729;11413;9058;5603;12538;12907;9181;12540;12586;9964;28740;28768;12995;0;12634;12575];
[12562;0;6280;12811;28788;12696;28711;11010;12308;5096;28818;8480;12719;28752;32911;13043];
[0;32844;17059;12514;32846;32800;4148;12971;12969;0;28738;12719;10450;8469;28729;0];
[12744;32781;11798;12429;0;9388;32855;12706;12360;17078;28810;12921;9087;12960;8767;10450];
[16834;32855;28741;9059;12822;16766;0;28683;12504;0;17053;16930;12298;17252;0;12622];
[17203;0;13044;20486;12297;12708;0;28683;10883;5571;16667;28694;0;13123;12822;12658];
[11631;12838;0;13160;5099;32928;28795;9085;9948;28733;8720;11778;28762;17124;9619;8787];
[12995;17068;5484;11594;32931;12647;13218;28816;10247;0;12917;12960;10198;28773;0;28756];
[5099;28760;11046;16686;11088;12402;11103;0;9373;0;12438;17328;16776;12956;12695;32781];
[11791;12803;17216;5099;9666;6433;12684;11427;0;20483;16615;28758;13148;32781;11847;11088];
[28755;17299;12936;32845;10215;32846;32846;12992;9919;12968;9687;28787;16446;10836;10274;12970];
[16447;28750;11843;28796;28795;12344;16603;16608;16586;9664;8776;16595;11340;10842;28698;11780];
[0;13124;5614;16773;9077;12660;12696;28731;0;12528;9387;9366;13039;28775;28794;32788];
[8645;28751;0;12754;13146;10414;28764;4919;32832;11345;6175;9366;17150;28822;13006;9311];
[0;32778;4643;12403;13020;11056;0;12884;11086;16540;10814;11179;32789;9197;28762;5645];
[28766;11759;0;13089;12917;28718;11637;0;32885;16540;12311;8777;12958;28764;11342;13126];
[28747;13091;28786;11469;12504;0;12958;28742;17002;12659;28748;5751;10790;9601;6329;28761];
[5578;12588;10490;9985;12515;28720;0;12849;0;16617;12839;12760;20487;12444;10504;0];
[11647;28782;13008;11340;12584;13120;12815;9948;0;11843;28775;13174;12419;32846;28724;12406];
[11523;16845;17228;9012;8942;28742;13133;28761;12369;12756;12792;32781;11809;12647;28795;13151];
[32866;12802;28716;4841;10677;0;9059;12996;0;10236;8789;12468;9068;9673;28821;17384];
[9012;13112;10511;28712;5606;17204;20487;16617;10743;28773;17059;17081;32934;0;9601;12346];
[28803;17056;28814;11394;5643;6364;12947;28805;0;28794;0;13068;12564;28791;0;16461];
[28728;12714;11682;10794;0;5482;32895;8983;11675;28747;0;32793;12852;8778;0;17016];
[9366;12551;0;11727;0;8491;10215;28752;5651;32875;16698;10413;12870;13090;12647;32876];
[0;28761;11970;11801;17408;13087;17207;9260;13199;10545;10513;12681;8480;0;20487;12702];
[28770;12708;12599;16846;20487;12551;12811;32876;32903;12563;28708;0;8480;17008;32911;5478];
[0;12743;28793;12681;9531;16609;28763;0;10976;12765;11643;28716;32922;8549;17057;10160];
[13116;28720;10748;9683;28816;17207;17251;20485;6158;20482;12731;28770;5612;12810;17138;10842];
[12009;10405;16733;32867;28781;12026;12575;32800;8218;28825;13100;12528;32800;8517;28796;0];
[12503;13212;6129;28770;28739;12810;17124;0;28761;13152;12323;12588;0;28687;11087;0];
[11349;13036;17217;8788;0;4972;6443;11042;32846;11151;13066;13031;12919;12443;0;16983];
[12515;12708;4972;17408;8779;12573;0;6131;8723;28819;16773;8769;28683;0;28722;8337];
[12693;4508;13044;12798;12899;32857;28769;0;28749;10238;32800;9114;16778;16846;11724;12863];
[12754;17061;12766;12716;13173;5907;12408;28783;5816;32857;0;16541;16922;12930;28675;17068];
[13104;10862;17136;9676;12907;0;17059;13099;12930;12715;17065;16756;9021;16450;11842;9954];
[28751;9720;12825;12708;0;12597;12480;0;12492;12971;32839;6201;13187;11860;20488;8469];
[8549;6195;12537;12945;9975;0;32868;28759;16835;11386;28784;6196;11925;28762;13027;20490];
[28719;11909;0;12420;12849;28815;28751;32908;16992;10812;32878;12646;16841;11757;32888;0];
[32888;32881;0;11341;28754;12561;9686;11732;0;16855;11042;11609;9365;8424;13158;9687];
[0;13035;32856;28784;28786;6087;28808;12406;32869;17398;11056;12929;32779;4758;11056;6332];
[13124;28763;5645;11148;13041;17140;16604;0;12907;0;12538;16637;12365;12295;0;6338];
[17410;13126;12715;28764;9196;17171;11780;32903;11640;11686;28772;0;12942;28681;28696;0];
[28801;12838;28741;32855;12972;10162;12583;0;32857;0;12730;12347;6434;12918;16729;0];
[12620;32903;12444;12056;16856;28694;28682;16857;12528;12371;12576;12516;12402;11431;28764;16904];
[12920;8830;32895;28715;11358;16778;12444;32911;11970;28772;16794;17094;0;28762;32815;0];
[8544;12851;13027;8490;0;12468;9077;10153;9956;0;5478;28740;13040;12826;8583;13150];
[32804;8305;12996;0;12851;12767;11050;13114;12648;5484;0;12874;28687;32936;17009;28743];
[0;28777;28772;0;12610;0;32937;0;12539;28767;28825;8314;12995;12983;11387;6207];
[32936;8787;13044;12708;28703;28776;12058;12336;28760;20486;32807;5687;0;28816;12576;28677];
[10843;0;12912;11102;28802;16779;12743;11708;28721;12600;32880;12534;12528;17139;0;28698];
[11158;0;28744;28698;9189;13128;8479;10262;16692;16698;20485;13004;5449;10546;16525;0];
[16609;9687;4661;12066;6334;28719;10567;9984;12462;12468;28768;10806;28715;12767;6335;28684];
[11930;13113;10254;28673;6043;8487;0;11742;12839;28810;12564;10584;8769;32800;9413;28753];
[11639;13091;17010;16922;32842;0;11748;17209;8413;4458;16500;12969;16595;5478;16745;16855];
[11606;0;11870;11967;32800;9699;28729;13073;12440;9686;12993;0;28679;10803;8738;10262];
[8789;11144;10850;16832;28704;11603;28774;4870;28772;12813;28793;28803;13075;32882;9204;0];
[12982;10153;13112;9337;11609;28823;10098;17208;0;17330;12768;11115;28719;0;12852;12767];
[12635;32857;16597;9247;5613;6220;17332;11640;28814;28763;28750;12405;32833;10800;28795;28675];
[16992;12695;28822;10271;16758;16698;6086;32881;10751;32923;12996;8478;12456;13212;10552;0];
[6036;12970;11685;17014;12683;0;12515;17151;28789;10215;0;28684;32935;28746;17141;28778];
[0;16983;32800;12412;0;11732;17071;17139;28806;17141;10552;17161;12942;28759;5614;17160];
[11702;28768;0;12611;28784;12528;28713;32911;12994;10572;16993;13174;12563;10552;17295;12959];
[28797;0;12575;17332;12512;32800;12424;0;8470;0;8443;13211;12635;13067;11443;28808];
[0;16463;17062;28677;13128;11441;32893;6306;28704;13103;10513;5645;28801;11449;28752;28828];
[11355;9779;6042;11685;17153;8788;10862;11414;6273;13221;17295;17253;13186;8350;9089;28741];
[28794;17154;0;12402;0;9085;5613;0;12852;32909;0;12825;10815;12922;28768;12824];
[13114;28735;6166;32840;28754;32815;13122;12995;12779;8555;11357;4674;28806;32882;16823;17229];
[5650;32885;12068;12048;12417;9852;32884;11386;11058;6041;13116;11700;12942;8981;13151;8479];
[11465;8265;10281;28687;32937;13039;28820;28725;28766;17013;12847;10859;12996;11655;9068;9987];
[16658;12876;12864;12894;28807;11312;10161;32781;11825;28705;17211;28753;28710;28700;12767;12976];
[11111;28708;12068;12588;11215;9087;17016;28693;17239;11355;0;20489;11465;9674;5762;11409];
[28802;12922;28753;12610;0;5861;13050;12659;11910;10883;17171;0;11451;8476;13054;32829];
[0;13050;4358;13193;32858;9655;28736;10218;10880;20484;13064;32908;28710;6380;12569;11387];
[32934;12527;17151;0;9878;11358;13006;28790;12863;11863;28778;13042;6166;8778;11930;28801];
[13038;28789;17281;12521;11348;12309;32779;4924;0;4416;17307;28718;28789;11603;6313;13220];
[9687;12768;32775;4152;13102;6170;17286;8272;17071;12344;13066;28795;32845;12599;8600;17168];
[12463;12323;12944;13008;28704;0;32908;32909;9387;16621;5608;17227;13221;16602;12936;16727];
[12393;32838;12600;8575;17011;16542;16537;32934;28813;28732;17002;9001;9767;28822;32894;8489];
[10803;5784;17387;6393;28714;12920;10207;11115;28828;0;13062;17235;32817;0;13027;32897];
[8868;32871;12875;28828;11646;13062;12334;28743;32936;32775;16480;17004;32807;9353;13080;16924];
[12321;12605;12935;28739;13038;12672;13027;11442;12510;16517;13073;12863;12623;0;28806;32791];
[11736;32884;11387;0;6218;17159;17083;5579;12065;28688;11975;11892;28699;10814;28796;0];
[17314;4893;11404;12946;16564;28733;32934;16778;0;28762;28805;12579;16506;16621;32859;32864];
[17345;4384;6037;0;11447;5101;16417;12932;0;12477;17252;16606;32791;17285;32801;8224];
[11096;32897;5660;0;28674;11114;12523;10578;28819;0;9870;12540;0;32777;4328;10462];
[17331;12994;0;11654;32936;12852;12417;12828;11645;0;10853;28747;32805;8662;13053;0];
[10850;12900;11699;12606;10516;32909;0;13040;32846;16751;0;12684;9665;8605;28813;12516];
[16815;10406;28673;28791;0;28813;8584;17229;32897;17241;13029;16439;12876;0;6342;0];
[13128;13158;0;32932;28730;10254;0;28711;17230;11603;9986;13119;16858;17161;13044;9088];
[11457;28743;5409;16530;28728;11648;16856;0;12945;13053;10570;28770;8769;10573;12971;0];
[5915;0;11929;28784;11150;11866;6383;12774;16515;10648;28722;9087;8785;8439;12588;6424];
[0;13101;32801;12294;11692;10125;0;13089;17089;0;28828;13224;28747;32923;12971;28768];
[32916;32935;28819;17168;6008;32827;16922;32859;28824;13099;32872;10868;32919;11150;17168;12731];
[12948;13138;9841;12453;11059;0;10868;13211;17084;12439;5249;10399;12863;32775;9118;10262];
[12959;0;10850;12611;28769;12995;32906;11738;9367;11936;32801;9119;28719;16591;20489;13055];
[11713;8285;28813;12672;11712;12380;0;6425;13065;6448;12802;12552;12298;16737;32801;12330];
[12635;17149;6167;16671;12310;12839;16688;10878;8957;10859;11871;16571;12669;8412;5538;28802];
[4166;12330;13030;16779;10789;0;6384;12814;28800;32898;12569;8490;11169;13140;12654;28808];
[9585;0;12828;11822;32806;12347;28741;13053;11161;13066;9503;5699;11158;12297;28686;28814];
[0;12756;28741;16448;16421;32885;11395;10862;11657;28806;12702;9078;9210;32843;28764;6386];
[10562;4600;12768;8789;8666;9674;12587;32775;4168;17288;11167;17053;10400;0;11740;0];
[8700;32775;8525;10264;28801;13055;11748;32872;12732;9383;16509;9077;16588;11403;17229;17246];
[9666;28791;16756;8790;28715;28725;16683;13139;28782;11700;0;20484;10405;12472;12357;16857];
[13152;11748;13079;17162;17162;8778;17344;8479;13103;0;12371;12935;16857;12681;17162;6429];
[17080;17377;32839;13073;16641;12306;32898;0;32908;0;12415;20484;28675;12773;0;12804];
[32775;9716;6429;32935;12502;13062;10845;13019;8366;11764;32806;9279;0;28729;17290;9467];
[0;12790;13146;11530;28807;12984;12540;10816;13116;10044;28685;12693;13014;11940;32921;12512];
[32907;11413;17240;28775;32806;5169;9914;12787;9247;28723;32911;12320;28679;12954;9377;20487];
[11936;0;11654;28705;28702;11764;12606;17172;10437;13067;32802;8240;9778;10582;16664;32840];
[17282;8480;8382;12406;16742;8555;9089;12370;8955;12672;0;12381;0;28810;12972;13140];
[28813;28701;5364;16597;32859;10563;0;12789;12510;13183;9473;12804;12443;28826;28712;11910];
[28791;28785;28779;28779;0;32896;32840;0;13055;28716;32815;0;16658;28779;0;10845];
[11413;28808;13079;12815;0;16807;17071;12298;11178;0;17094;0;10043;8365;16537;17315];
[20490;11161;16813;28714;8664;11774;4419;5652;13103;5109;28692;13064;28686;9516;28713;28792];
[13079;0;12884;10197;8881;12876;28807;5204;12476;12478;32778;4465;32778;4522;12864;0];
[12456;28704;0;16524;32872;11448;13152;32916;28737;12828;0;17241;11981;28816;0;8959];
[9900;9349;13211;0;28816;12416;13139;0;28795;12540;17241;12382;12500;0;0;9308];
[16751;16430;28819;28801;11821;11611;0;32806;5251;28736;12678;0;12536;32780;5489;0];
[11741;9974;0;0;9480;17320;28819;13066;8490;0;4635;16750;13067;0;12995;13220];
[12473;28702;17091;28684;17082;17174;10868;32895;8916;28813;11059;13113;9066;16621;28727;32802];
[4297;0;32907;13041;4269;9839;16937;11246;12489;11210;10579;5327;12691;12415;28701;28682];
[13052;9802;6045;8854;9909;9473;12312;17246;12672;10116;11991;11158;12922;13067;13193;16674];
[0;32898;17173;11983;11703;28705;12547;17357;16421;6380;12936;11991;6348;0;11742;28751];
[12624;11741;11713;28772;12736;12628;12609;28751;6386;9538;9388;11187;17309;16934;11457;0];
[28793;12369;28725;12491;6348;12640;11991;28802;11712;6432;28745;9245;17093;8355;12774;0];
[11901;10872;17320;0;0;4583;28700;28803;12653;0;28807;12948;16517;28731;6385;12502];
[12564;12959;28699;9954;16744;0;11160;12689;9089;16518;11167;13222;28822;13089;12007;12600];
[32920;12297;9089;12706;4892;28723;9209;0;6094;11404;32776;4253;10870;0;12600;0];
[5295;9971;6175;28678;13064;28768;12383;0;16598;13139;11610;9974;12768;6175;0;13064];
[12694;0;6077;17319;16509;32883;16577;6218;12335;0;12007;11901;10197;17318;12948;12911];
[28674;17095;17253;0;0;0;0;0;28732;10897;0;28712;11982;17327;0;32908];
[8662;28707;8996;0;9904;10878;32793;11901;28681;11938;9051;0;8710;28808;20490;13076];
[17172;0;32921;17282;32872;17173;12001;12718;17094;32893;11901;11906;6432;12936;17319;4502];
[32779;4833;28686;16887;12945;5865;16621;32814;0;8267;32872;28710;16617;0;0;32827];
[12430;28800;0;11903;28812;9377;0;6425;28749;28714;0;0;16597;12935;8707;0];
[11169;0;9246;28796;28736;17252;28758;16800;11449;8650;16492;4278;32898;6221;12936;0];
[0;12392;9277;20483;12855;10311;12451;28696;12828;12947;13114;28688;0;28699;13103;12380];
[11984;12522;12591;12356;16584;11181;16578;16755;12699;0;28722;28722;12831;5146;4249;4388];
[32803;9178;12920;13079;11481;4981;28808;0;28686;17016;28706;11182;12486;16579;10593;28677];
[17252;28692;9615;16598;12591;11984;17298;8750;0;0;12522;8853;0;0;0;32790];
[28773;12296;0;17015;17095;32921;12899;8364;17349;28734;13160;0;9153;16429;17325;32789];
[9686;28782;12321;16657;28813;28732;12418;9173;0;4302;28713;17251;32916;17170;12464;32780];
[5217;13078;28724;6044;17174;10870;4584;0;12662;16451;16499;32882;20490;17320;16736;9491];
[12708;28810;0;10516;16840;0;16430;28768;12972;4551;12347;16607;0;0;13194;0];
[12648;16588;28822;11985;11910;11268;8395;32804;4586;10028;32807;5927;0;17173;0;16617];
[8930;12663;0;12311;9607;32830;9620;16772;11468;11570;12947;0;28716;4356;12641;12744];
[12839;16428;16449;28727;8491;28748;16807;11481;0;16460;28722;16822;11178;4556;12600;12853];
[4398;12368;16778;32792;5365;16920;11470;28686;13152;12455;16968;10861;9209;12748;9300;9620];
[32898;8785;12451;11199;9240;16830;32918;20489;28814;28780;17141;12346;11764;12888;8640;12299];
[12396;12382;28735;12047;12624;32781;8735;9831;16585;11333;32791;28696;12758;16897;13044;32920];
[16570;12639;11171;16675;12310;28673;0;28774;0;0;0;0;11742;12911;28713;12991];
[12620;0;8353;28809;28725;4800;28800;9508;0;32922;16821;4337;12592;12359;12996;13056];
[0;32792;0;17219;28681;11780;12407;12984;0;4390;32794;5215;17095;12943;12814;32793];
[28717;16447;16588;12454;17249;13113;0;32803;4425;8914;11750;16611;32819;8344;11769;8953];
[12298;16858;0;17320;12076;32817;16607;12063;32793;4807;8448;16596;0;10882;28768;17170];
[11902;12393;12312;0;13128;12372;32778;8596;10882;12681;5284;28803;6271;0;17052;13104];
[28828;28826;28815;13116;32897;8606;11182;16870;0;9897;0;8715;28814;28808;0;28724];
[9012;6442;28697;12358;13032;12735;0;0;11180;12323;13068;16519;0;10443;10261;0];
[11545;16650;12323;13001;12402;9241;17308;17325;32780;11510;0;0;9213;32788;13210;12522];
[12960;13020;6005;12407;11565;13019;8709;16411;8979;4970;16596;9964;28820;12996;16729;28727];
[13025;10881;0;0;28750;0;0;11985;0;10321;12922;6442;4943;8364;8882;28803]]%N.
Definition LOOKUP_8 : list (list N) := [
[28715;12044;11985;9837;12344;4884;32869;11756;11908;5528;12884;17409;12842;13016;32920;8577];
[4963;17174;4857;11907;28800;13193;17352;28705;16814;10883;28744;13170;17174;12043;16500;0];
[32923;11774;11012;32805;12832;16718;17251;16755;17318;12523;13054;9539;32806;16680;0;28796];
[12042;28756;12546;13116;9504;11939;12664;8790;32818;32815;16428;12583;32852;16675;9014;28788];
[32779;8659;12405;16814;0;10882;28749;9476;16694;28815;9642;32791;16519;16451;0;16588];
[11910;0;8918;9584;9980;8564;12068;12513;12511;16500;28720;16518;12336;16462;11113;0];
[0;0;28704;32911;28720;13127;9262;13198;10347;17239;17251;12420;11989;0;0;28694];
[5660;10507;12345;16460;16824;12605;28690;16953;10391;0;16539;13139;17320;10101;0;8993];
[12668;0;12444;8699;0;28735;32921;17320;12395;0;12803;12749;13020;4483;12738;10047];
[0;0;0;16588;11479;32918;13128;28725;13193;10642;16824;8401;13103;10883;28803;28722];
[16685;0;4810;32853;12312;8456;32780;5175;28780;12335;4366;13187;28680;12815;10086;12002];
[12063;9246;5948;12416;12542;12833;17360;9802;12346;17228;32817;9004;0;9067;11780;32793];
[32921;28784;0;13127;12394;9767;28691;13217;32780;5359;12323;12585;13115;12974;12596;32792];
[10397;8349;28814;28680;32819;12633;28705;13206;0;16921;17355;10647;6154;28724;0;32818];
[11953;28685;13216;0;28821;17062;16507;11768;11481;9634;16753;13040;32922;12379;10317;32833];
[5282;16683;0;0;16615;12311;0;12079;32793;11780;13115;4625;6222;12898;4395;12580];
[32911;12429;13068;12828;12347;16677;20484;16814;0;16771;9226;28738;8351;12344;12832;8957];
[12395;12511;13044;28735;13182;28724;20484;32932;28709;12323;8655;0;0;32790;9007;10608];
[12728;12587;11481;9941;12960;6109;12653;10137;20486;28678;12500;32819;17037;16462;12605;0];
[0;13104;12431;16449;32933;13205;8570;5030;17367;28741;16507;0;0;16655;28716;9506];
[28779;4545;0;20487;16833;0;13220;12727;0;17102;12465;8666;0;28751;11567;10946];
[0;10718;28698;4942;17374;11182;32792;9640;13128;9300;16588;0;11999;20483;12764;11769];
[17377;16667;9256;28769;17367;28700;28736;32859;32923;28712;16934;28734;28710;12963;11766;28760];
[9427;5500;32791;12298;28747;13080;8413;11480;28768;28710;8750;0;28695;12504;28723;28819];
[0;0;12833;13092;28706;12311;9941;8755;13194;32922;16677;9219;13068;12078;12988;8665];
[0;28764;12454;10906;0;28698;11827;13199;13077;16451;12749;28696;5038;32870;10573;28731];
[8568;28678;28818;0;12844;9315;16619;0;13127;4665;32833;13198;12054;4810;16753;13173];
[28761;17330;28784;10883;0;28792;16677;17150;10946;12619;0;12634;16437;4460;0;12933];
[28788;0;0;32794;32779;11016;28682;12779;0;0;17358;28703;0;32781;5926;12868];
[8347;8689;9980;6452;0;20483;28762;10989;4498;28812;0;16779;11947;0;8655;16796];
[5240;32880;12490;13187;16413;16602;16749;12040;28747;9364;12946;28808;17330;9672;13140;5774];
[28755;5187;5568;12383;4711;16874;28688;0;16686;8402;16851;12442;8403;28815;9926;16606];
[28687;32777;17019;12480;16616;0;0;12847;28761;12440;16618;8788;0;32831;32937;0];
[16677;28678;9751;13211;28787;8285;4992;5807;28792;12312;12679;28784;5194;0;0;16755];
[12420;12787;9069;16958;0;0;32794;11182;28806;13131;5321;9292;17364;16460;28708;11027];
[28791;16766;13127;11289;28780;12864;17081;13186;5052;28687;13116;12924;32806;8717;13052;28779];
[10571;11780;28761;0;0;10647;12324;5382;0;28763;28770;12513;12549;0;13211;4461];
[9681;0;28688;16608;12486;32820;12754;13197;12012;0;17020;12752;5080;0;9262;13140];
[10138;28768;13068;10813;12679;12950;9801;12360;12441;4462;12883;16457;28768;13187;16685;9547];
[13042;12728;0;12565;12575;28681;13008;32789;10365;13210;0;12332;9685;28683;0;16687];
[8410;28715;10683;12002;28784;32833;13186;16463;13209;16779;12068;17331;8385;12845;12775;5328];
[12718;10582;0;12868;28770;28819;10394;12455;12742;16834;12849;5252;0;9011;5170;16518];
[12964;17361;0;6131;0;8613;12972;28714;0;12633;10775;28792;11956;28769;9030;0];
[0;16588;32794;12323;11262;28728;9010;16450;10138;16752;0;17004;0;12073;12741;6159];
[28769;16462;16451;9263;28736;13116;13200;32907;12964;11224;12726;0;9219;32778;10979;28706];
[16658;16541;11332;32793;12987;32897;12077;11112;11287;0;12870;12562;16526;10816;0;16688];
[5192;0;9342;8957;13176;28770;13079;12597;28796;9346;28814;32781;5723;17329;16606;9641];
[13188;12438;10138;0;4688;9932;17100;32923;13128;12980;32839;17411;5505;0;10715;16527];
[20483;16696;32881;16686;12814;9318;12049;28681;0;32818;16693;0;12979;10410;28683;10079];
[8454;17094;11711;0;17332;0;28761;32806;5143;12599;13199;9263;12384;17109;11074;16539];
[28676;12729;5463;8285;10366;16538;8404;0;28696;28738;12431;5343;28739;28715;13208;5047];
[13218;12888;8940;0;10990;12444;0;13067;12679;0;0;9833;9008;9055;8464;5528];
[9001;0;17407;13187;16450;16834;28736;12671;0;9012;12324;8912;28710;0;12657;10775];
[16463;9300;12836;0;9197;9263;16461;28717;5418;0;28729;16766;12679;28782;13210;32933];
[12368;16845;0;16835;13200;12312;32827;8712;28770;6225;10394;28820;28694;28724;16988;12994];
[4942;12360;12002;13056;9019;0;32794;9081;12403;8764;13080;17331;12371;8844;0;28780];
[16774;32789;12599;5566;12702;12743;8964;11357;28783;0;12741;8713;28770;12347;10394;12419];
[10741;17411;16696;13020;12598;28742;28688;5913;10282;16451;0;12848;12526;5067;0;0];
[10682;4942;0;32867;0;0;0;17378;0;0;28682;8466;12775;12348;12764;0];
[16539;28738;0;12847;28820;0;10405;6263;5506;12466;6049;12767;28730;16881;5906;17367];
[5800;16886;28687;12704;12657;0;28791;12729;17399;8405;17331;10883;8667;28676;0;28675];
[12775;0;8474;16451;8368;12616;17329;9321;0;9641;12873;28683;12741;9019;12607;12617];
[12584;17329;9593;4942;12836;12066;28804;12491;28722;12766;16883;9874;28707;32853;32781;5918];
[28685;32920;0;28770;16462;16982;32871;17332;12798;0;8768;16463;28762;12952;11257;32869];
[12741;8957;11244;0;12572;17298;28726;10205;28801;8756;10431;12634;16844;10108;9301;12443];
[12616;11262;8704;11451;17369;0;12623;12875;28778;12408;17365;11180;32807;8773;28788;32780];
[11548;10714;0;10670;9908;16597;12909;9599;12988;28768;28739;12836;12568;0;20486;17090];
[0;12789;10442;16765;32818;17032;8576;16835;32937;28714;10270;17409;32791;8666;10032;12575];
[9321;0;12077;28745;20488;32794;10584;4401;28771;12370;17361;12346;13080;16774;28732;0];
[28748;12671;0;16912;28819;16789;28736;9973;16845;28825;0;0;17160;17378;12644;9348];
[12955;28742;9010;8475;12077;12874;9343;11468;20481;28703;12431;8963;13150;9809;8904;0];
[32816;5436;9308;0;8858;9003;0;10698;28721;9002;10191;16440;12713;16539;12754;11028];
[16609;16696;8397;13175;32870;17394;32838;12068;5343;0;4256;11436;12957;32865;8458;28817];
[10761;9649;12906;8775;13044;17132;8422;28739;32924;12538;12657;0;17365;28776;28748;8446];
[12617;12694;17378;12588;12872;32803;8271;13187;0;5637;32865;0;28743;17404;0;12067];
[16503;4971;10698;28742;16461;8711;12514;16461;9327;0;0;9846;0;28762;0;0];
[16894;16539;28694;28807;10162;12767;11926;10774;5844;12871;12713;28769;10676;0;12041;0];
[12079;17004;12596;12610;0;10239;28759;28742;9256;28778;0;16740;9311;16816;6396;12691];
[12598;13221;16901;12716;9350;5973;28683;28771;0;8752;16980;4717;12988;9255;9317;28825];
[10676;12905;16854;12957;0;12575;0;16761;12635;5986;28729;11324;0;0;16979;10818];
[16621;32883;0;12898;16540;28796;0;10676;0;28714;16765;5864;10705;20485;12896;32923];
[9358;10152;32936;16773;12462;11395;32870;0;12767;16853;12430;12682;9301;28726;8480;32832];
[32807;8444;16979;0;8368;13211;12451;16846;17251;16448;16844;32779;16510;8721;16834;17369];
[8475;11955;12348;0;10115;9884;28796;13138;16698;28760;12647;11073;0;5978;12809;11003];
[28705;9254;13217;16971;28689;16620;11778;8766;0;8412;0;32872;12924;12644;28735;16766];
[17361;12403;20481;12787;12906;0;32776;4246;28722;28724;10145;5753;10108;12322;16966;0];
[28789;12079;0;28826;10975;8470;28734;0;13067;12636;9348;12319;11073;4971;12635;32872];
[32820;28786;5464;11116;16462;28793;8911;9358;28796;28739;9909;28677;9320;12360;8449;28758];
[11003;12067;12658;0;12849;32866;0;12910;32794;32829;0;12393;5841;0;16700;10676];
[10222;16621;12600;17397;16769;12789;28733;12765;16687;28765;10160;28773;8777;0;16988;8460];
[10402;10704;0;12712;12384;32776;4272;28828;12694;11295;16971;11056;32854;16609;12743;12597];
[0;12884;17378;28820;0;6101;12714;13222;5800;17361;32859;28777;10115;9264;16698;8903];
[12716;28760;32820;0;17398;12968;0;12772;9796;0;12440;32878;17043;12597;0;12984];
[0;10816;12636;9020;28696;10415;16998;13160;12525;32858;10706;12862;28814;11128;4815;28691];
[11668;6151;11063;20487;11295;12850;10481;28766;28819;13175;32807;6233;8423;0;28706;12827];
[28774;28789;4848;32806;11555;12465;12943;12418;17332;0;10976;32859;0;12766;10208;12790];
[12384;32845;12336;10975;11553;28713;17388;12545;12645;16777;10456;0;12955;0;12863;0];
[17150;10879;0;12703;0;8420;0;10776;8389;0;0;28825;12872;9649;16809;12011];
[12659;0;12394;16421;0;0;28748;28728;9601;16966;28825;32878;28817;0;12068;32922];
[28740;17378;0;0;12812;28702;17397;9609;0;17376;16437;8475;0;28683;12720;12693];
[11778;9371;0;16854;9833;17162;11129;16855;6157;12936;5442;12703;28731;8760;17124;28771];
[11005;17053;28817;0;13222;12905;8371;28749;16937;20485;10676;32934;0;12872;17002;10158];
[0;9084;9059;32897;0;28797;5470;8359;10788;17016;11561;17404;11750;11894;28720;28684];
[28808;12838;12896;0;12837;9649;28789;0;10217;0;10217;13003;9862;28727;0;13094];
[0;16542;12430;28740;28794;11178;12913;12489;28750;10532;4397;11075;28760;0;11337;17081];
[9350;9564;12550;9302;12755;9319;16844;16656;28700;9152;10503;28781;32846;28768;20486;28733];
[10240;13144;28767;0;16990;8760;28796;28759;9617;28730;6238;12993;28679;13163;12669;9649];
[28759;12979;12816;28784;28699;32792;0;10162;11075;9078;0;0;10805;12936;17124;0];
[11561;28715;10444;12753;28779;32818;10743;12717;0;9546;13151;16895;17240;20481;17369;12755];
[16585;10161;12657;11301;9863;28706;17411;9555;8722;16855;12322;12477;11087;5990;12798;16539];
[9042;6175;28779;9617;11735;9357;32833;12575;12551;9919;12983;13026;0;17198;8306;10393];
[28828;0;5094;16855;0;9319;28726;12715;12417;16973;28754;28786;28743;10494;12057;28782];
[12575;13175;16966;9365;0;5475;0;12646;32855;16903;0;8322;17398;9516;12741;0];
[13056;0;11555;16530;12994;28808;10206;0;10443;17045;8777;12969;17009;10026;0;28723];
[16766;32890;12991;0;0;16778;8760;5098;12749;13068;28773;28795;12462;17388;17199;28734];
[11056;6301;28761;12668;12826;12371;11556;0;28827;12563;28771;16728;16753;12971;0;20487];
[28691;0;28826;5995;0;17201;12777;28724;12672;6119;13025;10414;8936;9386;16675;28709];
[0;12383;10196;11637;11179;28771;28702;10706;4413;32904;28751;0;12428;10455;0;11080];
[10115;6106;0;10511;5605;28760;11383;13016;11782;12299;4790;10427;16518;0;28816;9900];
[12348;11169;12862;0;10240;12454;12820;28762;11346;32923;6035;0;16895;16825;17274;16586];
[10450;5604;8470;12803;17056;10492;16597;5572;0;12811;16619;9085;16998;10019;16818;12405];
[28813;5885;8478;0;8610;0;28733;12564;32791;16855;6301;12598;8554;17093;17147;32909];
[8723;0;28684;11307;28768;5605;12471;0;10743;16762;4655;0;28798;5065;16463;28677];
[28691;13210;32854;16461;28713;28751;10743;10506;12660;12078;12704;28777;5606;4225;12755;6125];
[32929;11993;12322;16620;10199;9388;12839;0;5065;12574;32807;11792;28795;16885;5448;12619];
[11401;12995;12527;12575;10759;10490;28684;9365;32803;4313;16620;5637;0;11600;5449;12479];
[11302;5863;16989;10011;9319;28742;0;0;0;16608;12607;5990;32867;12768;9387;32804];
[9201;0;11470;0;13176;8470;16413;12862;17135;9332;0;28719;17123;12979;17203;20486];
[9743;12408;16530;6307;10742;17092;10788;0;32879;32793;13210;4852;0;17209;28697;9067];
[12624;32871;17408;28720;28698;17162;12935;0;0;0;10793;28701;11042;17078;0;12833];
[9552;13149;11385;10803;17203;0;9609;17150;5578;16461;11240;16912;12756;28762;16621;12644];
[32857;12348;0;28824;12982;11413;10457;12826;12587;11978;13125;0;13078;12957;12958;32876];
[12528;11817;16930;9919;5606;10216;17409;12540;12898;10803;10116;12681;28748;28742;0;28798];
[10493;12978;11056;10506;9788;32820;16529;6372;17061;11047;0;28796;12382;12777;12907;9948];
[28719;28796;12671;13026;12414;28781;16462;0;17052;9948;0;5613;32828;8414;9287;13027];
[8778;17124;20488;5645;12540;9021;0;9374;11041;16683;11087;28770;12635;12810;12372;12670];
[32840;12682;5651;16937;0;0;16621;28796;0;32878;32831;28776;28807;4354;9885;28674];
[17057;11102;12885;12969;32884;17409;8402;28691;17060;12360;17070;0;12777;0;0;12516];
[9986;5321;32934;0;13026;13032;17081;0;9620;10331;9919;12696;11440;16922;12804;0];
[11672;0;0;12820;10553;12839;12992;12777;10976;28773;11275;28777;9973;17157;0;28785];
[16621;9358;9366;13065;10459;0;0;12671;9938;16506;20487;12755;12819;28719;11355;32871];
[12886;16993;28799;0;28695;10198;12767;0;9321;32781;8724;6295;11012;11672;16463;12527];
[13120;12995;16777;9022;28769;17089;28715;12958;10451;0;28752;28777;0;32891;16895;28782];
[11084;9308;16990;28708;13221;28785;0;17147;0;0;28761;0;12467;28772;16815;12930];
[11794;0;4683;6283;17136;9666;12408;12692;10247;8424;16903;9036;17063;12706;28759;8722];
[4440;0;13099;16643;8966;13018;8920;10545;28782;17068;11105;28784;12839;32932;28737;28786];
[28763;12732;12942;8470;0;28728;12876;9146;32819;10495;16619;0;12957;12765;12919;17209];
[12660;32898;6164;10274;32845;12826;0;12672;9311;9564;16527;9974;12528;12323;9867;9656];
[32888;28777;12358;12885;13055;10803;12767;11304;10262;32807;11854;12828;32879;16609;17411;12573];
[12708;28729;28693;12851;0;12907;12696;6007;11099;11158;0;32883;0;17016;28753;10796];
[0;17141;12504;11835;4660;12754;9387;28753;12490;13029;12816;9366;8769;12696;16541;12648];
[0;12660;12802;11102;28773;0;17078;11160;12634;12884;12875;12788;12309;9451;4937;12444];
[12552;12743;28741;12791;12983;12430;13017;12959;0;9078;28769;17203;11386;11056;11724;12790];
[28679;16439;6158;6194;12884;0;11478;16571;16578;28778;9553;0;0;9386;11684;28705];
[5789;28712;28809;28742;10871;13087;0;16810;0;12849;28718;12768;17309;8581;10514;0];
[9358;16420;13074;9540;28796;32895;0;4873;13175;10246;12683;9763;20483;0;28685;28805];
[12732;32934;0;8486;17002;9247;28742;8423;0;4189;12538;10422;28686;17387;8779;28760];
[28761;12958;0;11095;0;0;8490;28815;10207;28828;0;16542;11780;10751;10415;10812];
[28773;0;0;16518;11058;32908;12552;12599;9320;13085;0;13120;17147;28673;12792;0];
[28676;13049;10546;12356;12539;20483;11891;0;4755;12622;0;12623;11605;12443;11054;10571];
[0;28798;12718;11602;0;32882;0;0;13126;12888;13222;9375;28806;10260;12948;12912];
[10843;10255;16621;13112;0;32935;12406;12563;17003;16969;28789;28776;28694;32903;12933;12823];
[0;0;32883;12672;0;12825;10283;17217;10460;17296;9964;28764;10207;8294;28772;28687];
[9929;28766;11429;32892;32910;11392;28750;0;0;13110;28782;17040;6199;16845;0;17131];
[28828;11387;0;9385;11572;28789;0;28784;28789;28768;11102;11769;20486;32883;32818;12870];
[11393;11050;17011;6284;11451;28715;17399;32936;28742;12466;17004;13052;12935;0;0;28773];
[8480;28790;0;28690;28750;8424;11692;13114;32894;28801;28769;17078;0;16856;12348;5148];
[10546;13140;0;17071;8445;12658;12814;6202;13053;28789;11350;17280;0;32894;12863;10263];
[16722;6164;17203;11539;32937;10760;6333;28767;9047;12683;12847;11466;0;12792;28741;12946];
[12371;9683;32880;32892;28811;0;12834;11552;8490;0;10054;0;28768;0;32937;11685];
[12919;12804;10513;28802;12875;0;12900;13146;13139;9087;32870;13184;11608;0;0;10999];
[8571;28810;32935;28806;5550;10848;16700;0;12981;28770;13027;10504;10443;8779;12792;17226];
[12299;8788;11312;0;0;32904;32884;0;11869;17147;28738;11947;32816;28821;0;0];
[32898;28730;10569;11058;0;6041;12067;10181;12636;12864;13038;17208;11438;0;11158;11102];
[17083;0;16725;32908;28765;12522;32933;28790;6164;28754;16774;11724;28708;13220;32845;28801];
[28707;10801;17150;11441;12347;0;11838;11852;5426;11111;12933;13073;12873;12779;16536;8480];
[12371;12599;28737;12825;12732;12960;12824;17247;32895;32896;0;10556;28745;12311;12707;11840];
[5063;12744;11111;0;6421;12344;0;10497;0;32935;8757;12994;17003;28708;17172;13196];
[32906;12392;0;12456;10153;12874;6209;16525;28681;12813;0;0;28811;12743;11645;6337];
[12426;12719;0;8491;17011;6307;9490;16461;32828;28787;0;32904;32816;10218;0;32909];
[5651;12610;17011;0;32840;12623;8491;17236;17078;0;0;17320;17168;10806;6376;17095];
[16621;6168;9021;6340;28807;28708;0;12332;13050;0;12935;6008;5973;32816;28728;17398];
[17014;12468;12838;28802;10845;9234;17083;17281;9610;12382;6341;13073;32839;32833;0;0];
[9067;17081;28807;13128;5551;28805;6008;32894;9078;16722;11104;13062;0;0;6440;10760];
[12528;4602;12803;16925;12719;12516;17282;13039;28769;13124;28706;8870;16742;0;16606;8789];
[17010;10862;0;10850;5158;32936;28824;12911;13005;0;12617;11413;4547;8320;0;28680];
[12012;32907;9973;0;13151;0;8789;28736;13075;8571;16587;12946;17282;16537;13027;10514];
[8788;20482;11401;10560;17250;28688;28722;28762;28696;5795;8790;11449;11102;5014;11160;12546];
[0;28800;10695;17174;13114;8719;8916;17288;16921;0;6202;0;13062;17218;13051;16699];
[6424;13038;28729;11105;12864;9271;32842;0;6103;12382;11115;13163;12600;0;0;13125];
[12921;11449;11443;12718;11686;17281;13038;12528;12668;6343;0;16462;11654;9376;12851;17328];
[12677;28696;6341;17230;0;32909;17230;0;17236;9385;28752;13017;17161;4853;0;20490];
[20490;12695;11608;5652;28742;10284;12540;11149;32907;32936;9662;28760;17004;0;8935;0];
[16745;13092;11657;28781;32883;9816;28782;16542;16597;6348;8470;0;11603;16537;11898;0];
[10563;13056;0;4964;10284;11645;17013;17230;0;13050;32792;10570;12623;4997;28781;28802];
[6386;10859;6349;17253;12510;12581;17112;16857;32833;16845;0;0;17168;28674;0;0];
[10271;9985;4894;16515;10813;0;32935;0;12932;28762;12509;28822;32840;17160;9984;13049];
[28699;16806;8555;10882;12322;10815;0;17092;9985;0;11982;32815;10868;0;16673;6380];
[0;17409;12295;12564;12773;13052;32911;12439;9610;28743;12659;10142;11414;10816;12576;11700];
[8878;32833;10561;0;9564;12972;0;9456;8275;16658;8283;28743;9676;32818;16519;12522];
[12959;32906;0;8854;10861;12923;28795;0;32907;28737;8312;11728;16761;0;17287;12720];
[12590;16650;12498;5653;0;28779;32897;13042;8306;32872;6218;0;28737;16420;10816;0];
[6386;9451;28791;9377;32827;17168;16430;12394;17282;17288;12779;0;8609;10868;11768;16499];
[12923;17117;9986;28715;12297;12540;28712;17288;11112;10736;0;8847;32905;6341;6379;12576];
[10284;0;12768;0;0;11158;10285;32853;32910;11114;8491;16812;10264;12911;8318;32878];
[11167;16500;10561;16894;28688;17308;28716;28807;12564;11413;12743;12959;10570;9985;0;12395];
[11899;17162;11712;11534;32832;0;16666;9666;13066;12935;0;0;10217;32934;11410;12707];
[16822;0;13056;32846;16674;9203;16605;10264;11403;12876;0;16621;32937;0;11149;11888];
[28790;6426;16830;10271;9376;17168;4832;32869;0;16846;12736;28808;0;28690;17060;8917];
[0;32840;13113;16595;0;32807;10228;16492;17227;28775;12300;13092;13102;16413;13074;16449];
[12582;16597;20485;8315;13077;28703;16729;32779;8644;0;28748;28720;9230;11035;11012;0];
[32872;6204;32885;9944;0;28723;13221;12540;12581;11443;6425;11443;28808;12404;16658;0];
[0;11928;12440;13005;12076;17061;13168;16824;9655;0;4889;12737;32845;0;32870;8491];
[11657;0;8704;16685;8395;0;16500;6172;28696;28711;12564;13041;10580;12322;0;9375];
[28779;9642;8344;8648;13114;11013;8920;6385;13175;32872;17236;28755;13006;8384;12652;12492];
[16775;0;32859;13051;12636;8313;0;8910;12540;10522;9502;16461;11929;0;12429;28773];
[28808;9088;17139;10872;8348;16598;11611;12370;11648;13104;16604;4899;12390;10878;0;28730];
[0;8758;28744;8318;13166;28684;9386;28714;16571;0;12491;17299;13054;28734;12876;0];
[17315;11161;28795;32789;12792;6175;5696;12624;8409;28764;8617;0;20488;13172;0;12522];
[6343;28798;12501;0;12610;0;11694;4987;12407;17140;17230;11170;12320;32897;16914;0];
[9452;32777;4418;4302;12408;13077;28729;8663;0;17094;13103;13186;28737;32794;17170;0];
[32885;11872;12593;0;28755;11457;9017;0;0;12843;0;16578;32840;28704;11114;8577];
[11971;11700;4969;6431;12768;0;32791;17305;17165;12393;17161;0;10563;32844;12796;12591];
[8583;4854;13139;4835;16581;13150;0;0;12522;28677;13077;12357;8278;11469;6432;12619];
[28682;32872;11713;0;28680;32846;28716;12468;0;8349;11711;11402;16597;11778;32805;4891];
[28771;12312;0;9387;12524;11430;4634;4556;28712;28686;0;12591;13121;12971;8666;0];
[12395;17092;32862;12780;5496;16439;9209;0;8577;0;0;28814;9089;9666;0;0];
[11443;6351;32779;11193;13028;17170;0;0;6098;28771;13156;12960;28779;11171;12357;28736];
[16684;9971;28736;4585;12644;0;20490;17305;28710;0;28698;12467;10878;28806;12623;12662];
[12323;17315;12487;9686;11768;0;28821;0;28675;13088;12623;12347;16448;12648;16588;6045];
[4550;12652;6285;17287;13140;12455;16936;12524;12905;0;10545;11935;8489;4202;28725;4586];
[8921;9773;12522;17247;32792;32789;28737;9245;12770;9182;28717;12725;12379;12828;0;10572];
[13170;8910;13051;9973;0;12896;5913;0;13067;9614;16588;0;32793;0;32854;28763];
[16605;16674;32793;28792;0;13151;11899;28692;0;0;12600;16729;28737;9320;13139;0];
[0;13052;8577;0;13090;28812;17003;6343;0;0;5278;28716;6212;28733;0;12592];
[17290;28752;32806;8693;12943;28700;9985;13064;0;16449;9078;28792;4391;8490;12897;13124];
[11177;13019;16517;12757;12846;28733;8555;17320;12571;12661;10882;8582;12310;13152;16430;32917];
[9192;32917;13102;0;16492;12748;28744;6380;9815;0;8953;28741;12855;13159;28812;10196];
[0;13092;20486;11169;28679;17248;16529;11774;16429;9539;9089;12944;8874;9180;0;0];
[0;0;32829;12359;11750;11476;0;4991;16507;12667;28744;0;9900;4837;0;0];
[13169;12864;0;4587;12803;28695;17247;32827;28704;13150;9387;12395;10883;11443;28764;28807];
[9152;6278;12644;9336;28746;13064;8662;9648;32805;8654;4555;11910;12514;11710;32804;9214];
[0;16448;12944;9089;11872;0;0;28769;8604;11514;6449;28715;16657;10415;13115;12299];
[17227;9796;13079;28707;12910;0;17332;12464;8694;9845;28780;12323;6385;0;8279;12945];
[0;10049;8319;16825;20490;12405;8234;11741;11188;28812;8358;0;20488;9610;12825;17250];
[10882;4985;28822;13103;28764;28803;28800;0;10370;12058;8547;0;12479;10580;28739;0];
[28736;28709;13209;12384;28758;12309;28710;17228;12064;12936;0;5957;12984;4302;12407;9459];
[32934;32815;10947;6251;13159;16450;10367;0;11937;0;12583;17309;12593;28720;12737;12310];
[28800;10285;28788;0;12499;32911;10637;9645;32803;4394;0;32806;5368;16929;28715;12690];
[11985;28682;12525;0;11742;17173;0;0;10870;0;9975;10978;6449;13110;16443;28818];
[16840;12606;16618;16437;16666;0;11476;5660;10430;10452;12984;28688;0;12944;13200;12465];
[10363;28680;28714;0;0;28804;28810;28712;12999;12876;32868;32924;9037;12844;4896;8997];
[16605;0;16509;12512;17174;28823;6443;0;28765;16650;10573;28704;9591;10563;16776;12455];
[9209;12569;12678;12897;17015;10072;12498;28795;16538;12058;28760;5938;0;12948;5661;16736];
[16816;4794;12657;12743;10362;28744;13181;0;11460;32780;5281;28699;12311;8282;28787;32916];
[5835;8739;13044;28735;13137;9814;12708;12996;0;12568;17308;8707;5047;11872;20485;28704]]%N.
Definition LOOKUP_9 : list (list N) := [
[28744;8367;9065;12786;4697;11657;12870;0;0;12984;0;32793;16694;6000;32922;12641];
[17318;13168;28819;16421;17095;16413;9564;9255;8993;4879;12743;28739;0;11756;8307;0];
[0;8351;9666;12359;12358;12725;32817;10217;12598;28699;13138;12751;8764;28797;6395;12549];
[32854;0;11489;10584;0;4942;32805;12844;12932;16665;12440;0;0;0;0;28726];
[9050;6388;12514;0;12465;0;16825;8917;0;16831;10170;8949;12690;28739;0;12825];
[32923;12832;0;11741;11181;12396;11182;11181;16699;12972;12973;0;28725;0;32793;9844];
[0;16666;13205;11404;13039;12586;12402;9886;12909;16428;0;16564;9007;17161;11729;8657];
[0;12617;13091;28705;13164;8366;32780;8714;11254;20482;8843;0;9264;16462;9585;16450];
[11985;28717;16722;12737;9773;12897;13171;9547;11181;32911;12514;11873;11491;13162;28762;13172];
[0;12384;8993;9919;16418;0;12344;28793;0;17034;4808;13040;0;0;8390;9315];
[12899;4989;16695;4937;28698;16756;28697;16833;16596;16959;13150;10428;16606;28826;8700;12041];
[12691;5399;8571;11029;10184;16674;8343;8658;32883;0;12310;28727;12537;11182;12791;10670];
[10072;28753;4248;8988;28789;10370;16597;0;10072;10214;12752;12396;13208;28760;12357;9481];
[13092;12730;32917;11180;0;32781;5761;28691;0;28713;12680;12884;28734;13185;9547;11939];
[0;28715;6451;28766;4621;0;9007;9217;5499;11985;4513;28691;12429;32818;28747;5338];
[12586;12523;28703;32792;5346;9972;13114;12828;11991;28740;16609;12324;12489;12372;16440;28692];
[28677;13199;28729;10659;32828;11907;32839;4689;12864;12683;32839;9062;0;10993;16518;9510];
[8688;5780;28676;12669;9084;0;10415;13017;10881;16778;10437;13200;0;11514;12867;12975];
[0;8584;12924;9218;28721;16845;9306;32852;32778;10680;17325;8712;13092;12300;28745;11328];
[0;13186;5030;16619;11479;12975;11252;16693;12574;16825;9919;0;0;16914;11776;8621];
[0;17131;17309;0;17249;12616;5043;28799;12668;11985;12823;12682;13127;11325;13065;11780];
[0;9566;9601;11910;12888;28768;16413;28746;9377;12538;20488;0;11759;0;28764;11775];
[0;32937;28827;28675;11750;5929;10178;9234;5314;10730;11240;32898;28720;28741;5057;28778];
[0;12515;11596;0;32781;5933;9255;0;17351;8993;8696;12440;28694;28714;12848;12485];
[16530;0;12515;9891;9083;13198;32781;6052;12462;9563;4954;0;11180;16695;16843;16899];
[28710;12075;0;10670;5279;0;20487;5550;16765;12619;12451;10669;28781;12633;12550;12419];
[12058;12922;9314;16608;12948;0;5465;28677;16965;12775;0;13008;12300;9003;28771;28817];
[11769;32843;8359;32794;28756;0;32911;12429;28689;12360;32788;10400;9263;5832;32892;28787];
[16835;28682;13056;11972;5464;12395;16519;12012;12587;12041;12702;11765;6004;0;16728;16448];
[17410;28735;28765;16460;11480;12324;0;9905;0;12741;16594;28723;0;11029;13080;28746];
[11767;6054;12743;13091;28686;16526;11833;12692;0;8712;32780;11492;11304;28748;28720;9758];
[9787;8402;12348;12487;12068;12323;9065;0;16619;28784;9321;17326;12585;28726;28756;13199];
[12743;28817;16893;11115;16909;0;13064;0;12780;0;12607;13198;0;12802;13224;10968];
[13020;17101;28808;8985;28756;0;28683;28678;13162;10716;28823;13185;9878;8413;0;32818];
[0;9846;16532;10370;12432;5321;12539;11311;9915;12975;12790;28689;28720;12643;10285;10871];
[0;13148;16885;11003;32777;4369;13068;28822;16449;28818;28811;12667;12537;11947;20484;13207];
[5591;0;16460;13223;12539;11296;13185;10089;32918;0;28737;9386;13184;16852;0;12607];
[16609;12728;28819;32855;28772;11240;28769;28812;0;32843;11947;4971;9641;10169;16959;12561];
[12613;0;13209;13210;9805;8721;9885;12563;16765;12860;0;28677;9974;28715;28709;0];
[8750;12848;6078;28674;10076;17331;0;32806;12335;12441;0;13080;10274;28769;13174;0];
[10648;0;0;12384;9264;32843;0;0;12384;13198;9071;0;16539;11014;20489;32806];
[12952;12617;28827;13207;0;13217;28687;32845;12647;5554;16696;28715;11328;12657;12468;32842];
[12502;16677;0;0;13194;5932;12335;9309;12432;12074;28683;5778;0;0;28762;5092];
[28742;11648;12585;16844;13206;28673;12848;0;32794;0;13188;13217;12395;0;16908;32819];
[13205;13029;17038;0;5930;10475;32807;5834;16893;28771;17151;11766;28702;5060;12696;13186];
[0;13116;28747;32819;12064;9517;28796;13158;12863;0;17358;0;0;8483;13017;10670];
[16607;0;13080;12586;0;13175;28783;12708;13209;13195;10437;12310;0;17360;10736;0];
[8413;10994;12068;13175;13148;28768;9254;12395;17374;0;16756;32820;0;0;0;16755];
[0;17365;28698;12456;20489;12645;12619;12728;12596;12323;12056;0;9816;8981;28697;28792];
[12872;12575;28792;16755;16696;12691;0;13187;16901;5428;0;13078;9641;10879;12885;16909];
[16608;10704;12336;28769;28768;13220;13212;28769;28772;32865;8667;12055;0;0;16696;13164];
[12755;0;0;28804;13004;0;10998;0;12777;9816;12619;0;9846;12710;5057;16462];
[13224;10975;0;28792;9617;12979;13184;4711;4711;32884;12064;10676;16539;28788;13200;0];
[28734;16458;5057;28800;10880;11331;10532;28757;28785;0;16762;12804;28728;17376;0;17329];
[12802;0;13140;28827;0;9011;5652;13128;0;20481;32807;8474;5559;0;28819;12765];
[0;0;8461;0;8722;12787;8832;28683;13174;13199;0;16988;0;16979;0;28737];
[0;13053;28768;5054;8720;12379;0;0;12442;12787;17329;13199;0;17329;10108;5595];
[13188;11178;13104;32819;0;17122;28720;11002;28719;4717;12456;10997;12765;10741;12540;10704];
[32793;0;12300;12778;13195;28818;12884;17229;12994;12898;12078;28739;0;0;12826;8469];
[12067;12805;13042;12979;11268;12619;13198;12779;9011;16542;16721;16920;0;12827;17329;0];
[5350;8413;0;12955;17015;9357;0;0;11179;0;12041;28797;5469;28676;11267;8453];
[16937;9865;28803;28782;0;12987;12600;11552;9892;9193;17409;0;0;0;12658;0];
[4971;17200;11394;5885;32807;6057;12702;12503;28754;12408;8566;12766;28827;28746;32833;17171];
[12503;12500;10161;17331;12730;0;0;16852;11312;0;11328;32820;10741;13068;32924;8474];
[9256;28746;12863;12692;13200;12896;28720;12971;16972;12779;0;0;0;9665;28759;13080];
[17393;28806;13092;5088;0;12873;10273;12067;12585;28687;16526;11546;8666;5880;20489;0];
[28818;0;13218;0;32781;6224;0;12720;28783;12324;17044;5349;9907;6373;17361;5086];
[12658;5348;12911;9974;5570;11180;16972;28804;32892;16846;0;0;12526;16429;9043;0];
[10758;0;17148;28757;28718;5348;28781;16696;5598;0;12931;12714;11357;9083;13176;32865];
[0;5880;16617;28736;28675;13224;12479;0;9021;11610;12720;17387;10412;28817;13004;0];
[8554;0;12441;10407;8445;5893;0;28764;17332;28759;0;16971;8667;16621;0;0];
[11040;9012;12360;0;11273;17375;5344;10280;12872;28707;28823;32845;16766;16920;17359;28787];
[11610;8712;10108;28713;28810;12619;12979;28794;12711;9674;0;0;9649;17043;13028;28730];
[12066;0;28750;12789;10705;12970;12300;12067;13219;28698;32869;0;9918;9010;12784;16671];
[12076;16540;8776;16857;16620;28758;17367;20487;32854;13220;16920;0;16461;4717;13116;8405];
[9067;9986;11866;32804;4531;12560;0;0;10152;0;28684;11080;8760;28760;17173;12810];
[28748;17079;12980;10805;9318;12619;12809;10703;10539;12709;12956;13152;12336;12838;11333;32919];
[12693;11301;16699;12798;32924;12444;0;13223;0;13222;0;11010;12713;9892;13187;28730];
[12492;0;12077;28757;5907;12764;28797;5468;32866;5062;8882;9003;17062;0;9907;9302];
[8920;0;28819;17361;5984;12958;0;0;0;12684;28771;17015;12807;10240;10145;12502];
[12767;11003;28750;28693;0;11301;9518;0;0;9816;10677;28794;13175;12850;12897;12956];
[12851;12468;28722;0;28828;9336;20485;12441;6103;13217;10191;9265;9451;17195;0;12464];
[28691;17378;0;12634;13164;32858;28817;32911;0;16844;12348;4971;6116;32807;8783;28719];
[10307;12633;9068;32792;0;11785;12645;9665;5897;17318;32832;17318;16972;17095;16693;12680];
[16687;28694;28680;10145;28786;6285;28733;28743;12659;17192;17195;32803;8581;12694;12588;12689];
[9378;0;13199;6024;9684;28707;10115;13026;32854;17050;28718;0;0;9619;17044;8776];
[28739;28696;9264;0;28804;11269;28758;10263;12695;0;28726;28812;28717;10444;16856;28770];
[12476;16980;13188;0;8768;0;28825;13005;12876;16698;12762;28737;12659;9310;32906;5092];
[17122;32866;28730;0;4574;28723;28751;12969;10741;28723;0;0;0;28750;12916;0];
[10412;28746;13107;28715;5600;0;17123;11045;10378;12468;12645;16619;32844;16846;13212;32807];
[13119;10713;0;28762;0;17128;28798;10710;9387;12799;32842;28734;13043;10745;12958;32891];
[8424;11181;16930;12776;12887;12684;12730;10757;12917;12765;9022;12742;12755;5572;32828;17173];
[5599;5600;12819;28729;0;12703;28741;6087;12887;12515;12622;16603;12809;28771;0;9948];
[12527;32794;16767;10177;0;6174;0;28774;13090;0;28742;12078;5353;28822;10539;8870];
[28677;16517;0;12741;13151;13158;28739;28762;28819;5087;0;28771;0;17395;13219;8642];
[16778;0;12822;12742;0;0;9674;0;0;12791;16621;12408;8723;8723;0;13004];
[8722;10413;13018;28786;12432;12575;16932;9682;12574;5914;0;8477;12419;32854;0;13090];
[12863;5637;32781;6288;6452;17131;9319;9076;8712;11956;0;16506;28704;10750;0;6116];
[11811;11043;20486;16854;28704;12730;32794;32869;5979;13224;12619;13005;10711;0;0;6196];
[0;13140;9366;11338;12810;16700;32888;17410;13106;0;28812;28750;12587;28809;17095;12804];
[10444;28798;12537;0;28730;0;0;6287;8368;12705;6191;11004;12810;17399;5641;0];
[11303;11611;12644;28718;20488;0;13150;17405;28751;0;11778;20485;12816;12311;12562;32843];
[16982;0;16989;32807;6119;0;12426;0;0;28714;17251;8424;11567;0;17393;0];
[12777;32881;0;28768;12599;0;28821;28786;28763;28772;16920;12502;0;12432;12944;28740];
[0;10789;0;12918;28718;12586;12456;12732;32894;17206;5481;16845;12850;9166;10188;0];
[9357;10714;0;28753;28699;11384;0;9892;10539;12312;10215;12908;28823;12907;12899;11309];
[17129;5449;0;13051;9356;28719;0;32857;10748;5473;9012;28818;10539;28794;28715;17197];
[10458;28795;11181;32875;12995;0;0;8478;9918;12892;28742;32846;12540;12563;12801;13003];
[5093;0;12916;28765;16990;28747;32842;12659;16585;32832;28798;16598;9675;16930;28769;32820];
[13118;28763;0;17388;0;32876;0;28746;6030;32846;8368;16421;10782;12684;0;0];
[11677;17148;12728;17054;28822;9974;10270;11382;12335;12509;9948;10512;0;0;8414;12969];
[0;12684;13018;32820;0;11088;8785;0;10178;12575;12575;16700;16413;16777;28787;12862];
[5612;12924;28819;6193;11595;32855;9745;12658;32820;12681;5577;16448;12981;5578;0;0];
[16745;13019;10199;17131;10198;9891;12396;13063;5481;13084;28796;10750;12923;16766;16999;16698];
[12718;28701;6335;0;12815;12983;5605;12819;0;17009;12444;28684;28757;16606;28680;10516];
[28701;16844;6279;16895;12656;0;12467;28729;32776;4264;28745;10794;28783;6330;12474;28712];
[17409;11599;17136;0;10748;6001;0;0;0;12820;17064;28820;0;12918;16542;12837];
[9563;12780;0;28809;9674;28785;11306;9975;28797;0;11304;10504;4666;12440;11600;0];
[17079;28691;8723;0;12959;12780;12958;17202;10255;17278;0;8777;12574;28747;20485;11340];
[6154;5661;0;28706;17059;28820;11678;16687;10582;32856;16835;17062;10860;28785;32888;4857];
[8667;32857;28823;0;0;28782;9601;10247;17009;5908;11093;28739;12660;9377;0;10215];
[0;9320;8948;11790;12814;0;0;16981;9664;12429;12970;32888;6109;32829;28801;9018];
[28771;12333;12732;13019;12703;9022;6175;12394;12839;28760;10843;20486;28719;11056;16737;11093];
[12924;32866;0;9907;0;11728;0;17409;0;0;12551;5644;28759;32889;11051;28816];
[16981;5152;32857;11838;0;10752;32846;16922;8769;13016;6007;12918;12487;10793;10215;10504];
[0;28814;28708;10677;11103;12696;0;13112;4919;9609;0;0;20483;6029;5607;12918];
[12851;0;0;12382;28748;28820;16834;28775;9375;12621;9366;5483;28764;4598;13056;28823];
[17169;12563;28773;9182;5607;28750;6331;13027;10869;17202;0;12780;0;0;28793;13004];
[0;9862;9515;0;11309;28750;28751;16962;11180;8713;28766;28789;28824;28809;32880;28806];
[16778;13037;28802;11275;28743;12430;28794;32874;16856;12744;6034;0;16595;32855;11142;11346];
[10100;28809;32876;9965;10413;12479;11309;0;6131;12697;12899;10451;12512;0;10490;28695];
[0;9321;0;28743;0;11434;0;9068;12566;12968;11092;16914;0;16824;12773;32868];
[28675;11092;6377;13135;0;11088;12912;12538;8321;16816;9984;28820;12683;16692;12312;6196];
[11829;10976;12846;11639;28785;32904;28693;12574;4772;13146;0;0;28742;0;0;8461];
[0;17411;12850;12730;10285;0;10254;11341;12656;4851;9974;28723;0;28740;0;10505];
[9021;5056;32856;13125;9510;5914;0;12827;10206;16778;10451;10794;9975;32881;0;0];
[0;28751;0;0;0;0;9564;10507;17068;17162;28796;12818;0;12870;13114;0];
[0;28778;0;0;11059;16462;9012;28715;17149;0;13019;16895;13134;12659;28797;9882];
[10803;13017;12492;17138;8621;0;13115;0;28784;28788;12766;32869;9087;0;0;28740];
[9388;0;10883;6164;28784;28788;5648;13017;20486;11439;28824;6200;10545;12718;6422;0];
[28738;16527;12778;32882;4934;9022;12490;28677;32856;9367;9320;11435;12660;32929;28757;0];
[10998;12636;12715;28749;16686;0;9059;10215;13119;5914;11849;12767;12752;28751;5478;12768];
[12420;16537;12959;12610;0;11639;9686;28766;17004;0;12432;0;12907;11265;17279;8779];
[9547;0;17132;12622;0;10843;6306;8940;12957;12923;12885;12720;28778;13027;12900;32887];
[16762;0;13208;12704;12359;0;17317;16643;32884;0;12719;16597;0;11837;12825;12864];
[11358;12634;28737;13019;17009;8768;13146;17080;13020;13037;11686;10546;0;11275;0;0];
[8658;28823;0;0;12993;11111;11105;28786;13005;11692;12366;20487;11143;17089;28788;16421];
[6340;12814;32904;17353;12880;20484;10843;9965;9022;17141;28735;28729;28675;0;8411;28756];
[17209;28717;6335;28727;12674;11146;5661;9686;16846;28716;20484;0;0;0;32883;16846];
[5327;0;5447;17159;20483;11640;10803;8787;12982;12403;28685;32904;0;28765;28767;28680];
[11312;16609;9687;12539;5347;10758;12588;0;11309;11142;8424;6307;28753;28728;0;28777];
[12946;28800;32833;9975;6166;28812;9687;0;17218;0;13078;28798;28715;12995;8789;32832];
[12874;28816;32894;28773;28711;17144;11115;10806;16857;11866;0;11104;12814;0;12887;8752];
[16764;0;4470;12779;28740;0;0;6030;28720;28815;12504;17131;0;5742;28732;0];
[16529;11158;12552;10750;13136;0;12468;32820;28683;8479;6370;6372;11103;16664;6339;12983];
[0;13008;28761;32883;11357;10461;0;0;12770;17230;0;8480;13054;0;5659;8405];
[10844;28718;0;12743;28714;28810;9311;9088;11639;28696;17157;0;12894;11850;28828;0];
[12826;16674;11401;12732;11690;0;4263;12924;0;17148;10271;12591;11644;11931;0;10794];
[11639;12451;11050;0;12932;12779;16593;12827;16420;10469;0;12921;32891;16924;10546;12900];
[12944;10251;10559;9078;13028;28711;16923;16857;10568;10796;32882;11441;6375;9367;0;10504];
[0;0;28797;32930;17075;13005;28761;0;0;28812;0;17202;10546;32779;4719;32870];
[0;28743;11853;9900;28778;13139;12922;11049;11654;10505;9657;28723;0;32896;5653;28702];
[9687;28750;10336;12862;13038;17203;16526;16966;10023;17132;9532;12659;12588;11778;28795;8312];
[10816;10751;0;13091;0;0;12417;11445;10019;17279;6203;11679;28735;12792;8790;28812];
[0;16801;8965;6423;16457;16805;11304;8554;16420;12703;28692;28691;0;6172;28755;0];
[0;17226;32933;11093;28708;0;12768;28683;17079;32846;12464;11478;8281;11608;9609;16924];
[11387;17072;0;12383;10091;13088;9984;11395;10570;12946;12983;10576;11574;11095;6036;12959];
[28820;10515;0;28726;32933;9424;0;13103;11099;9620;17279;28783;28789;12911;17196;10507];
[12984;11059;28711;12931;12537;16934;8413;16645;16411;12875;9620;16665;32894;28808;11733;12886];
[17281;12623;0;13149;13158;13062;12465;28750;28685;10578;28742;9201;28774;8308;28765;13032];
[12456;32843;12432;8788;12852;16496;12732;28736;9318;12874;28727;11518;0;9078;6347;8480];
[28706;13050;9821;12716;32846;12756;0;10254;12999;0;0;11645;17220;13062;11272;12850];
[8920;0;28775;28828;12732;32859;8953;8849;5659;9674;10584;32789;10274;12995;13043;11387];
[32910;28731;11758;12696;17239;17151;28781;11603;0;5650;12564;12588;16425;0;11611;12807];
[11394;12514;12540;28731;0;0;16729;11866;32840;12826;8789;16884;12416;28712;0;28796];
[11442;11158;16699;12588;17230;9021;32794;13007;0;16541;28771;28801;0;8479;9844;8941];
[11685;12971;8662;13008;11477;11844;13206;9666;12298;0;0;12549;9591;16676;0;28721];
[6376;12777;12960;9553;0;12323;8582;5653;9982;11864;0;0;0;6203;11889;12947];
[12947;16743;0;32936;0;12900;17004;10578;9299;0;8790;0;28727;13112;6042;10506];
[0;0;28718;10815;32910;9003;6042;16657;0;10648;12994;12622;4963;0;16933;12296];
[9050;12994;0;28775;11401;10570;11563;12514;28714;4406;11844;11703;0;9084;8910;17160];
[16925;9089;0;9088;32884;28779;0;11610;8327;17411;17237;12612;32839;32896;13176;32906];
[28776;12922;13104;17281;12610;12451;12995;13114;13039;6379;4640;10399;0;9917;13208;8256];
[16586;8712;0;28735;32846;12921;10868;4582;8666;10569;12767;9387;28788;13140;12844;32936];
[9518;17281;17004;16978;32859;8608;5860;0;16925;17071;10859;6313;28826;17161;6423;16766];
[0;9661;32804;8318;0;6172;13124;9986;8881;10271;28798;0;0;0;12660;10577];
[11442;28694;6342;12442;28688;10703;28693;11114;0;11866;0;13078;12840;10947;5064;17236];
[28733;12798;6172;10815;10599;32802;12343;0;12993;28756;12441;13050;12564;12396;0;11703];
[9502;6138;32781;9922;11446;9585;17220;28731;6379;13066;0;0;0;12547;12791;28674];
[32833;11701;28709;12480;8611;4298;0;12935;12719;28772;28811;13067;17082;17315;11302;32894];
[5661;12741;12474;11976;16815;32779;4890;28774;0;16935;9473;13090;8941;12571;17162;0];
[16509;28684;13089;4831;13163;8700;0;12970;0;9919;28732;0;12684;0;0;16986];
[6082;11169;28743;17282;20485;28691;5713;28802;4443;0;0;28673;28676;12707;16597;32937];
[6209;11413;11713;11713;0;17238;0;5792;12909;17121;12640;0;11538;4414;10546;5999];
[0;10737;0;8489;0;13014;12381;28732;10898;13112;11274;0;28766;0;16526;12501];
[13151;32793;13005;5177;0;16857;9823;11450;16666;11946;28792;6347;6379;32859;16448;10506];
[9435;10561;16946;11992;8986;28706;28800;32858;0;13064;12322;12947;12888;0;28719;16438];
[17161;12540;0;28733;13150;10787;32791;8491;32804;8610;6379;32803;4329;28740;13128;12636];
[11447;32840;13053;0;6381;10078;0;11980;9813;11934;11413;28703;12035;28779;0;28716];
[12780;32858;10859;32898;10245;5448;0;11181;12983;12732;28814;12864;0;12456;17171;12683];
[28704;12803;17239;32909;4615;10281;16601;12298;28736;28778;11357;32818;0;0;13028;12707];
[12473;12612;11693;12552;12660;0;12826;28698;6167;0;0;6126;12855;11935;28798;16588];
[6351;5355;17172;16440;8851;9042;13077;12652;28713;13115;17094;32801;9723;12415;32937;13162];
[13158;11114;12884;9502;17328;12298;0;32833;28742;17282;17315;0;12936;10787;12848;12636];
[8941;0;13066;12684;12552;28682;13091;8910;0;11086;0;8491;28726;32781;5889;8790];
[28809;0;10371;11177;16419;17091;12418;11748;0;28745;12600;12751;6380;8712;12583;0];
[6397;13066;16898;8617;9849;12390;0;6167;12945;12910;0;11171;11171;28704;32859;12526];
[0;28824;16948;12779;6396;9066;32838;0;8395;28812;11414;12922;16500;12960;16743;28771];
[28806;9248;28720;12803;11703;28813;28798;10050;32805;8363;32896;12540;16688;0;28699;28761];
[0;16671;12934;10860;10637;12320;12595;28797;11655;16684;16737;12748;10853;17299;11171;32792];
[12525;16650;8255;10071;12467;0;11458;16779;28760;11459;10870;0;0;28716;0;9539];
[0;11086;32936;17164;11712;0;12947;12934;10216;17289;0;17227;0;12465;11713;28717];
[16816;9853;16438;28823;32819;28803;28691;16822;12405;8854;6212;9505;8409;16585;0;28797];
[8620;16620;20488;0;11479;12690;0;13089;0;8313;28787;10883;0;12984;11938;8654];
[9860;32885;12852;13149;4385;12431;16588;11470;16684;0;9211;9078;6394;0;9515;10106];
[28761;13054;10571;17220;11712;0;8305;16699;0;12893;12468;11457;0;6175;0;11469];
[8446;13124;0;0;28706;32818;12996;17169;13159;17082;10488;12307;12609;12066;12652;16542];
[11152;4943;6380;17281;0;12779;8401;32820;32895;32815;9502;0;0;12660;11169;13077];
[17015;9518;0;17094;0;28744;13169;0;12921;0;0;28766;16666;32906;17287;8351];
[11945;16813;5105;0;28772;0;17305;13043;28754;8344;17172;17092;6449;32872;0;12727];
[8555;17246;17094;28821;12406;12827;0;0;17250;12695;16509;16530;10205;32792;13041;28774];
[12651;16608;12835;28720;16596;16736;32806;11493;9633;12479;28743;13221;9501;6221;10882;13064];
[5219;12383;8954;12336;0;0;0;9180;11938;11735;12780;0;12032;32819;12333;0];
[9897;20489;4783;13019;28685;12768;13065;28732;12467;12550;12972;32806;5275;28713;12522;0];
[28815;16729;20487;9675;0;28692;17275;12530;28805;12076;28818;0;16509;11170;6426;0];
[12331;9680;6387;32804;4555;0;13171;11171;28757;13143;12744;0;28709;12960;8663;28798];
[28802;28691;4391;11906;0;17347;11478;11748;16675;8349;12558;16814;32838;12778;16499;11161];
[6204;8582;28687;10579;12924;5632;28708;28698;0;4426;12631;5027;16430;12791;12935;9477];
[28710;12532;0;0;12747;0;0;13004;32898;8404;12419;12308;0;9015;11460;0];
[20485;0;11981;28782;32803;12663;9384;0;9537;0;28704;13159;8750;0;16507;28827];
[9921;10153;32923;12780;12558;16736;4552;28736;13078;0;9243;4285;12549;6219;17317;16822];
[0;12299;16936;0;28815;8611;28705;13136;28744;13159;6452;0;17309;8363;32776;10292];
[13029;13075;12847;28813;0;9214;16578;6385;16518;0;12406;0;9388;0;6433;12516];
[12960;0;0;4648;10247;12641;28744;13113;0;28682;32911;11169;28742;0;10203;32923];
[12880;13169;12684;0;9204;12984;12407;13101;16858;12886;32883;16729;9946;9043;10938;11756];
[20481;28739;11177;0;28819;0;8445;5147;8356;12960;12346;28740;0;0;0;16440];
[10870;0;11932;17308;32806;8409;0;12531;28810;12759;32817;0;8876;0;16933;32828];
[28769;12432;28770;12356;10583;16814;13077;10871;12039;12814;0;8582;28791;0;12948;6373];
[16869;16437;0;11656;13055;11470;16675;17317;8689;0;28691;32831;6396;11742;12983;20484];
[13064;28742;10573;13171;9246;28683;13090;8382;17297;11192;0;12496;0;9749;16937;12380];
[8905;28713;12549;16515;0;0;13128;0;16507;12324;0;5440;10327;12369;0;16686];
[16676;12864;0;20489;13171;13056;12571;11572;12439;0;10211;9983;16982;6397;32780;11488];
[9610;16737;28810;10572;13182;12624;5998;28703;12636;12443;9687;32781;6056;12392;5317;9215];
[0;16608;28812;0;0;11768;16937;12078;4448;0;10072;12829;12038;13169;8641;8530];
[16609;13065;10617;11907;11004;0;8843;9833;12900;12310;16676;13092;12408;28698;9503;13103];
[12996;12444;16687;4650;13042;12972;11683;16816;16527;12531;11467;11947;12779;11476;28775;13019];
[9210;4318;12332;28717;12996;28716;9155;12396;0;12381;13170;28693;28813;11759;0;0];
[5277;0;11987;12593;8613;12898;0;28774;8470;12360;12801;8491;32789;0;16509;32909];
[9175;32916;11758;16598;12359;16831;12840;5569;11953;13068;13054;17326;12404;0;6396;28814];
[9640;8876;28769;6434;5831;11780;10050;28686;13127;13175;16463;0;17174;32919;16537;0];
[4426;16583;12336;0;8954;8942;28706;28821;16991;0;28675;32806;8708;17005;11817;20485];
[0;32793;8400;12537;9246;28681;10669;11197;9376;12574;0;11766;12663;10872;11944;12444];
[16539;0;28787;11478;10584;11203;0;16620;12369;12474;12706;32819;28739;8606;11470;12383];
[12595;12708;28753;12732;11756;11742;16822;16571;12943;28716;28818;12502;16508;10069;0;28786];
[8663;0;28760;28690;12690;11992;11984;12694;0;0;10100;28786;12554;0;12299;13002];
[0;17368;13115;28821;9215;0;10572;12984;9062;9211;0;0;0;16459;13112;12857]]%N.
Definition LOOKUP_10 : list (list N) := [
[28691;12570;5257;28757;5185;13092;10983;16824;16677;32819;9175;10583;12039;12584;11989;28736];
[0;28755;16606;12480;9850;0;12763;32920;6452;28698;11774;0;28674;16841;9301;5372];
[28822;11274;10871;0;4619;28745;28810;0;10308;0;28819;28683;16887;16446;8999;9078];
[12759;8365;12629;0;0;8426;0;28679;6220;0;12984;28750;9000;0;0;16588];
[16831;16823;28782;16579;9542;4616;11956;12549;16437;12547;12312;28744;12475;28717;9051;0];
[0;0;9507;0;0;28711;5638;28819;0;0;12996;9587;12845;17239;9481;16597];
[16588;12856;28792;8451;12064;17141;16755;17320;17326;28739;13187;0;6136;17071;0;28758];
[10883;16658;9007;16462;28817;4457;16607;12524;8709;28735;12691;10973;8479;12040;28822;12321];
[17172;32779;5068;0;17161;11204;32794;0;12550;28808;12078;4457;13116;13044;12644;12513];
[32803;10636;9949;0;12464;12888;11170;28813;5355;16430;13076;32806;9314;12528;12513;0];
[0;9991;12514;16763;28717;8367;10909;12643;0;10573;28774;16516;12609;32831;5189;9350];
[0;8613;12323;12550;12900;32839;28768;8465;11476;16893;0;16824;32806;5224;0;16833];
[28674;32921;12893;32869;0;10206;4694;16508;0;0;5028;0;0;16539;9543;12871];
[12300;28709;0;8701;8870;28792;28792;12001;13184;13175;8920;12955;8956;16841;8957;4678];
[0;10371;11768;11257;11182;10714;16530;9240;0;16597;12484;0;10078;28705;5501;9955];
[11768;16899;32780;11499;8718;16829;13182;5061;11947;11470;12537;17299;9000;10669;13147;0];
[9860;28726;12740;17253;16461;10935;0;12427;28714;12608;32868;28814;32781;5833;9962;32793];
[12009;9304;28773;12467;16448;28718;0;12845;8665;16902;8666;12739;9467;12561;12550;0];
[13172;9860;4995;11481;5291;12455;12856;12574;12767;11999;9816;9984;16688;0;12444;12935];
[5258;8657;0;12864;0;28811;16541;13068;12476;12443;0;12706;28687;13104;11769;5886];
[12358;13116;4937;28689;28675;12045;10452;13185;0;28806;0;12299;13196;0;28768;0];
[17329;9852;11999;0;28746;12416;4950;32828;28688;0;9003;16650;12912;11469;28723;9350];
[10159;12923;0;0;16774;13103;16936;13116;28780;12511;12064;32833;28745;0;28748;13205];
[28780;10968;12835;13138;28680;0;12336;12571;28763;8782;10363;16536;0;16953;28736;28696];
[8477;28706;5223;28726;12945;28708;28739;12380;12359;8282;12800;9846;8637;13186;12323;9684];
[16530;16853;16519;28682;16539;0;12848;12897;5348;12584;0;12384;13171;16607;28756;28718];
[28727;0;12300;12324;10070;12572;9516;12811;10642;28760;0;28713;20485;16815;17332;12802];
[0;16891;0;8584;16530;0;0;32790;16893;16959;0;13197;12656;5319;12477;28817];
[10347;12694;0;12312;16587;28824;0;13197;9510;28739;0;12571;5937;8995;4698;28758];
[0;12358;0;12898;12476;16447;9615;8451;13197;0;12585;4683;9975;9593;11939;9879];
[28690;12561;13175;6367;17174;13164;13116;12503;12731;16449;12680;28826;10883;0;16677;28702];
[0;10642;28728;16460;12456;0;12419;28687;16509;5321;12359;9079;10642;17237;12573;32794];
[17356;28792;12894;12391;0;0;9637;9218;28774;28705;28727;0;16846;8704;12695;10255];
[12952;12859;16993;28820;9898;10400;11779;4689;13187;12593;28744;11954;10941;9547;32816;0];
[12988;12763;17332;12585;0;32840;4393;28819;0;9685;13172;0;4799;12502;12585;12586];
[6094;4710;0;10183;16579;32781;8753;28727;12011;12420;10134;20484;28780;0;0;12002];
[8945;16537;9294;0;8876;28714;12681;16462;16596;32793;28735;0;28768;16518;0;0];
[16843;28732;16923;10197;0;8717;12586;8894;32885;0;0;28716;0;12562;12776;32931];
[28674;16586;12455;32872;28818;0;12336;12587;9354;16842;8359;11268;0;5254;28728;16844];
[32852;5030;9318;12615;28819;0;12480;20489;12728;12786;10421;0;11992;0;0;9480];
[28730;13104;28748;28820;11436;13185;0;13116;16607;28721;16430;28725;13199;0;13036;0];
[16677;4588;0;12012;16696;17328;16687;8745;0;12564;11312;28675;32871;8479;16688;12607];
[28746;9722;0;16893;28687;0;16676;9216;0;13092;12324;8367;9802;10997;9010;16570];
[13028;8736;16936;32832;11992;11500;17318;16891;12886;28685;12976;0;8413;0;16697;11333];
[0;0;0;13092;12760;0;0;28783;10275;12455;28750;9017;28713;13039;17062;10735];
[0;8745;0;4745;12876;4965;0;12870;12406;12336;11789;9562;0;28696;12953;13223];
[12886;12537;10484;10371;10669;28729;16831;32841;9861;12312;32818;8366;5731;0;12813;12012];
[0;4486;16542;28746;5040;9935;0;28728;16697;0;0;12079;8643;17364;9577;5043];
[12836;28822;0;13220;11739;16427;13044;12597;28687;0;0;8667;16756;11239;28820;12762];
[10348;17326;0;5542;9816;28718;13209;0;28731;0;0;12887;28694;32936;12478;28818];
[0;12620;4229;9253;17116;28686;16688;11248;12002;5086;5535;13091;10735;28714;28752;12395];
[17411;16458;6211;9915;28710;6302;5470;4710;5552;11235;0;12515;11556;16575;28711;13099];
[8720;12667;17141;13223;32867;28746;28820;28824;12871;9915;28736;12766;5058;11684;9300;12616];
[0;12716;10101;28745;0;10659;17012;9610;16843;32833;9445;8688;17332;28768;12587;16542];
[17361;9510;9348;17395;12895;6059;13125;12576;8285;8920;12836;0;32779;4735;12066;0];
[11503;12300;13176;28715;28761;32803;4357;12311;12885;12321;32779;11249;16892;9679;16697;13184];
[0;8285;5550;28687;10678;11096;10180;32846;0;10370;12872;16825;12984;8751;5937;0];
[13163;16509;28676;28745;16606;32896;5570;16617;12586;9780;28745;0;28748;10670;5333;17328];
[11034;10213;28753;0;17037;32846;0;13198;10371;12563;10138;16756;32920;13151;28798;10216];
[0;16541;5600;0;0;12763;11768;12312;28746;9892;10735;12866;12615;28758;9917;9301];
[28825;28809;9952;28820;4711;28804;17023;16613;0;28716;0;28683;5085;28691;12473;32794];
[32780;5423;9517;0;9906;12429;12596;17360;0;32794;8712;9899;17386;13114;5321;12699];
[28712;0;8552;12703;12333;4954;32780;5330;28760;28745;5349;12415;32780;11526;28728;11549];
[12550;0;5334;0;16434;28696;16458;0;28719;28747;12965;0;9219;10813;12432;12552];
[16735;16445;28692;0;6373;0;28692;0;28693;32781;6063;11479;12559;13161;9010;9072];
[28710;10969;12079;0;28773;9067;12442;12431;10997;0;11871;16835;28826;0;13188;16596];
[0;8666;32819;12778;12487;28771;32852;28795;0;0;4717;16673;13018;10997;16529;8721];
[6009;12618;12335;6066;0;12371;12552;32831;0;28777;10983;8413;16530;12528;9311;12417];
[17394;9019;28725;0;8367;0;8421;28682;32853;9064;9379;9182;12802;28690;28762;16696];
[0;12729;12979;12795;0;28780;28746;12799;32807;8743;12468;17194;0;16919;12528;32804];
[4613;0;0;12779;11480;28738;12074;12885;16530;11266;28730;12617;0;16539;0;32818];
[12336;11112;12690;17160;12945;0;28782;32832;5970;9264;9892;28746;9643;12077;13083;12680];
[12911;16823;11759;9618;12712;13044;0;12345;28762;10483;10338;32924;9981;11413;16539;0];
[12597;6120;13200;12467;8783;9342;0;16618;12430;12359;10669;8965;6234;12477;12467;5595];
[12309;32781;6239;17378;12539;6002;20485;12383;16459;12838;12691;12900;9816;12335;9962;0];
[0;13212;17072;32845;8468;16440;12802;13175;28738;12550;12886;17016;13218;0;17385;9256];
[12561;32845;28749;0;12956;6067;5964;32872;5986;12688;28751;16686;10094;5083;0;9962];
[32843;0;9021;12324;0;12465;8621;12501;0;0;12573;16463;16912;9310;13028;5879];
[9003;13115;32936;28811;13095;0;12912;9675;12468;16609;28721;28690;16609;32864;0;28789];
[17229;28698;12488;12957;13212;12777;13151;12551;12808;0;0;13220;32934;9139;12708;9954];
[9851;9011;5087;12871;5891;12429;0;32871;28734;12568;12872;12011;12884;0;16844;10675];
[12492;12552;16657;17384;8368;9954;13163;0;28699;28756;28673;16540;4927;17003;12478;13092];
[8477;0;17124;28685;4402;28820;17151;8957;13222;28799;10105;16619;0;28818;11267;10406];
[10562;9610;12731;13151;20483;12550;12360;5336;28759;13145;5715;12432;17384;12784;8783;12707];
[8768;16462;10144;32781;6112;0;28800;28678;12588;9022;11332;8904;12367;16699;20484;0];
[0;0;8295;10149;12357;28729;12703;32933;8665;0;28710;0;11274;0;0;12610];
[11328;0;8784;12887;32865;10208;12955;20489;0;5550;0;0;17071;0;28719;12696];
[11379;13106;16608;13031;28809;12967;9955;12588;10699;13014;9301;12504;12296;0;12619;12886];
[11703;9975;28822;10974;9681;32918;28827;13092;28785;20486;12851;0;20484;28823;28798;12490];
[11293;12675;12955;28748;12360;0;5091;12572;8721;32856;16564;28762;5600;28702;0;9863];
[12705;12707;32845;12743;0;32884;0;12367;12635;11545;28822;9905;0;12300;5634;12702];
[20485;16698;10151;10115;4593;32819;0;11040;9449;12669;16858;17378;13164;12717;0;12619];
[10777;9012;28719;16418;16845;11378;17191;4793;17044;17090;12578;9649;12692;28799;4734;9854];
[28816;13003;28693;16578;11547;0;10216;5465;0;4965;5544;17193;0;13212;11828;12873];
[20488;28715;32863;0;12407;16934;17387;5880;16500;0;9350;12777;16966;17378;9045;16664];
[12702;28699;32794;28736;28817;0;0;20481;12408;16825;12585;8760;28819;28711;13121;12467];
[28801;12969;12612;6236;10674;12771;9861;10780;0;0;32781;10520;4542;12692;28720;0];
[12525;28682;9058;9608;10145;12803;16696;0;8461;6131;0;12527;11061;12885;32865;16429];
[10499;16460;12585;11268;28767;16931;0;0;0;0;10218;0;28750;10239;9675;12431];
[4842;28739;0;0;13006;16775;0;32794;16917;12792;12576;0;12981;5599;12702;11296];
[16509;0;28797;8713;10191;12372;9253;9919;6175;17378;16854;8703;10274;0;16621;17398];
[12668;12500;5599;10489;28785;0;28760;32845;13107;20488;16980;0;28772;8721;10443;12790];
[0;10108;12694;0;12798;8760;32833;12468;10459;12766;0;10832;9533;10115;28770;0];
[10406;0;12633;0;10705;12300;0;16677;12970;8723;12322;11079;4717;9564;17376;10274];
[0;12788;20484;5908;28698;10202;12408;0;0;16674;0;8721;13171;0;0;32794];
[16698;0;12695;12512;12466;12909;0;0;12753;13149;9003;8345;12612;17230;28704;12971];
[0;11591;5981;28797;12809;6001;12809;9310;16973;12799;5756;32855;9555;5985;0;12693];
[28739;0;5063;9909;9218;0;12348;16608;16903;6029;20486;6102;0;28809;12586;0];
[13005;6276;10450;16699;12764;0;28776;0;0;9687;8776;5098;12480;12521;16989;12712];
[12765;12910;0;0;16700;12897;28729;0;6268;28826;12078;10160;28692;13221;10748;5643];
[0;8853;0;11005;28820;28717;17123;6098;17123;0;12463;12912;12852;13219;6270;0];
[10742;12574;0;8367;11274;16447;10413;9981;28763;28775;6001;11740;12731;8575;12562;28757];
[5093;0;32845;12681;0;32833;0;12742;28774;12455;10160;12550;12707;8776;0;28825];
[0;8478;9656;13006;20489;16619;0;0;0;28781;9619;5676;20481;9219;32807;13084];
[0;12634;10457;0;0;8423;32870;12574;0;6110;11080;20487;9011;12562;12407;0];
[0;12348;10747;0;5601;8903;28810;0;10059;0;12813;32830;9077;32845;11412;13032];
[12455;0;12648;12808;6305;28724;12715;11305;11339;28724;12799;0;28783;28816;28731;10279];
[5886;13003;11047;28774;12933;9775;16904;12598;10240;16902;8480;10497;12668;9616;0;13097];
[12886;28697;9676;12992;10152;13004;28776;28741;10837;0;10451;0;9983;12766;12862;13219];
[11556;0;0;28702;9664;12347;16824;17298;5640;28710;6028;12564;12907;0;12907;0];
[28715;28695;28821;32937;0;28783;12907;12562;16999;28788;0;28818;12408;12658;13200;12837];
[12850;12718;11041;17138;12946;11037;0;28741;32842;9563;32874;28688;17309;32871;12552;28694];
[32933;12907;16455;28818;8769;5354;11046;0;5576;32793;11111;0;12550;9620;0;28807];
[32833;11056;12393;0;0;8987;12744;28702;11796;11627;32856;0;17053;10759;10793;5476];
[20485;0;0;13160;12919;0;0;12789;0;8667;9609;28771;0;16617;10198;5989];
[28750;0;10377;10539;13114;20487;28724;0;13006;11468;28765;9076;12863;6289;10323;17407];
[13171;12874;0;17272;0;0;5351;32857;12478;0;8786;11434;12780;32844;5093;32881];
[12477;12621;28739;32859;17062;12576;9357;0;9839;16579;8713;10806;10458;10198;12948;12887];
[8777;28809;11339;8478;12684;12657;12635;9546;28767;12718;28729;28758;5355;28746;12818;28800];
[28707;17320;17173;12720;0;9675;8786;32870;12828;32924;16657;32867;12934;0;12660;28772];
[12804;28682;13134;32846;28801;17121;28737;16777;16813;16930;16724;12717;4417;10739;9525;13128];
[0;9601;17202;10182;12959;12321;28816;12812;11573;12491;5448;5606;16963;12704;10515;10713];
[8787;28716;5257;12587;12801;28700;9948;28704;12840;9067;0;12598;0;6330;0;32858];
[28718;4964;0;12393;0;9685;12563;32870;9853;12718;16643;9262;9657;17386;12700;32921];
[9311;28692;10974;12916;28734;28824;13173;12813;9676;32815;28749;11597;12432;12622;13025;5099];
[28823;8777;10501;11800;0;20488;13005;10490;12918;28726;11092;13004;0;0;17201;12886];
[11864;9918;32886;12321;12899;5477;13096;12898;5472;10214;16933;13016;11638;16538;11379;0];
[32868;17095;11131;28706;13163;13137;9309;16621;12957;11059;12489;13007;0;4815;32892;12568];
[11112;11038;12933;13123;28822;32894;0;28709;10788;8576;28751;16776;28807;10760;12671;28757];
[6030;12800;12464;17131;9965;0;20482;12500;9375;0;9674;28705;6371;9482;13158;16999];
[8479;11481;9918;10583;0;12370;0;32858;0;12551;12876;12575;12480;28731;32880;9538];
[12551;13138;12796;0;12608;12456;28771;28786;32868;16778;12587;13015;12528;10881;32806;8388];
[16913;10788;6263;0;0;32791;28796;0;32895;5577;9961;11309;0;12551;10714;10496];
[17072;10843;11845;28678;20484;5606;5646;0;32872;28793;17053;28709;28684;12382;12732;8653];
[0;32854;12944;0;32846;17038;5961;28690;10206;17249;9388;10794;12648;8480;6191;28754];
[28677;6007;0;10503;8423;12707;28795;32858;28810;0;16542;16779;16697;28730;0;0];
[28765;12908;32856;12623;12518;28759;8479;0;12912;9655;13030;12563;28754;9676;9182;13150];
[0;8723;11410;0;28735;0;28759;17202;6416;32805;9229;32792;11059;10258;28742;9620];
[0;17226;12824;16931;6034;11733;6304;10506;28809;12896;0;5616;12932;12956;0;12983];
[28824;11180;10360;17229;12296;17327;28707;28718;20484;28696;28699;13087;12943;10514;12358;32904];
[5101;12851;10794;11386;17151;11142;12540;0;16993;28738;0;5659;32934;0;9609;10215];
[12705;13099;9619;32881;11057;0;28756;11391;9086;32933;28798;12372;32871;28675;12897;11093];
[12744;5087;12719;8321;10282;16621;16923;12899;28813;11432;28723;0;4525;12790;28719;12996];
[0;28793;11385;16450;4682;17071;12482;12453;16845;12696;12945;32789;10261;12465;8713;0];
[32794;0;12812;12672;17053;9076;28729;32906;0;11654;12502;5648;0;0;28797;0];
[32833;12934;28777;12587;9963;12825;6129;11386;5659;9964;12320;28717;9760;0;0;28814];
[0;0;32829;6001;32832;12945;28803;13088;32816;12943;12478;9675;9972;5757;13037;13074];
[28693;12588;9321;12934;28797;13027;12863;13027;0;13172;32881;17330;13137;12864;28794;17220];
[0;12515;11436;32884;4546;17408;28702;12418;10797;11657;11470;0;6160;6159;12981;6197];
[12888;0;32867;8488;12383;12695;12815;28701;13035;0;13036;5615;12408;12551;9917;4925];
[6334;8899;13035;0;12801;16924;5485;12384;4774;11059;13020;6306;10545;12792;8916;16439];
[9290;28828;28743;0;28799;28801;10561;12768;17062;28800;9635;0;0;13039;0;32931];
[0;12789;9908;11081;32923;28790;32895;6370;9032;32894;0;8478;9605;13039;16878;10806];
[9363;28719;13005;12791;0;28807;13196;16695;9561;6313;12994;28793;8789;13211;12057;12708];
[0;12636;12468;13197;12960;10546;11404;32907;0;12358;28693;0;28771;11734;12825;5660];
[10116;28691;28761;32858;0;13146;10038;0;0;12516;9657;17002;11096;9320;13050;5616];
[0;17253;0;0;32856;8408;11574;9685;13043;17161;12792;0;28777;12609;12406;16737];
[28767;12921;13087;12603;11357;28775;28739;0;11832;0;0;11641;17010;4773;12932;10274];
[13031;0;0;11573;11404;28798;17253;5576;0;16439;12648;5176;10850;6378;12696;12933];
[0;12513;12921;20488;12479;12576;0;28703;6434;17062;11976;28679;17161;0;11606;12792];
[20490;28683;6137;12392;17083;28799;0;10415;32777;4387;0;12862;10560;28757;9807;12922];
[0;16421;0;10580;13136;11147;11161;9089;0;12552;12623;11836;13036;13053;11404;11349];
[0;12971;0;9516;10029;0;11837;6007;13124;12994;12755;0;5661;17220;16858;28767];
[0;0;13151;12652;16983;0;12688;11638;10153;28690;28799;10558;0;28810;12887;8777];
[10849;5490;6336;0;10878;16542;12971;17274;0;32937;32935;16856;9665;0;28741;0];
[17219;0;12944;32904;5660;0;17061;4442;28766;12491;12911;13053;9919;16778;11181;0];
[11149;0;0;12945;9686;0;12576;9609;12718;9300;28730;9666;17049;28749;12851;9618];
[13138;8790;17151;13135;0;0;12431;10853;10553;11358;28778;0;8769;13064;28785;0];
[28726;12522;12823;16992;9800;13124;11931;17238;0;10553;10271;9599;10271;0;11403;6166];
[0;12456;12430;9153;12551;10549;17004;10859;0;0;16762;6137;9975;12488;6221;0];
[28706;0;0;28696;0;17004;10298;20483;16746;17014;13019;9434;0;12564;12792;0];
[8576;16499;0;28714;11148;0;28679;10751;11177;16676;17089;28812;6137;0;9077;28783];
[0;12980;11777;6036;32871;16450;16576;10814;13015;11104;0;12444;11004;16675;32933;13065];
[12454;0;10570;12527;12826;12852;5411;6041;12664;12840;11105;0;12814;12420;0;28707];
[11009;17237;0;9077;12405;28755;10797;12762;12371;0;9089;17305;10282;0;0;9377];
[11685;32884;16822;12924;9075;32859;32817;0;13090;11976;11709;17168;5221;28767;12934;4488];
[9836;32794;13016;8723;11690;13052;0;11160;17015;20488;0;11349;12959;0;11863;10283];
[12756;0;28799;28693;28687;9648;28695;0;12299;17007;17281;16928;28782;12924;0;13052];
[13128;0;8363;13137;12528;12418;8470;10515;6343;10552;0;12994;28784;10571;28736;13043];
[17286;0;4424;17092;0;0;0;6167;32820;32907;10879;10840;9625;0;0;0];
[9317;12468;16949;0;32923;28690;12972;13051;13099;0;28795;28810;10581;28704;0;0];
[5370;12947;16462;10563;8778;12882;13091;0;10814;0;11096;16440;0;28703;10870;4549];
[13076;32872;32802;12544;8344;9239;11171;12720;32859;10578;13054;13087;12766;16587;12454;28803];
[28790;12576;28790;8349;12452;11411;12501;8854;0;13064;28801;12077;28709;10218;16514;11851];
[13043;32856;20487;10862;0;0;12593;13074;32917;10217;12587;10853;0;13007;0;9984];
[12588;0;9986;4395;10583;17001;12984;11703;32934;12573;16619;0;6418;32805;11194;12630];
[12670;12890;20488;11769;12943;4538;13043;11161;28783;12872;12935;5758;13055;0;11178;11138];
[10871;13028;32827;9059;12468;12620;13208;28708;28718;11149;32844;12946;9676;0;16459;4601];
[10255;28705;28748;28790;11177;8852;32894;12334;13136;28778;11115;32828;5495;13031;13089;28686];
[9984;32830;0;11167;16746;9539;0;32933;10343;12763;9209;28807;0;9078;28791;12451];
[28740;0;12524;28708;11976;12767;0;28732;16643;28783;12452;8787;8779;17296;12672;17083];
[10506;17083;10136;13127;9182;12910;16667;12920;10861;8993;4241;0;28799;9620;17296;17299];
[13077;4873;0;8470;12732;8654;0;28776;32924;9088;11693;9627;32781;5829;17090;12372];
[13075;12408;32790;10918;10284;5278;6211;13208;9896;28798;12600;11710;0;20485;12947;16743];
[10860;5397;13020;8786;16937;9685;8491;12696;13104;28732;16935;28719;12895;12647;0;12749];
[32846;10318;4461;28755;12417;16754;12791;0;17015;28750;16936;9657;0;12946;0;6378];
[6449;32792;28769;28721;11713;11442;12029;17315;9330;16540;32778;9484;12922;13198;12635;11466];
[28766;16529;28783;9815;12431;9263;8955;9973;16746;12816;10870;11413;0;12984;13031;0];
[11466;11469;10609;11115;0;0;12528;4301;13042;5653;17149;10580;12360;0;10498;6425];
[13029;32840;12932;12298;13159;0;28769;17299;11648;0;17202;16935;16736;10281;28791;10573];
[12622;28794;11159;12592;12383;6430;17239;11780;17239;13078;0;32838;6313;12485;12057;0];
[8876;12343;16519;8689;28787;13066;8779;12762;32907;28720;10581;12792;16451;0;4262;20482];
[0;12442;17317;0;0;28735;32897;17239;12311;13136;12308;4993;12641;12864;10816;28775];
[9835;28767;0;28714;12827;17249;11115;32898;12504;6382;9296;4554;6342;13054;16596;10872];
[4706;32919;11090;0;11864;8358;6394;17299;12346;16587;28741;11137;8606;32896;10750;13031];
[28736;9153;11657;9986;0;28681;0;13007;6397;11469;17241;11611;0;11775;28737;0];
[9387;0;12888;0;28774;28737;12297;12751;0;17080;12729;13115;11460;12911;12355;8881];
[8643;5607;17290;9215;12378;16608;28715;28821;12012;28707;11895;28726;0;28813;9787;12983];
[17220;0;12744;9051;0;32802;9145;13162;12454;6350;10600;16992;5523;5866;28734;12732];
[0;11648;28772;28696;10601;13138;16685;16676;12456;28792;32907;12404;8905;11171;0;28681];
[6449;10436;12912;0;32790;28787;0;11198;32897;11469;0;8657;6442;28775;11739;12759];
[10816;0;17308;17173;32817;16621;28708;32885;12923;13088;16516;28729;28807;0;0;10516];
[13212;0;11049;28697;10282;0;9663;0;8643;10264;28784;0;28772;9285;11703;0];
[0;11713;12670;28710;6443;17250;0;0;0;9685;13188;16427;11611;28828;28737;12936];
[8256;9252;8634;10881;13029;12804;17171;9293;0;0;17015;8409;16913;0;13152;9249];
[0;0;8232;0;12394;8390;17094;0;11358;32779;9820;32872;12408;28699;12402;12760];
[32802;8245;8854;32775;4191;32794;6351;0;10899;32816;0;10284;32858;13162;10881;28809];
[32856;11404;28694;17239;28812;6311;12828;17093;4806;10283;11767;13029;0;28687;5283;0];
[11115;16831;4806;0;28732;10603;0;8648;17352;13054;28814;28733;8266;13139;12356;12623];
[0;8648;17095;12912;0;17299;13115;9382;13017;32919;12406;32885;12311;10573;11169;8933];
[13140;10461;28811;11179;13210;28716;32805;11256;28702;28791;13162;6388;6443;6212;17306;11740];
[28694;12438;12593;16461;13182;12333;8905;8335;12695;13158;8709;0;28722;12791;6430;4395];
[32917;0;28794;11939;17239;9209;32806;5498;12297;0;11152;11114;0;11870;9180;6223];
[28731;28730;11901;0;11741;32829;13148;12952;0;17173;11742;9259;10312;13063;9019;0];
[16736;0;6395;28813;32805;9259;17015;32908;8790;16925;11703;0;32790;6443;32885;32919];
[28727;0;9180;8555;13066;0;13037;11469;32778;10901;13158;8606;6443;8321;0;12034];
[12969;12621;12575;13152;12912;12856;12611;6221;10283;0;10283;32780;5401;12539;12768;11013];
[28692;32829;13221;8643;9198;20487;32936;12532;5518;28717;9180;28695;12000;12996;5338;4556];
[9940;0;16667;32872;13149;12612;12792;0;0;11872;32845;0;11956;28784;16620;0];
[13040;0;8491;17016;16513;0;28716;0;0;0;9252;13167;32898;28719;0;0];
[20485;0;12480;12744;12311;12840;0;4556;8459;32918;10216;0;32932;16658;32827;17001];
[16822;28767;32819;0;10318;0;12345;28814;17095;11938;13088;16696;8451;17239;0;9008];
[13171;8395;12828;11982;16815;28781;13089;12672;4455;9478;28679;12636;13151;0;28785;12309];
[10272;28726;12500;13054;28773;17347;12346;16779;12768;0;9204;28745;11778;32815;12380;28735];
[28780;6045;28717;28704;32803;10609;32937;12394;11937;28767;12636;20488;12706;13175;9936;12440];
[9235;6396;11746;0;12719;16814;4994;16948;12944;11765;28743;4809;8420;12660;28782;8356];
[0;8584;9974;13007;32885;12381;10563;12335;0;28740;28717;12402;20485;11938;12489;6433];
[8465;16526;32920;12530;12653;0;32801;12472;9057;32839;11775;16427;28727;32815;10869;17318];
[12570;16571;16437;8356;17016;11902;13169;28713;11171;12631;28768;12429;12532;28675;8681;12576];
[6419;13077;12947;11152;12415;28769;12558;12540;9297;12705;16451;28687;12720;32817;28783;11182];
[17318;12336;11900;10285;28769;0;17069;0;13091;9465;28676;4900;12920;28695;11777;28691];
[16736;10610;9564;9341;13198;4677;12693;28705;0;10908;13103;12549;12803;16744;17173;12298];
[12612;8451;16658;6450;16935;32801;9424;12432;17330;10562;28709;12526;8733;12967;32872;16666];
[0;32779;11200;28810;0;11775;0;11029;28709;12791;8543;0;0;13115;4905;11985];
[28692;13007;12646;9313;12357;11759;28811;8663;12749;12804;9480;0;6055;16509;12672;9204];
[17174;0;11168;32840;8717;32803;16496;0;10883;12407;16676;8657;16753;10947;12531;32829]]%N.
Definition LOOKUP_11 : list (list N) := [
[28731;0;32793;8491;9852;12593;12792;12966;0;11171;32776;10314;12828;12294;9246;9022];
[12696;0;8876;10284;12868;11749;9248;0;11181;0;8663;12370;0;12324;28674;28756];
[8390;28691;12960;11402;28811;13222;11871;12898;16778;12347;13211;13114;16518;32778;4477;0];
[9272;28812;17352;0;12332;28742;6388;32792;0;17318;11956;32794;0;17095;4667;0];
[10162;28810;12390;13172;9016;10571;0;0;12546;5285;13113;0;12370;0;12334;5816];
[11460;0;0;5837;12355;16516;0;32844;13056;13164;32921;32831;0;9478;11776;12492];
[16586;0;28679;16440;0;17250;28711;0;28696;11766;16618;32920;11182;28749;32777;4312];
[12336;11657;32790;16923;13184;16667;28744;0;32911;12629;0;10882;16676;0;13115;28714];
[32930;13221;16763;0;12792;16529;28768;12010;11777;16430;12463;12966;10364;11780;11182;16540];
[9900;12568;11769;8356;20481;17326;13125;32853;0;12381;0;11480;12605;28690;17015;12408];
[8364;28735;0;5081;9057;12477;13174;0;12632;16434;16763;32777;4403;13186;12008;13224];
[32920;11181;8701;11777;0;8962;10581;0;16925;17003;28689;28746;11481;12040;11956;10284];
[12956;8458;0;28717;0;32780;5374;17171;12561;12965;8643;32878;28791;16649;28821;13206];
[13140;0;9682;8904;11479;16846;10255;28712;32863;5081;8701;11777;12465;16763;9802;12833];
[8766;12868;0;16733;11955;12516;17250;11231;0;11956;5376;8931;32804;10908;0;12444];
[12894;16676;8356;11778;17071;11479;0;28780;0;28712;0;12570;10882;12812;12359;10370];
[28723;0;9947;13208;12912;11713;0;28710;0;32846;0;13128;9294;8701;13063;28757];
[11768;17001;6452;8460;0;32807;9331;11104;9682;12584;13205;32804;10957;13032;0;32806];
[9574;12900;8300;32793;17090;12310;0;10199;9057;28710;11012;9971;10610;0;5193;12394];
[12322;11202;17274;12707;0;32923;4715;12009;16744;0;12002;10285;0;0;5753;16842];
[8962;4689;13195;12347;28715;8423;12055;16852;28699;0;12857;11759;9507;12348;16437;0];
[12478;20485;28748;0;0;11291;8402;28722;12466;17013;6258;16462;16855;6443;9002;12322];
[0;8412;9008;28748;12465;10506;12312;9315;8618;0;0;13198;11759;12418;12064;9750];
[12834;28675;12040;28695;16873;0;12336;12011;12041;5886;12057;6379;16604;28795;12582;8390];
[9750;32846;9607;28799;0;0;10584;0;8745;11768;28745;0;0;9281;0;9315];
[12396;16852;12299;5287;20488;32781;5745;16538;13184;8469;13020;12575;13042;32805;4759;12499];
[10909;16698;20485;0;28724;32898;9589;28792;9000;0;12396;32817;12521;13187;10343;9354];
[5694;0;4968;28715;16687;32829;13104;28803;17328;0;0;28817;11204;0;16650;9884];
[12324;16607;16688;32794;28780;10621;6221;28676;9920;12463;17354;28740;10776;13054;16608;11895];
[13138;9503;16666;0;12666;13092;8358;16601;16766;11694;11058;13068;16499;5532;5508;0];
[8775;13076;28709;16666;8709;9800;5747;0;16746;0;4950;12348;0;12690;0;10869];
[5748;16763;17173;0;4603;5783;13162;9555;0;28725;5379;0;12863;20485;32807;5783];
[13186;16509;9211;12335;28818;16677;0;0;8713;16746;28707;9088;13196;0;12912;10563];
[16618;28685;0;17318;0;6118;16530;0;32819;10656;28739;6452;28810;9796;8774;0];
[0;16528;16687;10679;28703;8436;16519;12726;20482;12429;0;11498;12045;0;9374;16880];
[13208;9618;8988;9000;32831;6231;28713;12548;28679;0;12887;28743;28810;13185;12537;4405];
[8919;9292;0;28727;13186;0;0;28745;12762;9359;12790;5081;10285;4963;0;4855];
[12476;6443;12559;9360;16522;12632;12067;12751;13004;5378;28785;32843;0;0;12895;16451];
[8350;9834;12682;28822;16755;12011;16586;12371;0;9986;12058;12526;10037;28817;32831;16529];
[12587;17095;13163;12560;0;16755;0;16688;10348;0;32778;8607;28805;12299;28702;28804];
[13018;5749;12884;0;4954;5632;28743;12742;32910;12602;28733;8955;0;12859;12897;8342];
[8750;32820;12511;12514;11768;16687;28695;17096;12635;28718;0;12298;28721;12058;12382;8719];
[28748;28717;20481;5007;0;12348;4613;12057;32935;12667;28747;10393;11627;13043;0;12605];
[16833;13197;6212;13080;8365;12727;12586;28740;10282;0;28733;12467;13187;12607;11778;13152];
[8666;13207;28780;28737;17203;28721;32804;4699;0;10954;12010;32845;12300;0;17160;12310];
[12496;17358;16541;5020;16451;16890;11328;28820;17012;20484;0;28715;16879;13208;12840;12408];
[12576;0;0;32807;9361;0;32792;12477;28699;9593;0;28727;6452;12439;28707;0];
[8876;9555;0;28734;0;8918;0;28744;10648;16808;0;12587;32842;32829;16903;9479];
[9386;0;13140;12716;5936;17377;0;16779;12599;5750;28707;0;11095;8458;11430;12348];
[16686;10832;5508;12002;0;9301;10284;28822;8413;16528;0;28739;0;12048;5036;12682];
[12791;0;28694;12996;0;0;0;12859;13218;0;10399;4459;8606;8421;16935;9085];
[16890;9665;0;12360;0;12478;13198;28745;0;0;12988;28730;16664;5414;12034;28714];
[12955;5557;8965;13162;32779;5039;9851;28761;9838;16608;0;9964;9593;5465;0;11225];
[16450;4605;12501;9216;12416;12656;28817;16524;12562;13209;32861;12669;12453;13032;12587;20488];
[12049;12614;12572;10118;10273;16965;9317;13116;17359;12396;5030;28756;10947;8466;12454;28769];
[0;16907;13163;28822;12384;0;0;28719;11590;11403;13020;12776;16528;28795;12801;0];
[6061;20481;12430;9593;17397;11131;10573;12848;32906;13008;12777;28819;32911;17361;0;12761];
[10860;28765;28749;0;10400;5934;5297;28678;16913;17035;0;0;16685;13107;0;0];
[5420;28711;20481;12977;4432;32897;10436;5298;16886;5871;16774;32805;5046;16844;28817;16588];
[28694;0;9954;8704;28677;12763;12586;0;12706;12370;0;28725;12490;32806;8687;28738];
[28774;10880;12706;10114;9350;9017;5310;32807;5940;5595;28747;32831;8422;0;9593;28784];
[0;6441;17170;0;0;9975;0;0;0;9618;8757;0;13031;12693;0;0];
[8612;0;16608;12729;16698;16540;32828;13221;13176;28707;10460;12432;0;9044;28747;28715];
[16598;16643;9082;20486;28738;9513;10371;16911;28723;12836;12372;13056;12312;9657;8704;11403];
[17332;17384;8711;8745;13172;32898;28746;16834;0;32833;0;0;13219;10995;12886;16684];
[8389;5327;0;13209;16833;11502;12616;0;32922;12312;0;0;32853;12575;0;32843];
[9564;11993;12453;12644;17375;0;12406;28773;0;0;16697;8458;12802;9857;0;8422];
[12407;28748;0;9657;12789;32853;9011;16449;28773;0;12011;16774;0;0;12753;12615];
[32829;28695;20481;16697;8367;32831;0;8942;0;28824;4710;16899;12311;17290;9780;8995];
[16698;6024;9554;5036;17251;28807;9545;12632;8840;12407;8897;4709;32789;5420;10694;11759];
[13039;12300;12875;12576;10670;12871;12467;12884;12467;28750;28722;8758;13176;5523;5057;0];
[28695;12438;0;10371;4317;12909;0;10400;5752;28773;12948;28746;16619;17394;28718;8320];
[32843;16767;12646;16899;28804;12857;12740;11265;28747;13220;12058;0;16746;12744;16537;9371];
[0;13050;16937;0;12514;6093;0;12740;12356;9033;0;12910;12885;28817;28724;5337];
[8458;12617;17092;12882;28773;11648;0;17411;16886;9592;9261;0;12851;12509;13026;32804];
[16504;12418;13163;10409;32830;16697;0;28708;10698;0;5085;16799;12574;0;28762;4964];
[11255;8553;12076;11131;16746;4711;9318;16905;17396;28728;9745;10968;12790;8774;28798;13151];
[28700;32931;8301;12312;12345;32779;4754;5397;10969;13146;8421;13004;12300;10498;9056;16735];
[28704;9591;12836;16901;0;17385;12979;13017;10750;0;10969;0;8422;12670;9064;10670];
[32807;9380;28719;17369;12905;32844;12742;12885;9073;5880;16886;8666;16900;5398;5347;16907];
[12617;9619;12704;10968;0;32919;0;0;4710;28684;11977;11993;12011;9059;8957;12597];
[13128;12896;0;12683;16988;9381;0;12607;12777;9809;16540;12860;9816;28762;12453;32832];
[9895;10506;17037;0;0;0;10437;0;16530;32819;0;4711;17116;28799;9517;28828];
[32919;12912;0;0;20487;0;8963;5338;28797;12682;0;28785;0;9381;12617;17251];
[28746;12703;16901;28703;0;13019;0;12067;12679;16540;28798;12467;5700;9301;10197;12383];
[13104;17320;0;5524;28765;0;5064;12682;17387;12777;0;28762;11049;28680;12645;12600];
[5909;0;17386;10969;0;0;5058;12960;9044;32936;6065;12515;9357;28733;12683;16937];
[16700;0;5092;8712;16684;13176;12800;10483;28770;28811;12585;12966;12860;12657;11152;28737];
[16901;16598;0;12864;4964;0;12515;12504;9900;12775;0;6265;6241;0;11816;0];
[10537;12656;28808;28699;28707;0;12456;32845;5892;32864;28826;12549;12966;13183;0;28737];
[9618;12712;0;12611;12669;9657;11374;13220;10283;13138;9089;9255;12438;9383;0;9619];
[5085;32820;28787;13013;8718;28797;28766;28715;0;12741;28783;20483;0;8359;0;9909];
[0;10832;12658;10437;8786;17141;13161;0;12539;12067;0;16698;11799;12886;9562;28734];
[16734;28781;12516;6433;8768;32853;9033;0;10483;13102;9019;10406;0;10151;17396;9684];
[12956;12384;12779;13173;0;32845;0;20486;32845;0;12837;28720;28785;0;0;9985];
[12476;4969;28738;13164;5632;32844;16588;12480;12885;32846;9854;5906;32794;5797;8667;12058];
[0;13004;12465;0;28673;4965;0;0;9085;12967;0;0;28722;16463;8452;9197];
[13152;16767;28703;12837;11414;12808;9863;12647;16618;0;12564;12753;0;0;0;12587];
[10191;10997;28754;0;28821;16700;8282;4629;12995;28735;11182;16687;11294;16519;0;9554];
[9674;12778;12539;0;28823;11131;0;8768;28748;9057;0;9075;9974;28739;28759;11539];
[32842;16919;28797;28758;32845;16893;0;16699;8475;8460;12886;5058;9666;6261;0;32845];
[28716;0;28683;10456;28818;12453;8373;12911;0;5086;16564;0;28733;12619;9892;12646];
[0;28825;12297;13020;12588;10787;0;13173;16429;12355;28825;16700;0;32807;5989;28730];
[12932;12596;0;32934;12334;8766;12779;16761;0;12766;0;0;11955;0;12691;0];
[13096;28746;16765;16418;20481;0;32865;16853;4830;0;12552;9231;12456;12441;17377;16919];
[32844;10453;11040;16910;16537;12742;12551;12694;16463;28774;10159;0;10114;0;9075;28803];
[0;28759;12922;10780;0;28747;9058;0;5550;0;16688;8721;9892;16914;32832;9608];
[0;0;8790;0;28793;16910;12068;9862;5906;8469;11274;0;11972;28711;12991;12492];
[6242;9310;13031;0;9649;4711;28797;0;12862;8941;12610;12438;5979;12684;13029;12915];
[8775;28729;8313;0;32831;12755;12588;28719;12367;32833;0;12875;12432;16596;13005;16529];
[12956;8775;12861;0;32931;12995;16765;9512;6412;9617;0;32872;8489;0;10410;6291];
[5570;12712;12787;5980;16539;0;9940;0;17408;0;0;12633;12848;12597;11079;12657];
[17043;9377;12587;12852;0;17268;10531;28797;12476;12384;10115;12790;0;12789;11339;9310];
[0;28696;13161;5058;17332;12728;12587;13042;5973;8722;13032;10975;12456;32829;12850;16927];
[0;0;32829;17240;5442;5441;9861;12635;5570;12836;10414;16933;28795;12561;16664;13120];
[9961;5355;5355;0;12404;6113;10145;13020;0;8882;8930;28683;0;9619;5349;16608];
[0;9620;13152;11566;17012;10443;10494;0;9545;28786;0;32909;0;0;28758;0];
[11339;5636;28692;0;28759;16458;32865;8413;17330;28704;5988;17059;16427;28757;8776;10206];
[0;4561;28775;10378;12588;0;12390;12372;16700;28759;10232;32775;8529;12765;0;17122];
[12708;10741;6154;12468;12414;8612;12779;16542;28711;12383;5635;12684;28786;12789;9619;28774];
[28714;12473;28691;8250;12694;5476;10152;16925;5572;0;13032;28795;0;16835;28794;12635];
[0;5064;8424;9154;17044;0;28686;0;16734;9264;0;11078;28747;12451;12552;11909];
[12702;5571;12420;0;5600;32924;12711;8478;17049;5442;12861;8637;8966;9649;28816;5442];
[0;16838;8966;0;9518;16855;12407;16527;12514;8469;13211;17229;6443;0;0;12588];
[13119;12743;28746;28761;16766;13006;12585;5476;10539;28795;0;0;11296;9421;28745;17194];
[20486;0;12573;5574;12079;28739;28725;12333;0;16541;28710;9958;17330;16539;0;9137];
[5635;0;0;10414;28692;11040;12576;5572;17387;6451;32937;12420;0;28767;12730;8368];
[16438;17408;12417;28758;12574;28696;28750;11268;8688;12684;28729;16620;9773;16495;10177;28805];
[0;5979;16980;11080;9647;12370;5349;12408;11004;12480;12780;11522;0;12468;0;13085];
[32794;9620;28732;9374;0;17044;13163;28695;16779;9899;12807;32844;6000;28703;16541;12968];
[9355;28761;0;10273;28678;5572;13006;32905;11301;16929;0;10707;28720;0;10079;28745];
[10835;13140;12540;9907;28674;6127;0;12897;8253;13175;0;10333;12551;13120;13211;32883];
[16609;28677;28775;0;28740;16972;9021;10412;28730;12310;28718;28739;0;12789;13145;9085];
[0;28758;12753;0;0;12564;12887;28695;0;12513;6412;0;32820;0;10108;12492];
[12503;12713;20485;13162;12850;12713;28726;28709;5198;16524;11336;0;28683;17309;9819;9904];
[12527;28737;12839;17043;5886;11105;28739;12383;0;16411;0;11802;28797;28759;10205;28739];
[12713;28758;12982;16700;5695;11592;5065;0;32932;12907;17047;0;10449;12467;12666;13004];
[8478;0;11631;0;12780;12573;12646;8368;12774;28766;8488;13007;11686;5092;11402;12659];
[12647;12670;13007;10705;11134;10160;12862;11224;32843;6000;28696;12527;12915;16926;12695;12899];
[8325;0;10160;32819;13113;9656;28772;12863;17353;0;12851;0;9059;0;0;28763];
[16998;5064;16835;9310;16982;0;0;28819;12562;0;12670;9307;5914;16425;13122;12948];
[16825;28724;6044;11593;8532;12809;8787;9367;28697;28808;32793;8713;28735;16688;9656;13163];
[0;5475;10787;0;9065;12648;12705;12684;13030;12766;28678;9910;0;13026;16928;11566];
[9358;12550;28706;12599;9059;12502;32856;12934;8768;0;10127;16651;8266;28675;11006;0];
[10198;12942;5448;12312;0;13042;8982;13019;12910;16684;0;16989;10505;28683;28692;10501];
[0;10448;12633;11573;9561;12766;12715;9843;12408;11302;12418;17201;0;12743;20483;0];
[6035;12808;17001;12563;10115;28783;8721;0;13034;0;10160;28798;9553;10742;17128;13020];
[12899;0;12540;0;28808;12598;10746;13007;28685;28726;11340;9175;0;28809;16755;12670];
[28819;16825;12478;28684;0;0;12930;32878;8488;32842;12516;12432;28685;12562;9684;9085];
[12915;0;12923;16934;6413;11573;11086;12992;9265;16835;28787;0;11728;5602;6028;10457];
[13007;32894;6247;9311;10207;12562;28763;9984;12382;8667;6330;12756;9602;0;16998;0];
[10837;32865;28684;16912;0;0;20485;11631;8674;12916;5637;9676;28712;12334;10378;9673];
[0;0;28683;0;12633;32843;17113;28717;12372;28730;10791;16777;0;17377;0;11160];
[10787;9375;5606;12680;5642;10789;28758;20483;10198;9686;12744;13007;12527;10456;0;5912];
[10378;0;9918;32846;12810;10217;16989;13017;16756;11638;11045;28748;6028;0;11379;16541];
[28787;12358;9387;5908;12715;16844;17202;32856;12706;12467;12942;12695;0;12620;10205;10517];
[9686;8479;20490;28770;16904;16980;0;28752;9948;0;28809;12907;8713;12714;32832;10837];
[11302;17044;12816;6044;8480;10172;32856;12773;12799;11303;6155;8768;0;12715;0;8669];
[9975;28750;16461;0;9384;32878;12971;11684;28693;9316;13149;0;6007;0;12915;8768];
[12888;0;9888;11676;12528;32843;13085;16952;17129;12621;0;28763;17015;0;11089;16754];
[12792;10558;32865;12585;5093;12550;12588;28751;32879;11057;12863;17052;0;10837;32878;10378];
[11381;32883;32803;10359;11712;12899;28762;10191;32866;11338;28753;32885;0;10198;0;9686];
[16778;10711;12898;0;16539;11595;0;16462;11677;28690;0;8422;0;5607;0;12791];
[9374;11102;28759;10305;10758;0;5772;12788;4452;9676;12407;8966;12324;16903;6158;12443];
[17150;12810;0;11136;11012;6285;28689;10713;10261;12431;0;12944;0;12720;32803;4412];
[16571;10115;12840;9560;17050;4681;6285;0;0;6305;28747;13136;11339;28727;0;8480];
[12027;0;12840;16931;0;9964;11573;12396;6137;8723;5094;10206;28827;12600;28789;12839];
[9300;13080;12538;0;12789;10160;32780;8969;0;16421;12420;9974;0;10564;11813;32879];
[10710;28707;11142;16620;0;10215;10483;11600;16845;9388;28698;16617;12776;28678;8486;11813];
[9012;13026;16835;12996;28793;17129;12027;13223;0;0;0;28696;16450;12575;28684;0];
[12477;28731;0;11303;0;17251;16428;12502;28691;10206;6137;32827;16903;5659;13016;28759];
[12557;11971;10191;28711;28807;12888;4873;12683;0;9687;0;11678;12741;11636;11603;17081];
[32836;12969;28816;12970;5093;28748;16491;6333;0;0;16932;28805;6195;16974;0;28750];
[12785;28720;32930;0;5097;28758;6305;8478;28717;8489;5441;12380;10816;0;16445;0];
[12347;16688;9900;11846;12466;16912;5578;16854;9031;12575;9319;16658;0;11355;32879;9686];
[28764;12919;4799;10545;17128;28796;0;10788;10497;0;10511;12466;10744;17009;6202;12982];
[11523;9078;13206;32804;8311;13035;12621;17299;28810;13111;9263;16895;11836;10112;11393;16922];
[32869;0;12336;17273;12430;9918;8307;6305;28738;0;10788;0;0;12778;12479;12544];
[11889;0;12930;8966;16587;20488;28727;9686;6368;10503;0;0;9685;12875;0;0];
[8947;5235;10714;10743;32879;28796;10451;12502;32930;0;11385;17000;11441;9683;0;6007];
[0;12996;13019;28747;12900;0;16914;28682;0;8461;32930;0;12587;17000;0;9385];
[13054;17273;6335;12837;10713;11340;28679;28806;9918;5712;13062;6035;13102;10789;12660;16904];
[9068;4541;12823;0;28765;10459;13025;28773;12384;11469;12465;16779;13126;16542;10414;28714];
[0;28809;0;11838;28776;28776;12907;11340;32855;0;6159;11683;20487;11434;0;16596];
[12597;8790;10490;13016;8961;12813;13122;13100;16694;10148;32844;12886;12456;12705;6369;10505];
[16672;28812;28763;28742;6196;12620;11141;12066;0;12917;32833;5579;12744;32842;16459;17059];
[8947;0;13055;28824;28753;17072;16924;11042;12823;28683;32937;0;9320;28707;11356;32866];
[12717;12981;11385;6341;12862;9355;8779;32905;0;0;0;11386;4894;17251;0;12777];
[16857;8479;28763;5101;28791;13172;11049;10792;0;9073;0;0;13100;11356;0;28785];
[12475;28720;13036;0;12717;11013;11709;0;0;5957;0;28817;32779;4791;10558;16842];
[6397;12899;28809;0;28752;12524;11340;28824;12510;0;10451;32897;17399;32855;0;12903];
[12403;0;17210;28758;9087;0;16778;5914;16519;32789;11345;10505;12395;12539;9321;10247];
[11195;28787;28787;0;20481;16806;13027;17203;12027;0;0;28691;16655;13162;32930;0];
[9610;28728;6200;17138;28746;12643;12621;20490;0;17151;12464;12600;0;5649;0;13112];
[8491;32882;28758;12456;12308;13090;28745;32869;10254;11601;9088;28729;0;28760;11402;0];
[8789;11057;11602;28762;28781;16992;28749;28743;0;0;28681;10868;32868;0;12755;16925];
[0;28770;12539;12600;10844;12393;28761;13035;5607;12716;11742;28691;0;4672;28731;0];
[6037;10254;9618;10797;9078;6087;28760;0;10497;0;10566;32882;9917;9986;16925;16527];
[9321;0;28766;16874;12550;0;12491;32829;6417;5615;32934;0;8322;28787;0;6007];
[17238;9012;11637;12467;28810;28793;10559;8999;12864;11413;0;9917;0;32870;0;28799];
[9751;0;8722;17015;0;9130;28795;11142;6450;12739;28786;17407;28787;0;32881;12594];
[13137;28754;28777;10759;0;13054;28749;17132;32884;11388;5183;0;9772;32898;0;10751];
[0;0;28807;12467;11349;10872;8313;9089;10229;11304;0;0;0;0;8949;11167];
[0;32881;5914;8708;9367;11638;9609;0;17158;17010;5649;9585;28700;12812;28759;9321];
[10813;9524;12420;0;0;9945;12492;11096;12947;32857;32924;28760;0;16685;0;11410];
[28821;16993;28730;28796;6307;10551;10207;8452;16485;5607;11356;0;16517;13134;28759;10262];
[12812;28734;10514;9210;10847;13008;12908;32789;32817;28720;0;16528;32845;12672;11680;12479];
[11657;13137;11401;12995;12944;28701;12827;0;0;9376;12300;10557;5660;12875;12552;9160];
[12655;32778;4606;16992;16463;32882;32895;0;16756;12359;8489;28785;28726;28797;17210;10159];
[11607;11348;0;10549;12482;0;9663;6036;28816;12852;0;5486;10759;13158;32844;0];
[10507;28684;16450;11939;10804;0;12441;10567;6372;11219;16649;13000;0;13135;16451;28751];
[28753;11684;12573;0;11655;0;0;16779;12726;0;16779;28687;8620;8955;0;9373];
[12624;10199;12768;17093;17012;12942;11654;0;28793;13008;28787;12756;12970;13101;16879;9772];
[32881;10514;10759;12908;32895;32856;17218;12719;11145;0;32911;13218;17072;13101;28739;12528];
[0;12706;16800;9666;13078;12298;12708;28788;12778;12504;12648;16808;12910;28690;13137;12933];
[12552;28691;9666;13207;28763;32894;9880;0;0;6380;13039;0;6378;20486;6165;32897];
[12464;8873;13090;17211;12814;0;13194;6166;0;17004;12416;12906;9985;28755;10852;8778];
[11411;12426;0;0;11739;11740;11311;9382;12826;28786;0;13006;10566;13020;8418;12920];
[9001;11730;9850;0;28745;6212;0;0;28796;0;13016;17159;0;16775;12958;16983];
[12687;0;6036;8320;5011;0;6137;11972;16656;13088;8779;13112;0;16507;13138;32885];
[28746;17226;11700;8779;12825;28783;17149;6201;28700;12515;10199;12815;9377;10813;32882;10247];
[11639;8883;0;32832;28719;10578;12972;16842;16620;9620;11413;12887;17150;13062;12430;28828];
[0;0;10860;32870;12933;32933;9891;5661;32871;9068;12366;11394;11893;0;9985;0];
[12383;0;13037;5180;28710;12846;12689;0;32831;10095;5616;4773;28675;0;8491;0];
[0;0;10197;12624;5615;0;16448;11655;0;8723;6202;12944;0;8613;32932;16923];
[13079;0;13135;32818;12718;10814;9808;6379;28774;12719;28685;28755;0;12696;9657;13224];
[11357;13139;13138;17002;0;12744;12958;12576;13102;13149;16934;16746;10285;9311;0;11410];
[0;17280;9366;10281;11639;5653;28776;28778;5659;16516;12455;12695;20484;10071;12491;4453];
[0;20488;13101;28757;0;17080;20487;9956;13023;9986;0;11693;11685;32883;12648;0];
[16767;11414;4501;11644;28755;28747;12564;0;11872;0;16816;17081;28799;0;32905;17347];
[12480;17228;28777;28749;5816;13150;0;0;17016;11734;12785;28761;8702;13114;11937;28798];
[0;16515;17399;28708;12743;28733;12894;10507;20488;0;11930;8613;11050;32857;16699;0];
[9357;11095;6039;11701;12599;0;0;17309;16438;11113;11113;28817;32911;12576;0;28751];
[5129;5661;16925;12488;0;13028;0;12479;13140;0;28755;6218;12312;0;0;28712];
[5742;8321;0;12691;32910;0;11654;5301;10577;32895;9367;12946;6423;12442;11143;12791];
[17394;13004;32867;28674;0;32895;0;13016;12513;9181;0;11104;0;17072;10868;17011];
[32908;12552;9953;28787;0;11709;12825;12540;12394;0;10852;10084;28707;32779;4750;11687];
[28712;12984;32858;0;12704;12609;32895;12744;9388;9422;0;0;12551;0;9049;28784];
[28808;9267;12502;10568;12870;0;13104;28790;28719;12948;11983;0;16411;28803;11866;12623];
[13020;17004;13151;28725;16935;13038;0;12947;17399;0;20481;13043;12355;0;5661;12442];
[10852;32818;11603;6203;28732;11633;12669;11349;32777;8560;9088;17159;6218;11143;28766;32933];
[13100;17072;11114;10814;11458;12882;0;0;0;0;13128;13078;16767;10553;5412;32937];
[10561;10259;12827;12428;6211;6203;17306;13140;0;13103;8683;0;12756;16935;28767;12037];
[13007;16538;0;10281;13151;12899;12683;10248;0;28745;10255;8285;12934;8480;16693;12933];
[9674;0;11931;0;32896;10517;32933;10568;0;32871;20489;0;12934;13064;28773;11712];
[11181;28697;16538;17093;11403;0;28724;28739;12600;10174;13200;9300;6219;0;28772;32937];
[13158;13151;28767;8387;11931;6343;28770;6424;10517;16754;5836;10797;11357;0;10263;10218];
[8778;13140;11740;16571;11151;12780;0;13109;16778;0;4921;6219;0;13148;0;28731];
[0;0;11518;0;13052;17151;12945;28797;0;10157;4912;5732;0;28778;28724;8321];
[0;28810;32827;8489;0;0;9387;32789;12744;12540;0;16446;16421;10267;11167;0];
[11450;28714;0;0;0;32807;8764;28793;6208;12923;0;12074;0;11151;0;4347];
[28790;28698;13140;28815;0;12520;8664;11168;12569;0;20485;17248;12696;10816;12455;12322];
[11933;32896;12380;17082;0;28684;16519;17172;13053;13150;11899;13052;0;8938;0;28767];
[11711;12768;12871;0;9179;11712;12357;28772;0;0;8284;28695;0;32922;11137;0];
[0;17091;12048;28721;0;8574;0;0;13042;10116;0;16506;12827;10853;12416;10281];
[16430;13052;32790;13211;17238;32819;6342;32857;32919;0;5616;0;9387;32858;0;12756]]%N.
Definition LOOKUP_12 : list (list N) := [
[8854;12996;28807;0;32884;12901;32846;12417;13165;12789;28765;0;16858;0;17289;32830];
[12683;28766;12564;9687;0;12392;12032;6350;6450;10580;12539;13074;28723;8900;0;17014];
[32859;32791;10584;12827;12813;11953;13115;17161;11170;0;0;32872;13161;11479;12636;17083];
[6346;28768;10814;17308;28809;0;12065;17060;16993;0;32936;13091;13065;13053;16674;9153];
[28770;10861;12815;8790;17289;12651;8964;0;13063;9301;0;17237;0;32806;11517;9860];
[10882;12381;32893;8789;28702;0;6350;6167;0;28684;10759;9065;13176;10861;13089;16748];
[32897;13074;32833;9208;0;10153;12802;8283;17140;17238;17376;10570;28784;0;10879;0];
[28727;0;28688;0;17220;16616;11776;28750;13113;32840;0;8489;10195;16420;28733;12343];
[13159;32791;28754;28748;12343;28735;16993;28810;17003;9586;8747;12592;0;12618;0;9913];
[0;8948;28809;0;8307;28809;12742;32897;12308;0;28745;9293;0;32777;8857;12897];
[9964;32921;11169;11115;13181;8354;32816;8960;17014;0;6395;17139;10507;13002;13076;13076];
[20488;13065;12731;0;32894;13031;28755;12357;12491;16528;12959;0;32827;12560;0;9473];
[12828;28682;0;28821;11168;9386;12991;11983;0;11404;10861;12894;28810;0;11703;28723];
[16936;16658;32885;6425;32778;4511;12804;6082;13043;28803;16503;10272;16463;12802;17014;9244];
[11702;28685;10311;13126;4299;8963;12827;0;16776;0;16599;10815;12380;17014;32793;28692];
[16450;0;0;12564;12888;10404;12420;12759;0;13150;12532;12333;8686;12419;12332;16578];
[11404;11152;0;12900;11413;9877;12744;0;28804;0;32846;0;8491;0;8881;12708];
[4803;12532;32807;8435;13100;17171;10862;10498;12649;13078;32817;12492;32790;10871;16596;0];
[20485;9175;32779;11189;9501;28807;11872;20481;28680;12696;12804;13167;0;28795;12900;13169];
[16658;0;0;0;8362;0;0;13077;12444;0;0;12321;28702;11898;9377;12921];
[28791;12897;9898;0;10207;11349;12828;28741;12368;0;13166;11113;12404;0;0;6426];
[8643;28741;12346;0;8616;28673;13205;4389;20481;16925;16814;0;10039;12345;32816;32868];
[9985;0;12357;28697;11872;16460;4425;0;11937;12393;13104;13091;8420;28798;16937;32932];
[0;11938;16598;11459;9204;12576;10641;9250;12621;12604;16924;0;28692;17227;12431;13224];
[11900;28704;0;0;32817;17307;13164;12864;6452;9687;17171;0;9959;0;32917;17239];
[32791;5141;10871;8606;11983;6396;28734;20482;0;6433;8998;32869;12725;16814;12760;12360];
[28793;17016;8355;6081;9583;13054;32833;0;10389;0;10626;17239;13092;17298;10878;28735];
[11186;13160;16598;28746;10158;12322;12335;6395;13042;28827;9212;13185;12653;10714;13011;0];
[16831;0;0;12768;10880;11656;17210;8386;16744;12379;9509;32816;12593;13128;13171;16439];
[16992;9862;6433;28712;16528;13168;16529;0;12725;8278;12839;12579;11477;28742;12298;12336];
[28809;32859;0;6388;6388;9544;32781;8740;28807;12533;10940;13065;28796;0;17220;20487];
[12299;0;32792;12786;17240;8877;6434;8284;8618;32790;0;32885;13041;0;12624;12414];
[32805;4904;12653;9089;28814;12532;32841;12684;12298;11983;12912;32780;5363;28798;16744;11468];
[16657;13182;28725;11207;20485;0;10315;11458;28703;28791;17227;16675;32804;4544;10925;8739];
[0;10872;11177;28724;10425;28726;13224;5271;8870;0;12815;9475;16745;28743;0;12334];
[12749;8609;0;12510;0;0;16459;28770;11179;12816;17352;28788;28709;0;8618;0];
[0;0;16650;12924;16753;12546;28704;28700;28712;0;10816;10299;28821;12864;28684;28789];
[16806;28673;28723;16598;10302;8576;0;32816;9508;28706;12038;12444;12499;28774;12756;12041];
[0;17318;28709;16529;8600;16440;13137;13043;9204;13015;0;17093;10583;0;17251;16579];
[12310;0;12528;11765;8655;12490;0;16666;28716;0;32791;0;5691;13077;12828;0];
[5106;10283;12321;0;28719;13194;6396;16451;0;16448;5289;28803;0;4539;0;8420];
[16595;5660;16822;0;28706;17173;32817;12432;32792;28817;20484;11901;9255;0;0;17016];
[0;9585;8790;0;28805;32919;10517;28781;11953;13044;12690;12321;16438;0;8948;13182];
[9899;8917;0;28828;0;5221;28718;0;0;16439;11953;16952;0;0;17162;9211];
[0;32869;28761;13104;12576;4441;16529;0;12402;9953;16779;32817;10871;11703;0;6351];
[32806;8700;13183;32792;9545;8643;16794;17351;13182;11114;32815;20485;0;10641;28734;16436];
[12600;12630;28822;12871;9387;10883;12856;0;0;28726;12593;13090;11196;6220;13146;16597];
[5225;0;32898;12358;12382;13169;0;9175;32790;0;10872;12828;16676;16677;12009;12480];
[12719;8612;6442;0;8344;20490;0;28750;32919;5369;9239;12972;12335;28767;0;10389];
[12384;11946;32805;4798;17095;12039;16746;28824;0;8620;6220;11528;8418;8988;11905;28743];
[28810;0;17299;13194;0;0;0;8646;9388;12868;0;0;0;4901;4480;0];
[28823;28746;32871;5188;28819;12888;5360;0;5854;0;9089;0;0;28779;16666;28711];
[13171;20484;5224;17327;28736;8853;13195;32805;4997;0;0;13153;13194;0;0;10285];
[12403;10940;13188;0;32804;10919;0;0;8404;28703;0;11460;12894;16607;12696;28708];
[4374;11712;28749;8999;5957;11412;0;16450;12394;16519;28748;12523;0;12312;0;32898];
[13076;13182;16962;28811;8766;4442;5191;0;0;0;12879;12719;11487;12583;11767;28685];
[16687;13140;13174;11768;11469;12595;12456;12427;0;6452;32910;10423;12528;13039;16686;0];
[5021;10056;12488;12725;12698;0;9303;28760;12322;12418;13017;16500;0;0;11648;8708];
[12359;17172;9799;0;16663;32818;6221;17229;13115;0;32805;12334;13008;12716;16658;0];
[0;12499;9388;17329;13127;32790;0;0;11656;12667;28768;9543;8759;0;17016;10095];
[10048;11984;12551;12323;28728;16684;12065;9009;0;8689;10099;12406;11694;12489;0;10343];
[17091;20484;16429;32794;28759;32911;0;32936;11460;4619;8410;13139;9808;0;0;10348];
[10880;32922;12868;28758;12040;28710;17014;0;11776;8830;9671;0;13206;12372;16808;28788];
[16686;12056;28733;16447;9066;28740;12655;28701;20482;11477;0;13139;16688;8419;13183;12690];
[10515;0;12525;8320;28705;10633;0;12548;12793;12949;12600;32779;11227;12800;12690;4996];
[28807;12525;32896;28697;9211;0;17093;12708;20484;17398;0;8717;17299;12300;28740;11693];
[5375;9525;11460;9211;16947;12360;0;0;28819;32923;12811;0;12632;12763;0;0];
[0;13139;16509;0;28714;0;0;0;28729;28687;12720;5288;11750;12520;9292;9050];
[13164;16509;10218;5527;11160;13205;10634;12959;8656;0;12871;28695;9189;17319;8351;12355];
[0;12453;0;8456;0;9061;0;13196;0;28699;0;20481;13197;11777;10584;0];
[9546;0;0;9555;5378;16429;12547;0;12550;13090;4367;13163;11505;28686;12406;0];
[11757;0;13195;12786;28726;17359;17410;6443;28681;9852;28676;28712;11759;0;11469;4914];
[0;12040;12786;5312;16858;28720;13044;12976;0;13025;12441;12804;9898;9344;28694;12300];
[9248;17083;0;8410;0;4456;28726;12728;13172;10881;12572;13103;12550;12751;17387;10571];
[10965;13172;0;0;12643;9686;13016;12825;0;9293;28673;10652;32775;9993;12441;17252];
[28704;12526;28707;10100;5014;17326;9726;5087;0;12048;16598;12682;28759;0;5744;16529];
[0;9301;28727;12334;28700;32818;8584;32779;9222;28736;11767;12588;16617;0;0;4943];
[16824;6050;0;32898;17162;8789;12561;11450;28750;28698;12499;0;0;16832;0;32780];
[5504;16518;8464;12346;32829;8366;0;20485;20481;4675;0;28770;11992;16993;0;9974];
[16688;9646;12778;6212;8366;0;28749;28739;28730;28787;0;12476;12310;0;5746;32807];
[9335;0;5286;16453;28739;17306;28727;32869;12511;0;12524;28721;16617;0;10246;5503];
[0;12977;16598;4399;0;6336;28717;12548;12416;5021;4678;13104;16658;0;32778;10950];
[12310;12786;9860;9815;17409;28739;28690;12464;12690;10714;12891;28760;28695;12786;0;10137];
[0;12881;9265;32920;0;12800;13115;0;12300;0;28692;12513;12991;16666;0;12976];
[0;28725;0;28675;12572;5941;0;0;0;32871;9248;0;16833;12667;4936;9342];
[28688;11814;17095;28779;0;11956;28693;12466;16824;16685;9508;12501;12684;12010;6047;13174];
[16619;11226;10260;9048;16458;12741;20485;16823;12503;0;13032;0;12893;12392;16852;32778];
[4692;12430;0;12536;11450;11480;9216;8920;28775;28751;5519;9815;0;16460;12455;9964];
[12048;12632;12988;0;0;13042;0;32922;0;0;16519;32807;8465;0;0;10498];
[32842;16448;32792;8366;28682;16439;12560;12751;16515;11779;0;0;11460;12656;8487;12310];
[16541;10393;11480;0;0;0;0;0;0;17060;16852;28726;12979;0;17308;5846];
[0;0;12502;12740;12847;11703;8446;17359;12311;0;4872;9839;0;9248;17307;0];
[13200;6068;0;28825;0;12000;12048;28675;12988;9056;12312;0;10554;28750;28726;13186];
[10507;10426;10525;28683;12595;28826;9010;13224;5311;12478;0;16518;17219;13175;0;32831];
[32794;10068;10348;0;0;0;9940;5307;0;17196;16619;6350;10076;8358;28822;16579];
[12559;0;12455;4948;10482;10958;0;0;16616;0;0;12527;12562;10941;8703;16463];
[11507;13103;0;12871;12560;9481;0;16620;0;20486;28724;16449;12988;17388;5025;12511];
[0;0;13152;10881;8711;9898;0;12584;16619;13056;16598;11230;12466;10429;9262;28754];
[0;32781;5840;10237;10101;12671;8250;10658;12489;32806;5522;8703;28739;5414;13224;8666];
[16950;11759;10216;0;12595;28692;12537;12586;16597;13209;17038;16731;28742;8486;16616;17249];
[28766;12476;28819;28792;0;32833;28691;12696;16952;16698;16537;28703;12859;9049;28737;8686];
[12057;0;5539;32843;0;0;10348;12408;12419;4683;16459;12360;9050;12690;28733;9294];
[13068;0;12716;9010;12560;11525;28715;16460;0;0;10641;9481;16430;13152;0;12306];
[13013;5044;32817;16842;0;28688;28726;0;0;28744;8300;11178;0;32815;28734;12751];
[12683;16541;32807;5752;17248;16619;5319;11180;0;0;11232;0;8367;16457;12835;0];
[0;9374;9002;12526;9072;28740;0;0;10101;0;28681;12644;10389;0;13217;12547];
[0;12360;9645;12991;12859;16675;8620;32818;5255;28695;0;16460;17385;12894;0;12547];
[12466;0;8446;13223;8412;12548;11956;17002;9341;13219;9248;8311;8422;32831;28727;6434];
[28684;5740;8384;16518;0;17160;8476;0;9853;0;8484;10072;32853;28727;8711;12068];
[12631;4479;12333;12466;32781;5765;12528;9371;10364;9064;4943;5842;12847;10183;13175;13092];
[10136;0;8314;13176;10655;28699;0;12965;8359;16527;12431;17022;0;32852;12560;4873];
[9510;10101;0;32803;10658;8390;5939;9517;12502;16515;16843;0;5407;28752;0;0];
[5255;5316;12585;12562;9860;8404;12300;28816;11250;28741;20481;0;12049;0;0;11768];
[28750;9300;12536;6451;12561;12707;13220;8765;12851;12504;12825;16607;0;28746;32819;0];
[16509;16449;0;0;12404;16775;0;12645;12372;32777;4343;9265;0;32841;9218;32842];
[5541;11291;28747;12559;0;28821;32805;4827;16892;0;0;9318;12576;8711;5963;16885];
[16885;13187;4700;9263;10941;12011;9057;0;28761;12587;8720;0;0;32805;9223;4708];
[28745;28731;0;0;5406;9780;0;16964;10954;12336;28715;9263;12607;12607;28721;10981];
[0;10669;28820;0;0;16852;0;12500;10957;9644;9010;8404;12574;12850;0;17360];
[11403;9082;28740;16746;8322;16541;12835;28703;28741;28728;11750;16530;9365;0;28693;5334];
[28727;28731;16540;28683;16618;28773;12002;8956;17394;16598;13001;11239;28826;10648;32894;12978];
[13197;32833;17385;16700;17368;28694;0;4937;13133;10107;17036;28782;0;0;0;32842];
[0;10668;10667;12489;0;16885;9517;12947;12659;28821;0;8485;0;9510;16908;8322];
[10436;0;10968;28752;28702;17038;0;0;9219;9430;6088;16529;28748;16439;10061;12585];
[8965;16746;12607;16688;10698;13013;16616;0;32781;6232;28817;28709;12536;8549;12549;9626];
[11932;28760;0;16440;0;28724;28692;0;13175;12455;10437;9777;12431;16509;10996;10245];
[12310;12670;13176;16842;10969;0;0;9919;13197;16498;28714;28695;32844;8404;11524;9915];
[0;12645;0;28820;17319;12468;5859;12921;9374;16412;12489;28737;12612;0;28745;10482];
[12787;10947;9002;28785;16492;12860;28680;12456;0;13209;0;12658;28800;12955;9648;12491];
[12404;9657;0;13188;16908;28681;12552;12429;28821;0;9020;32936;4371;8276;17004;12407];
[12777;4508;9019;28674;0;28689;28788;28753;12058;28748;5864;4952;9516;10153;5057;0];
[5414;0;16540;12708;32831;0;9301;0;17116;11357;28709;0;8774;32843;28773;0];
[10735;0;12982;16886;9011;28703;16833;32872;9555;17377;16853;12336;12516;13172;28737;5421];
[8752;8987;13172;11947;10554;16755;17252;12455;8604;12297;5084;16460;17174;0;0;12528];
[28701;10473;0;9962;12682;8957;16598;0;16619;16854;12991;0;0;12835;16776;28793];
[6452;0;0;5036;12860;9861;9322;32843;10184;28686;12728;17069;16607;12633;12442;12754];
[12934;12538;0;0;0;28807;32853;5056;9059;8368;0;12816;9657;0;6237;8759];
[8367;9350;13221;12883;5057;12899;0;16900;9294;17092;17368;13040;16436;10969;32844;12312];
[11776;12000;10437;0;16609;12979;16778;28787;16685;9564;9916;17377;5544;12456;0;0];
[10805;0;28729;28700;9809;17330;0;28818;12323;5979;8720;11267;12539;0;9318;16451];
[28718;0;0;12849;28734;28679;8405;5962;8542;17405;0;28785;12298;28747;11240;12848];
[10475;12909;28697;12480;16595;8477;28728;28724;12420;32845;13051;9309;10437;12442;0;12408];
[28761;9262;12815;28698;12885;0;8468;12903;32794;16845;12440;16919;16779;12476;28719;11057];
[28733;17116;28722;13220;28790;9724;12564;28732;32881;10696;0;28750;5879;12979;0;28679];
[8920;0;28682;0;9147;0;12594;12360;9892;16959;9600;17386;13017;12682;28823;16525];
[28758;9011;0;9772;12573;5086;28824;13211;12912;28724;12456;32804;4474;12848;0;9954];
[5544;28749;32790;0;5429;4717;0;0;6253;12360;0;28822;28749;16756;12597;0];
[28678;0;17041;12511;8966;11539;28748;28728;8767;0;12647;9816;0;28679;0;10668];
[16541;8468;0;28746;0;9002;8739;10338;16978;12968;28826;9510;28680;9219;13096;28823];
[12606;28690;8405;9846;0;12440;12614;32924;16664;28726;4964;12683;12491;12617;0;28728];
[12504;12956;6091;11759;12527;28752;5327;10444;5815;5543;8422;17161;28781;12407;0;12994];
[0;17275;13109;17083;0;12848;16667;0;9648;5544;28762;8621;10778;13151;9011;10528];
[0;12778;0;5345;8460;12707;12688;5348;0;8759;28826;28824;0;5557;28696;0];
[17116;11296;12465;28728;8704;0;0;12812;10735;28796;10411;32792;12691;0;12765;0];
[32842;4971;12695;16530;17129;16917;11001;0;32923;10160;10521;5420;10748;0;28794;17385];
[0;0;28728;12696;28765;17122;8911;9853;9217;28696;32864;28749;28704;17004;0;28771];
[12731;0;12429;28820;16757;28747;11627;17328;12486;17298;16604;10529;10676;12617;10482;16965];
[12804;0;4662;32863;12456;8338;16619;9020;6256;0;17190;28797;32781;5982;0;16918];
[12495;0;12443;0;32845;12588;16618;17397;12539;9728;28762;28690;0;0;12968;9174];
[11076;9909;12407;8357;0;17241;32906;8978;9446;13004;9075;32793;10283;10353;16979;12671];
[28814;12323;16421;28785;12478;12811;0;5063;10781;28713;28730;12563;12431;32829;12767;16901];
[5420;13208;8486;0;9608;16909;10447;0;32794;9984;0;0;0;16913;5085;9609];
[10704;0;12324;0;32895;9916;5550;5550;9620;8424;32820;11468;9809;0;9619;13097];
[12991;4714;9846;12753;12702;9618;12822;0;12524;16819;8469;12324;11956;0;9374;13123];
[10975;12528;0;0;8713;9310;28696;9554;16541;16767;12371;28708;9198;11627;4915;12516];
[28725;0;9075;0;16913;12608;8475;12716;0;28699;12742;28673;17037;9022;12468;5441];
[16676;9384;28740;12621;0;16902;12549;0;12644;8776;8488;28715;16854;12049;0;28782];
[16904;8759;12588;12767;13086;16971;9955;12646;12751;12586;0;28718;4711;12897;0;16911];
[10451;11780;28721;32845;16697;5908;0;11479;9321;9321;6103;12312;12526;0;28817;12468];
[28746;12754;10442;12561;17122;0;0;12633;12967;0;11292;12693;0;5816;12478;28824];
[4872;0;12562;8422;16699;12906;12504;8737;12798;12466;0;10079;28745;12912;32804;16425];
[28786;10524;12432;28696;0;5816;6111;4717;12694;16596;10377;0;8657;0;0;28728];
[16755;0;12896;0;32820;12311;6419;12384;0;28786;12924;0;11712;12980;0;12708];
[10997;12694;28704;32820;5101;12849;28741;0;13121;9367;0;10483;0;12466;32911;0];
[9863;10883;12514;0;28781;5768;12515;12489;0;12456;28729;0;28740;12656;0;0];
[9620;0;32869;17387;5025;12468;0;32781;6266;28774;0;12875;9323;11380;8414;9862];
[28816;12946;0;9900;32911;0;12968;13043;0;9365;12887;17132;28782;12430;9219;16686];
[0;10780;8414;28696;11566;0;5636;0;10443;0;12576;6191;11593;9608;6442;28759];
[0;28720;28734;13097;10283;0;12756;32870;12956;8786;16590;17388;0;5062;12503;0];
[16845;11296;9981;28729;32882;9058;20481;0;28726;28714;16778;12980;5571;13005;0;16887];
[28683;6413;13119;8777;12464;5880;9592;10026;0;32865;11271;13005;17195;8713;0;12906];
[0;12588;12837;0;13015;11182;12452;0;0;0;5396;0;11562;0;10538;17397];
[8396;0;28758;12729;17408;13006;12825;28703;8759;0;8778;0;12887;0;28808;0];
[8776;8767;8487;0;28692;16765;11570;28795;16912;0;4482;12993;12551;11003;10413;12596];
[28727;8767;32831;28745;12700;8784;28799;17043;10539;10401;9981;0;12703;12691;12312;12672];
[28749;0;11375;9863;28812;0;17397;12799;0;13223;10711;0;12619;28750;16921;28804];
[0;11171;12513;16618;16990;11170;12887;4717;10781;11271;0;28684;12588;0;28746;12712];
[0;13219;28749;0;8411;9022;12909;16541;16817;28762;12810;16843;12623;16429;17124;12609];
[28690;5353;16929;5600;12516;16972;10743;32820;5442;9022;12540;0;28678;9649;11565;17210];
[9085;0;12860;9618;0;12515;17060;5064;28759;0;5642;28777;28797;8414;0;5089];
[28704;12612;28690;13005;28797;5208;0;32846;28686;0;11802;10456;0;12564;10539;12669];
[12694;12444;9900;12802;12490;6028;17248;12346;10459;0;28803;11003;10190;8760;12777;0];
[12799;12787;12862;16776;13219;12837;17210;12959;6025;11594;10815;11435;10197;0;17129;10975];
[12300;0;12684;28811;16619;0;9666;10263;0;12611;9616;0;11080;13005;0;13006];
[5353;32891;9076;9963;16921;28707;16413;12418;0;9900;16728;32867;28730;12707;10489;12540];
[0;11386;16721;11673;0;5999;10703;28782;16596;0;0;9648;10411;12755;28747;28815];
[11273;16843;6000;0;0;12970;12391;6109;10158;16607;12683;12440;32846;12704;13219;6005];
[0;12527;16621;12002;9367;12799;11383;28797;28795;12323;0;12683;16529;0;5442;10506];
[0;12622;20482;28784;28786;9862;28682;16904;6277;6130;32829;0;9384;10145;12861;5908];
[0;6157;13077;12478;0;10152;28808;0;12807;0;8438;0;0;6128;17194;0];
[16914;8722;16616;13087;4971;28798;32854;28689;0;0;28827;9375;17045;9509;28689;12714];
[28758;0;9675;0;32794;12480;28696;0;11673;0;8894;0;13007;16609;12550;0];
[0;12549;0;12778;10498;0;8461;17131;11602;4667;17121;32775;12481;28780;12811;10750];
[16996;12490;10739;28786;5572;28750;28706;0;10445;5642;28823;12789;12396;0;10414;32840];
[16777;16756;13003;12391;28746;28818;0;9376;32858;0;5355;6134;0;11600;6279;0];
[0;12595;10783;17269;28728;12443;13017;28822;9265;28708;12791;16777;11572;0;12500;8965];
[28769;16463;9068;28774;0;28763;0;0;0;9676;12712;12635;12621;10214;13100;28772];
[11085;32882;12969;0;0;9021;16913;10206;10217;0;12713;0;28754;28809;28800;11136];
[11049;12572;32866;0;28770;20484;12597;12680;5907;28695;9917;5448;0;11889;32895;6109];
[11824;17016;11573;10115;28800;9918;12623;8899;8488;12319;16972;13145;12598;10176;12744;11010];
[0;28808;9270;6129;10152;28681;17240;28819;0;12694;0;17200;16914;12862;11601;0];
[16825;8723;12713;12715;28798;12851;12561;28770;0;16980;8790;6290;17044;6279;32846;32893];
[0;9218;10407;16904;8768;16972;10837;28757;28759;16533;10975;16621;32838;0;28771;32911];
[0;8787;28710;20482;11009;28771;17275;32831;0;13001;10850;17217;11433;9076;9919;11086];
[20487;10545;28806;28809;0;12887;10193;12323;16663;16846;0;12308;5641;32858;10412;8721];
[0;9078;10407;16923;0;12887;5101;11302;0;32833;0;28754;12943;0;10758;10152];
[32882;10505;0;8440;28760;12348;28680;12864;11430;5448;10538;12719;17052;17203;9901;12660];
[28782;10493;32846;0;12636;28757;12490;11004;12896;11640;0;10451;0;12790;0;10497];
[28723;8459;9021;12956;16912;13007;9068;12900;0;17200;0;16914;9088;0;32868;28746];
[11004;12480;10803;10074;12516;6006;0;0;13019;0;0;12672;0;9255;8488;0];
[12908;12610;0;16930;10547;0;11480;6306;9862;0;28748;16934;12979;0;0;12657];
[5095;9946;0;6334;9256;28737;9686;8490;0;12550;28718;16982;9685;0;0;28811];
[9948;28747;6307;9684;28749;12382;0;9948;0;13111;0;9067;13123;13222;10787;0];
[28796;0;13146;5485;28789;10152;13099;12754;11042;20483;28781;28783;5856;12705;10502;9087];
[11012;10160;11569;10747;28696;0;28785;28748;11134;0;17201;28730;4193;12672;0;9563];
[10152;5064;16834;28752;12488;28760;32807;11832;8414;0;28749;9141;0;12528;16835;5644];
[9021;0;32805;8636;12611;10835;8368;12588;12959;0;28781;9974;0;9869;10553;10743];
[32879;12917;0;5649;5578;9618;28699;10199;11838;10116;0;12849;10246;0;16935;8667];
[10544;12983;28753;32806;8379;12621;11111;8477;28801;32930;12492;28684;17000;12648;5815;28748];
[10543;16686;28720;0;16991;12914;16910;12657;16677;12612;0;10573;8723;28751;28683;12788];
[11115;10459;28762;12776;12716;0;9480;16617;13066;32807;5874;12791;9854;32904;0;16659];
[8295;17227;0;32869;12034;13136;0;11046;0;20483;10510;0;8469;12921;9676;8918];
[0;16835;12598;6165;12693;28773;0;0;5643;5638;17273;12888;8489;12635;12778;9853];
[0;28788;12670;12741;0;12942;32869;13052;28681;12718;12622;32895;12672;16989;17286;16700];
[12916;0;17210;17072;12823;11303;12861;28773;12575;10497;28791;6419;12588;10504;28682;17277];
[13007;16903;12312;12992;12852;28764;32846;28762;9687;17202;4667;9965;28802;28797;0;13078];
[13033;8384;0;0;12708;0;0;12803;12852;11926;12792;32920;10494;17207;12609;8397];
[12528;11358;12454;28807;12551;11303;5058;32875;16925;10413;0;6005;28685;8424;13019;28764];
[0;12696;9358;10468;12791;12479;12918;0;10750;0;12839;5478;4736;10490;0;12028];
[0;11848;9430;28797;28757;28679;12738;28822;6133;0;28790;13174;8883;12356;0;17269];
[28692;11093;9601;0;28728;16412;10976;0;12563;0;12886;0;5615;0;0;17057];
[9569;13053;11602;17072;17201;9863;0;28703;11889;10792;16620;12777;10788;16974;11833;12620];
[12671;0;8570;0;6417;11394;28750;13146;12420;12501;9971;12627;32933;12708;0;0];
[13186;12600;12647;20489;12912;16855;28752;12369;0;12851;16845;0;8480;10215;12480;28775];
[0;9965;32857;5660;9021;17202;0;28735;10806;17094;28721;12819;17398;12907;10503;17060];
[0;32918;17011;12692;0;0;28721;6132;13017;28785;16846;0;6306;10496;0;10562];
[10758;12564;0;9088;11402;13100;0;12297;32905;20486;28742;28797;5485;12539;16779;9020];
[12658;28740;28797;11103;0;12691;12887;9088;32881;32884;28754;10573;13008;11450;17327;11684];
[0;12683;0;0;11683;9383;28781;13111;6377;32857;32845;13187;12763;11091;17289;12706];
[11087;12888;11357;0;12694;28786;0;12896;12456;10558;28684;9320;0;0;12923;10889];
[0;12804;10246;28809;32807;12336;32858;12812;0;28724;16887;13032;12479;6372;16832;0];
[28718;16964;0;8479;10714;12960;28732;28737;0;28794;4200;32815;5607;17053;13088;32857];
[11087;12707;8853;28738;20488;12813;0;20483;0;9440;10512;13123;28776;28720;28809;12563];
[11601;11394;12716;12701;12900;13063;12921;12706;28773;28687;28730;13051;0;0;4373;28749];
[17274;8785;0;32931;16576;12622;28765;12416;5615;8490;0;6036;12858;11093;0;16983];
[12692;16923;12670;28811;6350;11844;10260;0;0;0;10512;0;12465;0;32930;12551]]%N.
Definition LOOKUP_13 : list (list N) := [
[13020;12635;12540;32907;6420;12888;17272;12490;28811;10460;0;0;0;9592;9900;12489];
[28810;10998;12504;9964;0;13041;32854;10804;12359;11356;16507;4973;32830;9190;0;11890];
[13044;28808;28742;28776;28730;11411;11349;32846;17132;0;32870;11862;12429;17202;32820;6339];
[0;11304;5914;12900;16779;0;13051;11095;28786;13124;32880;0;0;17387;17007;16991];
[28785;10461;28696;28732;0;9686;12812;0;9592;0;0;28771;12552;12824;11844;12943];
[11394;11710;12993;28695;12971;13037;0;13087;6202;28787;10561;12932;12900;9078;32832;10262];
[10839;12706;12795;17004;20486;9377;0;16925;17070;12800;0;13074;17410;11158;12478;13100];
[32892;9311;13116;13222;0;11091;28749;28764;10758;11867;8479;0;9686;17159;17052;32892];
[11410;32820;32929;16992;12778;10814;28741;9672;20488;12875;12624;17158;12334;5087;13090;12623];
[13019;0;0;12463;11602;32871;16982;12813;12624;28740;32818;10280;11655;0;12442;0];
[0;12922;28766;0;16934;9376;12488;0;16767;6035;9984;11972;32895;12454;32921;0];
[28677;13126;0;28806;12742;28762;10869;10797;9983;0;28795;13199;32893;0;12908;32880];
[0;12815;32906;12428;0;28711;13074;28809;0;0;12959;13136;0;12992;16936;17332];
[10553;11864;32905;0;12932;17061;13041;12696;10852;11440;16935;0;11058;10796;0;6371];
[28746;10759;0;6433;13008;0;12717;5652;12033;17003;0;9973;13031;32897;11268;0];
[13113;9077;12575;8992;11349;12943;12405;16857;0;13175;12335;13018;0;8777;12407;0];
[11357;0;0;16604;17158;16933;12932;12813;17283;28797;11974;13112;10813;12960;10116;10860];
[11481;0;28766;12814;28751;17282;13007;0;32921;5616;6374;8719;11088;6312;11395;17241];
[12908;12960;12801;9687;6044;6165;11690;10461;32843;12905;11168;12609;28783;10254;12957;11058];
[0;17278;28794;0;12932;10497;12623;12778;0;28794;11050;0;0;32833;0;28741];
[12910;0;5660;28766;10237;16924;12896;28684;12944;10199;12876;0;28731;0;9377;0];
[9087;11095;16933;0;9984;13151;10514;0;0;16935;16463;10247;17060;17149;28741;0];
[0;20485;9908;0;32856;12932;13020;12672;11159;12934;16924;12600;13176;12959;0;12612];
[12850;12884;0;11700;28766;10583;9964;0;10254;9684;11481;16879;0;32871;0;28784];
[17220;17251;28766;16936;28746;10190;28706;12864;0;8476;0;32844;8789;0;5650;20486];
[32893;13124;17280;12372;10516;11611;28755;0;16808;28776;17001;12564;13020;11402;11685;12504];
[9686;28689;12611;12476;16993;13169;17071;0;0;8788;12932;28771;0;0;10216;10262];
[12079;9019;9358;17174;11105;9685;17220;11685;10815;28793;16603;17011;0;17297;10254;11104];
[8388;13075;13019;10461;16666;28788;8977;9561;9181;13037;0;28739;16856;12718;10797;28809];
[32807;5702;32932;0;8470;17001;32859;13139;28732;12598;11610;9367;17080;0;32871;10262];
[11357;6384;6313;9684;32906;12648;10162;0;9601;6166;10507;17002;12684;6040;16992;9676];
[28702;16699;0;32776;9433;12995;17219;0;10208;0;28732;17219;16856;12707;6341;9078];
[17003;28732;11632;0;10461;13164;0;0;17140;12562;6377;17004;28796;12921;17228;16576];
[17070;13140;11690;9985;13018;9909;10567;32845;0;6037;0;17247;16923;8320;10216;11467];
[0;16914;10805;16936;12862;13064;0;12732;10574;28732;17289;10572;11114;13020;28781;10517];
[12600;11900;17053;28747;0;13051;0;8488;0;13139;32867;12921;32856;9955;16835;13150];
[28777;9544;10461;32833;12932;28809;0;12720;4487;10805;12900;28686;6218;0;0;13164];
[12783;0;16934;28807;11171;28806;11450;0;0;12791;12933;0;28731;9919;0;32869];
[32859;12933;11975;12033;16778;11357;13140;0;0;5661;32846;0;11458;11779;0;0];
[13100;17072;10814;0;12483;12620;11988;6203;11081;11412;0;11447;28788;9727;17306;12958];
[10505;11608;0;6166;9618;16463;12959;32806;10172;0;32906;17239;13020;12815;10216;28755];
[6203;12923;6440;13220;28720;4998;6395;17002;32881;4909;5677;11902;12623;6350;12876;17014];
[12624;10760;12983;6211;11112;9888;0;12888;12945;17289;32814;28807;0;13157;12708;32932];
[11710;13148;17001;6044;32932;28800;12719;17001;8785;16725;9599;4382;16461;13157;0;12812];
[12767;17093;11441;9965;32805;16670;32882;12812;12946;13092;13148;8424;28730;10580;32777;4407];
[28799;12708;12032;0;28700;28768;0;0;13146;12707;13148;0;12695;32906;32879;16585];
[10562;11113;28808;10797;17282;28825;0;6424;0;0;13090;16991;6175;28718;12696;12791];
[32859;9321;9087;11442;28820;0;16586;0;12824;28794;13042;32884;0;0;10878;32923];
[13194;11403;12943;12588;32906;0;10870;0;0;0;9375;16508;12887;9489;10860;12522];
[10208;11205;6441;16643;28747;28760;17248;13028;0;10217;12780;17012;10751;17174;28760;12719];
[11411;32838;10281;28795;9687;4252;13089;17071;28761;12983;28788;0;10516;11740;8789;12706];
[28809;32870;13100;32936;16913;20487;0;12571;12923;6341;28767;12540;28796;12851;0;12320];
[16577;28806;12882;0;0;28691;12012;10217;28696;10162;12744;12881;10853;11648;28760;8490];
[20481;9854;28746;11442;11403;16737;28724;11178;32846;11656;6042;11358;13052;13074;32895;12335];
[0;12839;17239;17012;28821;13150;12664;11447;28753;17331;6342;28767;11702;17238;0;0];
[28688;28773;12405;6174;28800;12552;20481;12513;13052;10264;32882;12466;12321;10576;28760;6433];
[17160;0;13151;12993;17092;8790;12312;12634;5289;12756;16672;17318;12468;6441;0;0];
[0;28731;11701;12624;9807;0;6350;11655;28731;28823;17071;20489;28767;12888;0;12378];
[8319;32882;12345;12813;11709;28809;8789;0;10578;17132;9321;12921;12790;0;0;10460];
[16992;28709;11872;16490;0;10243;0;0;0;9599;10461;0;28824;6380;13052;20485];
[16914;12972;11412;0;8709;0;0;0;0;11656;28740;8859;0;12852;10751;32790];
[17132;28786;12840;13063;6212;16914;0;28759;11780;11703;9687;11442;32856;0;9087;0];
[10759;13151;13065;12887;12983;12774;10517;28759;17171;12791;11693;32883;0;17012;17090;12923];
[13006;8975;32932;12514;17013;17411;17297;28750;8635;28745;32854;17150;28776;0;6433;16450];
[0;8349;11749;0;12480;12824;11937;8591;0;10515;0;12912;0;32932;11059;11703];
[9844;17016;12814;0;0;28811;0;32932;10751;28730;32918;28823;12564;0;12910;12922];
[12768;32846;0;11648;0;0;0;0;12900;0;0;12911;13147;12551;0;10516];
[13197;12670;13064;11358;28738;10861;6045;9388;13029;11656;0;12945;32820;28767;0;13064];
[12515;10580;32917;0;13031;6220;17160;0;32820;13040;17317;32897;12444;12720;10815;10573];
[28774;13089;6342;13031;11702;17307;0;11460;11467;17348;6175;16406;0;12611;13182;12826];
[17015;0;11159;32816;13090;32932;13041;9388;17001;28697;0;28785;10272;17014;11403;12933];
[12756;0;13092;0;0;4410;0;0;11413;32893;17081;0;0;0;16779;0];
[12911;32805;16434;12971;9675;0;8532;0;32819;6045;12581;32907;11050;13224;9084;10861];
[17290;12048;17015;28820;0;0;10507;10861;10045;0;13032;28782;8904;11679;12996;16684];
[11954;6440;6212;12923;0;12816;17219;32922;13171;12911;10806;11871;13173;16654;6220;12475];
[16587;5201;28786;12804;12648;11702;12395;10217;9376;13090;28757;28750;13149;13030;12079;13017];
[17015;12816;8883;10871;28821;0;12899;6351;0;6262;0;0;0;28795;13062;0];
[12792;16428;28805;0;32789;10563;0;28745;28809;13041;0;11946;28680;32828;0;28821];
[11479;10515;12909;12945;28805;13075;0;11458;10579;28710;28773;13019;4373;17240;11105;10268];
[6220;17015;0;10282;32833;9767;11414;0;0;12776;32896;28797;10804;12630;4399;12921];
[13008;13065;12934;28822;11160;0;13076;28737;28806;12948;17159;17170;4423;12380;13043;0];
[0;10217;10516;10870;13140;28802;32829;12527;4799;12888;32884;32868;10507;10814;6220;0];
[12660;5190;10562;0;12732;0;0;28704;16507;10517;28733;28674;0;6220;11460;0];
[8694;20487;32872;12393;17318;0;17015;0;32778;4548;16507;0;6385;28685;0;0];
[17229;12696;10582;32867;32872;0;12675;12647;0;11096;0;6441;13043;28820;0;10517];
[12727;28800;11776;10861;17092;8307;9387;11759;0;13064;11105;8947;0;13076;10879;9085];
[0;9216;17290;12321;11460;11741;28685;13183;12588;4594;12852;11703;0;32868;0;11776];
[17158;10922;28798;13162;16832;0;28790;8355;28715;17082;0;16933;12984;0;9514;0];
[12803;32859;13209;32806;9305;12816;0;28797;0;17016;13176;0;0;12355;6220;0];
[16815;28812;12779;32831;6220;0;17307;11901;11702;12731;16937;20486;17013;0;12540;0];
[0;11478;9687;9986;13001;12660;13137;13152;12900;11459;0;12592;0;12814;0;12684];
[28698;8555;10563;12358;12958;28684;32917;10563;8278;11953;12771;10572;32907;10815;16991;0];
[11746;12920;12310;9388;13168;0;9472;8283;10516;0;12744;12804;10282;8314;12909;28725];
[17015;11403;0;12934;10274;10554;20489;0;9179;28726;0;10881;13159;10517;0;12394];
[17249;12876;12636;12895;32779;4844;32838;10573;0;32906;8250;0;12343;17161;12816;9646];
[32817;12921;28775;0;12297;17083;28692;12564;0;32846;12040;12720;13169;13171;17016;10322];
[32846;6442;28688;0;0;28697;17091;17318;11414;8577;9616;8458;4644;6452;28733;9982];
[17350;12924;12664;0;12345;0;32818;6396;0;28774;6387;12333;10162;28809;28690;17093];
[10880;17330;6221;8905;17363;10573;11757;6451;11477;32897;0;0;12528;28674;28706;0];
[12665;11114;20482;11404;11411;0;13194;12923;12588;11479;10870;6388;0;12592;11938;0];
[0;0;10282;0;6221;11775;28718;5850;12009;4866;16420;10581;10273;8491;0;11169];
[0;28748;12378;13030;16814;13139;11170;32828;11114;28819;12299;13030;8789;12911;8942;28739];
[17239;0;0;12924;9146;12923;16779;32780;5115;28706;28780;0;13152;20482;9750;12851];
[13018;0;12404;16690;16456;0;9585;0;28743;12404;12923;12358;12064;0;12322;13054];
[11749;20486;32790;13211;12732;17348;12760;12380;28709;0;8694;11161;11657;12790;0;0];
[32780;5123;28768;20482;13065;12039;8284;17307;12001;13114;28714;0;13174;13135;0;4804];
[12629;0;12664;0;5252;12462;16528;13207;32872;8354;13053;17327;8251;28675;4840;9377];
[11759;0;17249;0;13184;12405;12792;12451;12038;12803;0;17012;16822;8635;9241;0];
[0;9260;12324;17196;13207;5241;28750;10283;0;16597;16922;0;12404;13101;5167;0];
[0;28805;8961;13076;13029;32790;32909;17406;10285;28713;10582;4651;0;12708;5371;12790];
[5196;9300;16934;32855;13077;12298;10584;16746;12718;28749;0;6451;0;6380;28700;0];
[12522;8694;10581;10284;0;32919;28818;10264;12500;9671;0;32818;28812;0;13008;9956];
[0;0;9257;12500;6351;0;0;4458;28737;6221;0;13008;12656;16536;12804;12852];
[28720;10862;16993;12592;10900;11989;12564;28693;9510;12492;11758;0;28784;10282;12056;0];
[8577;32818;17249;10880;32794;12893;12726;28754;0;6442;0;17411;0;16595;8344;11711];
[28826;10284;32842;12048;12489;8336;4439;12691;16693;17329;12684;12056;12688;12865;6451;12489];
[11757;12524;16825;13031;12920;5371;0;12664;8621;6397;17298;4394;16945;28682;0;0];
[0;28704;0;12405;0;12588;16439;28684;8905;16451;32872;9218;12008;0;0;0];
[28743;12707;28814;12503;8961;11161;17353;4587;10563;0;28770;10879;17014;12001;16935;28775];
[12802;12655;28809;12629;0;10871;0;13104;11480;0;0;12000;8491;12594;28807;28721];
[12443;28757;0;12345;0;32827;17062;0;12418;17092;9771;12720;28774;8689;28823;0];
[28711;12334;0;10506;28748;10573;16841;12763;11749;4442;28716;0;16527;28763;12845;28799];
[28700;16598;16991;32937;32872;32781;5697;12550;9582;28796;10584;10327;11468;0;28728;12297];
[12784;9750;11992;0;9298;12380;0;12732;20487;10217;0;12760;28798;0;16834;28735];
[32780;5497;16530;11768;0;28705;12429;9181;12984;10142;0;28675;13031;16447;11767;16722];
[0;11712;12695;0;32918;17093;12611;0;8698;9540;28711;13221;12677;12335;32828;8321];
[11197;6221;16438;12407;13139;32790;0;10904;16754;11170;12039;0;32793;9217;12786;0];
[12347;28756;13032;11955;12000;28786;28748;0;17328;12395;28805;28790;10881;28709;0;8571];
[28756;28737;6045;0;0;12002;0;13032;11910;8656;16649;9248;28706;12857;0;32818];
[5361;20484;12067;12439;16666;13128;12532;10736;12881;11954;16925;32852;0;13148;16924;32840];
[28723;32792;12785;28821;13217;20485;6452;0;13032;0;17298;28677;13054;5184;32841;13196];
[16455;11758;28724;28786;16413;28815;0;0;12535;17250;13115;32791;12406;13019;0;13147];
[16729;13103;12924;13188;0;32792;0;0;12543;17172;13041;11735;16658;9008;0;12055];
[16925;10584;28754;6451;0;17308;13077;8999;12972;12440;13160;12074;11478;16526;13151;12309];
[8366;0;13183;4988;16525;32818;12654;32919;5225;9589;13044;28748;8284;0;0;11999];
[8583;11946;20484;0;16665;32921;16666;28744;32844;9204;17083;0;12299;13077;13128;12475];
[0;28805;20481;32806;9297;28728;0;28707;20485;28766;0;11035;11468;12859;12077;12407];
[0;8649;32895;16529;11450;12000;0;32911;8357;0;32883;0;12603;13156;11955;28768];
[28791;8319;8619;17398;13161;0;16755;8883;4602;17016;0;9016;28768;10049;28708;12912];
[6443;9480;0;12479;12358;12910;13032;13200;32895;17318;0;13137;12010;5380;28812;17230];
[13150;0;12048;32804;4661;0;0;13140;17308;0;28739;13162;11955;28807;0;28812];
[28758;13116;12898;28743;0;28717;12563;11481;28722;0;32883;4761;11228;12750;32794;32805];
[12867;13092;10347;28808;32805;5008;0;13198;0;5257;32807;12300;12953;10332;11910;28748];
[12727;9540;10636;4856;10379;13184;28744;9481;28690;0;13044;28705;28732;10468;0;0];
[13219;8350;8390;12334;13184;13128;0;6396;16755;12945;11955;0;16808;0;0;9540];
[0;0;0;10642;12300;28754;12792;13196;12011;11759;9293;16894;12959;4903;12419;12834];
[28818;16518;16853;32934;13114;8457;32871;12644;0;32806;5430;8883;13151;11993;13196;12864];
[28824;0;13091;12381;0;28822;13076;10936;28824;12420;12406;8993;16530;32920;0;8656];
[28705;11711;11955;0;28722;12585;11758;5009;11909;28678;0;8420;0;0;10285;12076];
[28697;13152;16756;5312;16753;28724;28749;9298;16598;5005;0;12881;12419;16776;11993;8650];
[0;12300;12393;32791;16608;28681;0;8613;17328;13104;32815;16858;8314;0;0;8411];
[16696;32832;12406;12463;28765;12996;0;8963;13196;32898;12394;11777;13173;0;13013;6442];
[10385;10872;16815;0;8656;16746;12488;10941;10554;13184;0;10583;16460;12521;9687;16529];
[0;0;10881;5785;0;12945;6451;28748;13188;13138;0;0;12336;13040;13208;10572];
[9375;12655;0;12428;0;13174;13218;11494;0;9355;12463;12524;10127;17241;32896;12057];
[0;16542;10583;5024;20485;9839;28778;28724;9682;11777;28714;8277;8720;12344;17249;13175];
[0;13044;0;11216;12785;28759;28768;32840;12464;9843;10264;28723;17239;12487;28702;12572];
[0;17330;17161;13174;28682;0;12075;12452;5299;17385;12964;12667;16620;0;28780;28747];
[9016;5150;0;8650;28736;32820;0;0;32920;9481;28739;5516;28810;0;12688;6442];
[0;10094;11956;13164;16658;16823;12834;12953;4457;12395;0;32779;10418;13196;32780;5385];
[28773;0;28713;8956;16823;0;11180;0;0;11910;8682;10760;28721;28821;11479;28825];
[0;0;11291;10584;12631;12751;8367;28797;9641;12644;0;5784;10264;6452;12786;11955];
[17241;0;16527;8919;11955;12840;11954;0;12001;12526;9481;12774;9049;32884;13197;28676];
[8695;17359;8986;13211;8613;0;13162;12336;32832;11495;5300;9248;17174;0;12383;32936];
[6443;6071;32871;16620;0;16765;10049;12443;20481;8321;0;16449;0;0;8719;0];
[9293;8920;16934;0;28740;17395;28744;10101;12575;16518;12644;12524;5781;0;0;10968];
[28694;0;12784;28739;12538;12407;12977;12478;10355;28758;28716;5698;9343;10130;32793;0];
[13109;11436;0;0;13208;12572;8710;16618;12464;10941;28695;16696;17151;12667;17368;0];
[9063;12477;0;32806;5392;12984;9884;32804;10935;10776;28691;12643;10050;12740;10099;0];
[16440;12595;11778;8463;16913;9293;28713;0;0;12066;9860;12526;16923;4619;12476;4928];
[0;0;0;28760;12561;16449;13031;13133;9852;32933;28775;0;0;32882;0;28758];
[12906;12561;28703;12324;17162;0;28821;10069;4693;12611;12763;12847;28760;12076;9049;28694];
[12921;28691;0;13043;11272;4930;16586;28796;28741;13014;12474;12322;10344;12896;13040;32820];
[13208;10641;0;9970;12595;0;32920;0;0;32937;12690;16519;8446;28726;9855;0];
[0;10070;0;8438;0;4619;0;28733;6336;16687;12360;8451;12066;12556;12324;9211];
[4458;12763;10571;8875;0;0;12572;0;32846;10385;12407;32884;32819;12923;0;0];
[16598;16688;12527;10389;12560;12552;0;28749;16440;5331;10133;8949;12835;16509;13208;9010];
[28680;12549;9063;12066;20485;0;0;9057;9906;10426;0;17377;0;12489;12804;12467];
[32832;8420;0;0;0;16530;12078;4932;10657;17376;12815;13044;28679;28709;9980;8605];
[17331;28739;8703;32884;8956;12955;12420;12488;12465;12986;0;9003;28760;0;0;12336];
[32791;12465;8937;13174;9218;12859;32792;12057;10392;8367;28780;32807;6070;0;12786;0];
[12572;0;0;12076;0;11170;0;28818;28679;0;0;5029;9019;28678;12667;5471];
[12500;12708;12057;16588;12466;32831;5526;28702;28678;12632;12525;12011;0;32882;0;6230];
[8784;16460;28686;28759;28679;12369;0;10244;8424;16598;13032;16675;8956;28735;28679;11768];
[12564;0;10346;8404;12728;12894;12358;12465;32923;32846;16451;10137;12632;10417;6058;32919];
[0;17241;0;0;9915;0;16775;9481;11460;12515;12345;28823;10955;12632;32806;9284];
[13218;5257;17376;13104;12680;12297;12886;13066;16833;32880;16437;0;5543;12049;0;12312];
[9294;0;28704;8358;28679;12467;12443;5855;8665;9350;17239;9073;16607;32820;12503;12299];
[8366;0;13196;16667;28706;10838;32881;12644;17405;32871;0;4937;16925;8405;0;16541];
[17396;4689;0;32931;0;11955;28682;16448;0;0;0;28735;9294;10953;28818;0];
[10958;32895;0;0;28703;10138;11993;13209;0;12419;20484;0;0;16832;8453;17387];
[20488;12002;0;16540;0;12859;0;28676;13162;8351;12001;8405;12443;0;16937;13176];
[10972;28725;16766;0;9860;8412;17016;8665;12562;17405;9136;0;8956;10422;8468;10272];
[0;10951;12336;0;0;0;17369;0;20484;12888;8758;28750;0;17375;0;0];
[10476;16687;0;0;16892;10183;12527;28673;9076;32807;8484;11778;12612;12977;11508;0];
[13108;12077;0;17395;12765;12547;28737;0;16685;11137;28681;32806;5337;17211;0;5798];
[4936;9780;16843;12467;0;16685;8459;13176;28691;9428;28778;32805;11234;28712;28715;28683];
[28745;5253;12368;13162;16776;0;16528;12467;13197;5037;28715;9144;5046;28761;12058;12309];
[0;11780;12360;20481;13091;0;28740;16657;16676;28823;16421;11590;16607;0;0;0];
[16447;11096;28737;12466;0;0;12835;10092;0;16498;9877;32820;0;9915;12802;0];
[28789;5530;12644;0;9020;12079;16770;12573;32885;0;6089;28695;12455;32898;9369;28740];
[11412;28728;28822;5950;0;12456;12848;9906;28728;28818;13104;11750;16953;0;5543;9642];
[9863;5799;0;10370;9219;0;0;8995;12323;0;12010;28824;28750;5535;0;28769];
[16427;0;28726;5318;9898;20481;12419;0;4708;12967;4695;5058;16463;8459;12076;28750];
[12536;9642;32846;5316;12847;28760;17387;0;0;0;16778;16460;16775;12681;0;8758];
[8322;32852;12656;9349;28772;8277;10199;5086;10472;0;0;4722;32841;32842;9510;5544];
[12455;0;8703;32896;11777;4689;10465;0;28709;4408;8784;0;0;5855;12535;10573];
[13140;16539;16777;12611;9518;28778;12740;0;9671;8486;4683;12011;16924;0;0;13164];
[16777;32832;0;10430;13115;28729;16619;5946;17308;8421;10364;28726;17369;5814;8621;0];
[0;32833;16541;32806;11533;32936;5539;28824;13011;10181;5413;12574;12897;11571;32805;4953];
[13104;12739;4707;10980;12408;16508;9553;12572;16618;16540;0;9545;8334;9915;9555;0];
[0;12575;5863;16937;0;28745;4944;16853;0;0;28745;8703;28691;12348;0;28726];
[10101;28750;12537;10659;6024;9011;0;28746;12765;16963;32791;4709;12618;13173;16449;12910];
[0;9294;12607;0;10488;32853;12312;16542;0;0;10229;5036;10947;8964;4700;32843];
[12681;5965;17083;12561;12607;10472;0;13220;28748;28762;6274;0;32830;28722;16540;16528];
[4195;12551;0;9981;12324;5084;0;9945;12615;28733;9909;16608;0;28678;9682;12343];
[13055;12468;9074;10436;5047;9892;32794;8965;0;16439;28708;12584;8941;17397;0;0];
[32781;5803;16542;12695;28741;12466;10436;10667;28674;6249;12740;0;12777;12057;10400;12467];
[12554;28809;0;12763;8476;8720;0;10111;32922;9386;10518;0;28773;12947;28746;0];
[12467;20483;13043;5420;12670;12444;17093;10958;10371;10862;0;28818;10138;12010;12766;28784];
[6154;5555;11240;0;8469;5036;28719;4962;16898;10668;10781;12067;0;28695;0;12431];
[5413;0;32804;16661;9563;12979;0;12528;5036;0;4951;0;28695;10012;28773;0];
[8322;0;17190;0;0;0;12462;12360;0;12432;32830;12885;12479;20481;12058;11246];
[32909;28708;10371;0;0;0;9067;0;12066;28738;9744;32807;6257;32846;12845;0];
[11256;8964;16900;0;12523;9020;16919;8759;10143;32780;8668;10966;12001;28800;8776;10184];
[13053;12479;17386;0;0;12480;12428;10076;10342;28738;12681;10230;12536;17386;0;9809];
[13199;12606;8421;9892;0;12610;16892;10183;12766;10947;17172;28718;28823;0;28733;0];
[11535;12777;16440;0;8584;8957;28761;28707;12564;32842;4943;0;12312;10967;28801;13172];
[17386;0;13008;9780;16843;12967;4199;28705;0;28822;12563;5197;5542;5869;9791;28808];
[12298;32830;17036;12489;28700;20482;10736;28737;12656;5595;0;9547;4961;0;9517;0];
[0;32831;0;9301;28809;17038;20484;0;10779;6097;9058;17407;4614;12432;0;32852];
[0;8666;6135;28742;0;16893;0;5338;0;9058;11328;9256;12454;13116;28713;0];
[12076;0;9954;0;12754;16450;28752;13092;17035;8767;16687;8658;12535;11533;12645;12539];
[12860;0;20486;5058;0;12467;11694;12991;28730;16756;12691;0;13108;9265;0;28746];
[11713;28726;16686;12552;0;12955;0;28747;16584;12681;10573;0;32845;16845;16619;16700];
[8485;16542;12563;16529;0;16540;16461;0;16440;16684;28747;0;12428;10371;12406;32844];
[0;0;4965;13042;12467;12456;10996;10528;12849;16687;11411;8391;12752;16900;17253;8486];
[17377;8759;12372;8785;0;5875;12502;28781;11034;10998;28679;28681;28684;10105;10735;0];
[9547;0;9058;12668;28729;13200;12538;16886;0;12910;9809;12924;12551;0;28773;28683];
[5424;0;0;12442;16537;9219;17190;8469;0;32833;11804;28681;0;12669;8666;11246];
[11268;12885;28782;16892;17396;0;12825;8421;16778;5972;9085;12787;12487;12504;12884;11268];
[8658;8767;8752;28761;6260;12852;16910;32843;28803;12911;16894;0;10050;11537;8767;28760];
[9780;0;12787;0;0;8405;32843;8965;32792;16696;28706;10699;12390;8413;32794;28729];
[32833;28738;4184;9182;28695;12679;0;28702;12633;10239;5058;28701;32897;28736;0;28708];
[16569;12528;32920;0;9561;12657;9619;0;9859;9263;20483;20485;11294;12764;12900;32932];
[5327;17407;11034;13030;11333;0;16854;17411;16458;10139;6278;17037;12320;0;12468;13163];
[28680;12384;12874;12933;16419;28770;5968;10400;0;0;28719;0;20481;5595;28784;9962];
[9365;8759;0;12588;12549;28730;9002;5349;12991;11171;0;5121;13151;13098;8468;28773];
[0;12618;12011;28827;13031;0;5349;9861;8321;12418;5172;10437;0;0;0;12886];
[0;32794;28679;9879;16583;12444;0;12779;12778;0;12357;0;12587;8468;12357;17117];
[0;13019;10781;0;0;16965;0;16541;17377;8723;12634;8405;17115;0;0;32881];
[17386;16983;13175;0;10732;5973;10531;9609;12708;28783;0;10523;0;11701;28750;8721];
[0;10734;8712;10780;12739;28806;5087;0;5544;12886;9318;5470;12572;9562;32856;12680];
[0;16618;0;0;12727;10106;13112;12703;12836;9311;12816;17387;9020;10253;12812;17408];
[0;16462;12538;11374;5632;16902;0;12982;0;0;32853;11451;12779;17407;5879;10239];
[10439;32832;12609;0;32842;0;5972;28701;16832;10161;6096;0;0;8667;32897;32844]]%N.
Definition LOOKUP_14 : list (list N) := [
[28774;13147;11701;10114;4923;12491;9610;12743;12561;0;5987;28728;16854;0;0;12454];
[0;13084;28691;12860;32792;16606;11080;0;0;0;28746;11539;5550;12828;11032;28760];
[9817;12468;12431;10699;0;28732;16746;13007;11030;0;8767;9981;12804;0;17407;12980];
[11545;5908;9086;28818;32844;12895;13002;11079;0;28756;12456;11673;0;0;0;28817];
[9610;12701;12619;13145;8478;13212;28728;10758;12797;12671;8368;16894;6278;11374;5550;12827];
[32845;32819;20482;17378;0;28824;28766;20482;8487;11554;10078;6269;11565;10413;12692;0];
[11374;16911;9087;32845;13126;12788;12885;17396;9620;16912;0;10188;17407;5569;28749;12599];
[32854;0;6101;12702;12789;8776;8413;12608;28732;28729;20481;0;9899;0;0;28729];
[28747;12899;9619;0;16766;6029;12379;28746;0;28736;12792;9610;0;6279;16919;13014];
[12692;32898;8359;13186;12886;0;6219;0;12582;0;0;0;0;28765;12488;0];
[32776;10296;12516;32864;16887;12585;13133;5571;12356;28706;20487;9892;9899;12404;12513;12905];
[0;9321;16451;12618;17220;0;32790;13007;0;10782;0;0;0;0;0;12420];
[13098;0;0;11545;12981;12668;0;10538;0;10145;12885;9817;12896;5895;0;0];
[28762;16463;13004;5879;0;12419;10159;11590;16923;10450;4561;9981;0;28797;10532;12828];
[0;12885;16428;10377;12693;32930;9619;0;12475;0;5062;16767;28758;17129;32793;28777];
[10440;0;12691;9862;28704;20486;0;12967;12672;17050;17251;0;16902;12863;12372;10675];
[9011;12862;12369;28678;28718;13004;17123;12513;16619;5979;12503;28758;28767;0;10742;9311];
[17095;5468;12684;12970;6191;0;9148;0;9665;32865;12633;0;0;12576;0;12561];
[0;11590;13110;6026;12609;0;12994;17332;5257;0;0;10815;17398;10640;28727;13133];
[13110;12444;5990;28673;28696;9067;32859;16460;0;12804;9043;5886;12575;10781;8375;0];
[10457;17398;13030;17062;12078;9384;11564;9916;12335;17004;0;0;0;13133;0;0];
[16965;17410;32807;6273;16767;11297;13199;0;12683;11567;0;12396;12796;5442;32804;10388];
[12346;16971;0;12731;32863;28682;0;13004;12468;8350;0;8304;12768;28763;11735;32863];
[6103;0;5571;10974;16986;5903;5061;11378;17320;0;17387;0;0;12967;9549;0];
[9610;0;9665;0;6130;28748;10674;12920;12520;0;12897;12324;28679;20487;17121;0];
[11430;12656;12525;5637;9058;28812;10738;13146;11303;28734;28749;0;9066;12525;12360;32897];
[0;10939;16816;4717;12993;12957;12898;13020;16912;16542;9321;10378;6071;11088;6117;12012];
[9068;11080;0;9086;0;12779;10245;12840;12320;28748;17377;12715;11826;32930;12802;10704];
[28713;12656;8621;12873;0;28790;12620;0;0;10197;12703;16904;32833;8621;28731;28760];
[16894;28718;9384;12612;9674;9676;20485;17331;10155;0;8477;0;0;13087;12396;12740];
[12905;12885;9255;28762;17407;28746;9900;4775;5886;0;0;28728;12714;20486;12981;0];
[16586;28772;12454;13122;0;0;10743;9657;16697;5445;6275;0;12684;12896;8433;12768];
[28687;12372;12432;9374;10838;0;12702;6330;0;0;11036;5979;11545;12300;10740;11379];
[17411;12839;0;9863;17052;0;12897;11830;28727;13002;9058;13143;0;13013;28728;5999];
[20485;0;28798;12754;8767;5886;32933;0;10459;9358;12789;28759;12971;12801;0;12811];
[28797;28777;6001;17122;10814;12752;28770;12884;10406;5906;12910;11677;17269;28762;28759;0];
[12755;12693;28754;8789;32884;28741;0;0;28759;12526;0;9367;16978;28771;12886;28823];
[10486;0;0;0;16767;12887;0;0;13174;12525;0;0;28817;8470;12503;9357];
[12810;0;12694;12729;12753;12920;10517;12849;20488;5352;0;0;0;10213;10703;12994];
[32792;0;32906;11114;8414;16540;6154;0;12526;8658;12798;12443;13212;9367;8470;0];
[0;12576;11039;28729;8722;10234;11595;11297;0;12645;9917;12790;10837;0;13015;28785];
[28784;28716;28729;8322;12600;28740;0;10274;12474;9918;16462;32845;11002;28825;0;11345];
[10447;9955;9947;20485;0;13099;5091;8255;12646;32846;12741;0;6001;32846;6131;0];
[0;10208;12684;8787;28771;8487;28772;0;16700;0;16987;12555;9674;28731;5905;13005];
[10145;0;12970;11978;16931;28728;28745;28757;0;16620;13137;10192;13005;32846;13028;8957];
[28773;0;28775;8760;13067;12431;16535;0;28754;0;0;9620;28696;32898;28684;8488];
[5091;12527;9011;20487;0;0;8790;0;0;17218;28718;32854;12808;12803;12480;32872];
[0;12778;9663;13222;9685;0;9961;8966;0;0;6156;12333;13151;28682;12467;0];
[11136;12791;0;12384;9367;12717;28786;12896;13025;8786;17172;16834;12620;12527;0;12491];
[28825;12347;5649;0;9078;12467;9012;0;5090;16762;0;17050;12742;28763;0;9302];
[28781;32855;11300;16778;13100;13016;12620;10145;12753;28762;12658;28718;12431;11458;20487;12811];
[17387;0;20489;12742;13123;32865;32933;0;0;12703;32866;10413;12526;28692;9684;0];
[12917;12860;10378;11274;12777;12431;32820;28684;17275;0;28758;0;12814;20488;28748;16923];
[0;12898;12743;12027;10191;13099;28714;6367;12636;8487;12982;0;32843;17004;0;9068];
[16993;28788;9316;28792;28782;10448;16904;9963;10455;12933;28737;12609;12646;6292;0;28797];
[0;12540;11081;12455;17052;0;0;28758;12730;11273;0;13212;32831;11430;9909;0];
[32930;28742;11340;20487;10214;28812;13015;17048;0;0;9086;16777;28714;32867;11390;11010];
[0;6413;12886;32879;0;17141;28734;11339;5576;10786;8387;28759;13025;10489;12754;32884];
[0;9917;12695;28677;8461;12527;16853;10263;12716;12612;13019;6027;12888;0;0;5445];
[0;0;12906;28720;16999;12936;0;9310;0;13016;11348;32857;0;12456;12719;11568];
[10714;10451;16534;12897;28721;28786;10191;16904;5661;0;12768;28782;11133;0;32883;5485];
[17273;16914;12620;17052;9365;16529;11677;8255;28798;28828;13007;0;8490;6159;0;8413];
[28776;0;12849;9972;0;10145;12765;12924;16895;0;17211;11302;0;16974;16778;28762];
[8423;11602;13088;10414;16974;10860;28809;32855;16844;5477;28681;12624;0;17229;32897;6130];
[0;0;0;28753;12823;11607;28679;12823;28798;28809;28680;9684;6130;16997;9012;0];
[0;28774;5477;12827;9675;11779;12791;16933;32857;32885;32870;6303;12812;32935;28791;16914];
[11834;9088;0;11838;9089;13053;16778;12850;11833;12527;11654;8305;16914;0;11304;10116];
[12528;28679;12815;12694;17132;11709;28773;12780;32844;12504;13005;12622;10751;28777;17228;10507];
[8461;28695;12946;28769;9918;11012;0;11012;9264;9862;0;10153;12622;0;0;9918];
[32934;0;12705;32839;17069;6306;12444;9443;5642;12647;28679;12455;12862;10269;0;9963];
[8760;9919;12659;8478;12599;0;32879;0;10414;28762;16846;5474;0;28787;13136;28788];
[5615;10198;16577;13184;28757;13207;28760;0;28753;0;9973;32892;0;28785;12731;8488];
[13195;28825;13135;28786;0;12683;32892;32897;8424;0;0;12694;0;13198;10758;12523];
[0;28789;17004;9388;28691;12788;32937;32881;6005;28773;17010;13019;0;12717;10541;32904];
[28754;8423;16846;28763;0;10789;0;13006;28774;9088;16516;0;8790;28754;9879;9078];
[28821;0;13101;0;16621;5661;0;11057;5448;28777;0;0;10844;0;13040;8584];
[12957;12862;28717;0;16923;28752;28787;28764;11057;10813;12621;0;0;12455;0;0];
[0;32856;8414;28682;0;32892;12791;12917;12996;0;0;12802;9683;28728;9068;9444];
[0;0;11311;10270;11311;13138;32892;13196;0;32880;12824;0;28790;6307;10559;6220];
[11404;12715;28707;0;16922;9982;0;8912;12790;0;16577;13079;16961;0;10862;17094];
[11348;28746;12414;0;6307;16922;32868;0;28716;28824;17132;0;8788;12718;9340;0];
[16570;28788;16923;32885;13210;6397;12887;8452;12931;11340;0;12717;12417;10504;28808;16923];
[6306;12824;17006;10161;6003;6417;17331;0;28709;12691;8637;0;32930;0;28738;28732];
[0;28755;0;4516;28771;32846;32794;0;17240;0;0;32868;9900;17207;16779;6197];
[28739;0;12804;17229;12588;10713;6166;12551;8424;0;10271;10452;0;16913;13015;12696];
[10253;28729;0;28788;13017;32882;16933;11634;9387;16924;11806;10796;12813;10269;32893;13112];
[28789;28723;0;0;0;0;0;13053;32883;10238;9854;17083;0;9956;0;0];
[32919;0;16727;17173;9975;13026;9908;5485;0;11348;9973;11598;17070;0;13017;0];
[28746;12814;17011;13138;17132;10812;11757;28763;10505;32869;17409;0;28691;28777;12404;9675];
[5477;12456;10452;8868;17210;32893;0;12983;28797;13037;17008;11059;11573;12408;13089;0];
[12456;0;12935;0;10845;28789;12931;12920;0;9085;10804;20487;0;9377;12586;0];
[16673;0;17218;16892;9021;0;6443;12935;12704;12683;20489;10143;10842;32883;32937;0];
[17016;0;0;32903;4442;28816;11348;12873;12528;28789;12942;32858;9365;9265;0;16506];
[9780;10544;11572;12442;28674;12715;10561;0;12610;0;11733;11639;12826;17071;9878;28704];
[11572;6136;10880;28738;16515;16904;13018;17284;11729;11733;28760;0;11050;9555;12933;6418];
[8723;9799;32885;12587;12731;17210;16460;0;8769;11111;32776;10330;9676;12792;11312;13200];
[9975;32895;12500;0;28774;13008;0;17158;11643;17072;16935;5615;5607;13088;0;17218];
[12696;12480;12492;10571;10583;6170;12947;0;10254;0;12943;12696;12468;28760;16537;12440];
[17218;0;0;13067;11889;0;0;5911;0;10813;0;12910;0;9965;28781;12909];
[11141;12826;6336;0;28758;16855;32937;0;0;28766;0;11599;10852;11358;17411;12942];
[13147;32881;28807;11694;0;28776;28764;0;0;10506;28673;16777;12432;12921;10548;13008];
[13078;11059;32894;17149;6034;13115;10841;28750;0;8491;10760;12932;16700;0;17013;13125];
[10361;12717;12945;28789;28731;0;12778;32904;13040;0;12933;0;5615;10849;10247;0];
[9516;17354;0;0;32904;0;11394;11311;28719;12552;10805;28704;0;0;13091;11358];
[11638;0;20488;9985;0;0;16936;12393;12729;9686;11151;12887;10582;13066;12480;0];
[12744;11103;32933;28810;12031;32871;12742;12576;17219;13052;17219;0;11144;16925;11356;8479];
[32908;8397;10162;28720;0;17071;32820;20487;8723;0;16934;0;12815;28741;0;0];
[0;17247;28680;13114;11143;12825;28759;12321;11442;6006;12490;10460;12708;10279;0;12792];
[6384;0;13114;0;11394;28823;6031;0;12886;0;11140;13042;28730;11143;11104;11602];
[6161;11394;17080;12468;0;10247;0;12430;17061;11105;9983;12000;8982;12922;0;20487];
[0;11148;28822;28751;10218;11177;0;9388;28794;0;28728;0;13137;28707;10568;0];
[0;6137;16857;9984;0;13067;10806;28809;28758;28755;11112;11956;32881;0;0;10506];
[12911;0;13050;12432;12936;16914;28755;0;28804;12635;12813;11112;0;6165;16446;10814];
[9382;17241;12922;10550;6034;10804;10555;17002;12839;0;10841;0;0;5652;12972;4937];
[11978;13151;17228;32905;0;13040;12732;6136;20481;16430;0;8480;12480;17276;0;0];
[6203;20486;0;28747;32845;32906;28828;13103;12815;11457;12993;11610;6427;10806;0;32937];
[11358;28768;28767;12547;10506;28728;6311;28730;28754;0;16857;17305;12599;0;0;12564];
[28799;17089;20489;0;10507;17062;0;12924;13020;10217;13139;12813;16462;12815;28729;0];
[0;0;12755;16993;17072;11267;16846;28769;28786;17228;17160;0;0;28798;17094;0];
[32932;13051;10815;13053;13030;5137;9618;16674;10517;28748;12885;16463;12563;11114;0;16935];
[32833;8777;12686;11113;6219;10093;16933;0;28732;17158;28748;12487;13006;28681;0;13008];
[6163;10813;17410;28740;0;0;9956;28781;11451;0;0;28799;11712;0;12528;12826];
[11656;0;12600;32800;16789;28767;8722;12612;13091;28795;28687;12875;12886;11865;10498;10254];
[0;17160;0;8911;0;0;9076;28781;13137;0;11865;13113;0;11357;16765;13116];
[12575;0;11404;12308;28751;0;0;11931;32872;17141;6452;12923;16855;16430;8788;16992];
[13197;0;12564;32932;28718;6202;12936;0;32907;9445;17151;11059;0;0;32804;10089];
[8963;0;0;11765;17160;13063;12910;11358;0;12624;0;32814;32883;0;32829;0];
[0;12683;0;0;12923;0;12782;28703;32907;32829;12624;0;9805;5393;11693;28685];
[13040;0;17090;0;13139;10516;6377;8532;28713;28736;12516;11701;11114;0;13029;6351];
[16795;9516;20486;0;32896;12708;28687;28762;16754;16700;0;9241;12934;20488;6350;11647];
[0;0;9986;13062;11177;11893;0;9983;12653;12676;32830;17160;11710;4519;16654;12308];
[16924;13150;12696;10815;10805;10263;0;0;20484;9985;17072;0;10860;32935;13052;17237];
[8480;32935;6174;0;17003;13053;12816;13053;12393;13020;10328;17229;8911;20487;16936;8489];
[16858;0;9607;32934;0;13044;13115;28747;8742;32884;12028;16936;11215;32896;0;11312];
[20488;12420;11403;17220;28797;32857;32855;12780;12959;0;28710;13041;13092;10217;0;0];
[11657;11312;9546;17238;11413;11170;11159;10879;12863;5522;6312;16511;17238;12624;12944;17160];
[0;0;12622;28785;13030;8412;8918;10571;11096;12804;9918;32936;12028;10090;0;17299];
[6174;0;28767;17082;13195;0;16491;12827;28751;5427;12498;28717;12749;6174;0;11179];
[0;13159;11380;0;9687;0;12792;13042;13012;4770;9806;13041;6396;13065;4345;6433];
[16753;13158;16764;17238;4815;28762;12983;17229;28800;9965;10294;13065;13194;28691;28786;9516];
[13074;6426;12738;0;13171;17285;12696;16438;0;17151;13149;12720;8779;12827;10806;28805];
[0;13043;28783;9001;11648;17092;0;6211;5712;9838;10815;28771;17082;16722;0;28747];
[8655;0;0;13042;6219;0;9620;16514;10797;12501;8599;32933;9376;11932;0;28819];
[0;11469;6425;11702;0;11059;8490;17220;13159;0;28706;12774;32859;9202;0;11657];
[9687;0;0;0;12684;0;12441;11872;17013;10126;11775;13157;32857;8571;0;16529];
[12504;11741;13175;12033;32780;5553;20489;12780;12370;11596;28815;13116;17282;4292;10862;12521];
[28723;13006;13150;11159;9388;12708;9842;10553;13148;12946;11403;12480;10310;12515;0;10516];
[13075;16650;28790;10878;0;10562;0;16935;0;0;0;0;12463;13158;32897;32935];
[28724;11778;9985;12541;12576;8899;0;16579;32884;11161;9890;12671;0;13064;10272;32790];
[17161;0;32909;12588;9964;10571;16764;12774;0;28811;0;13126;0;13008;16694;8911];
[11458;28680;0;0;28697;10127;0;11703;6397;10245;0;32885;0;28676;13116;0];
[12826;16413;9598;10554;6211;16937;0;0;12780;9238;4652;0;13075;0;17170;12826];
[9205;12444;9843;12548;12779;28782;12612;13043;12672;32881;6379;17092;17289;12911;10871;11871];
[9796;32807;8738;0;17171;28718;28735;10572;0;16778;28732;32845;10871;28673;6384;28747];
[28731;0;0;10506;12744;16443;17229;11177;0;13212;12899;28735;0;11152;13150;4282];
[12773;17083;12571;28703;8491;0;12629;0;28765;0;0;32918;12827;11458;12956;0];
[0;13172;28817;11904;13040;4680;32846;0;12827;13088;32803;8276;13043;0;4453;17306];
[17092;0;28800;12717;0;12723;11712;10879;11161;10274;0;4852;10572;28811;12972;12828];
[13159;0;9287;9686;32896;0;11403;17015;10806;0;10264;12346;0;17092;11169;32908];
[11115;0;28811;32896;13031;6387;12299;0;16457;16829;28810;0;28793;0;0;11161];
[32846;32805;8342;28819;0;32869;32907;13092;0;11712;10816;9596;32830;12732;28713;28812];
[11170;16445;12438;8789;32897;28797;0;0;0;16463;28823;28805;10816;12984;13164;11012];
[28761;12972;28806;0;6433;28752;4873;11170;17319;0;10902;0;0;20487;10870;13161];
[8403;13077;0;0;10879;28740;28724;10573;13014;28806;12574;13029;32897;0;0;11459];
[6221;28820;28715;13126;11161;17240;8410;12780;11459;12984;0;16937;0;17220;16991;11768];
[12983;4974;0;17092;6221;28775;6387;12621;28743;0;32846;11179;17220;28778;28823;13206];
[10573;6211;13042;17082;0;6387;11984;12402;10228;0;13020;12334;0;0;17238;0];
[32788;0;17082;0;28762;16664;9676;10580;12570;16777;17228;13113;0;12840;17162;0];
[13163;13128;12322;0;12852;9944;12403;0;0;13090;17252;9832;9687;12392;32937;32789];
[17162;28767;10284;12323;12984;8264;13209;12344;17406;32922;10572;17016;28809;13151;4647;12588];
[0;0;12935;10283;11712;11404;0;0;11178;20482;17307;28767;10162;28721;10285;12756];
[16813;13149;17091;12708;0;11513;12344;0;11611;12075;13077;11900;13055;32872;13113;12660];
[9316;16609;0;12888;11777;12371;0;11702;32917;12381;17317;6387;17307;5880;17354;12650];
[12720;17248;11412;32791;0;11703;13116;32827;0;32885;28693;12369;32937;12641;11909;0];
[16460;13116;12442;0;0;17354;28757;28811;17298;0;0;16726;16428;0;12012;8384];
[16595;16673;8338;12852;16860;16778;0;32840;28744;6396;0;17275;0;28779;12888;12533];
[6397;32918;10581;17218;32845;16642;12366;12380;28736;0;12546;12297;17317;12058;0;28779];
[11712;12533;17093;6130;28769;4646;28790;12996;28675;32779;4897;12378;32841;10909;12371;9479];
[13077;0;28706;32859;13176;9478;17253;12664;10274;8992;10582;12420;32802;9135;32841;11872];
[28698;17299;0;0;12996;0;28685;0;16586;28751;32936;8882;12888;17004;11896;9492];
[0;6441;0;12746;5264;9975;10182;8910;6441;12912;11468;32790;4559;12828;8284;16842];
[12676;12737;0;12358;6350;8696;28817;9536;13186;0;16922;13127;32830;0;0;28744];
[28806;16430;28768;12674;0;13100;10583;0;28746;16858;12407;0;10284;0;8887;8988];
[6443;0;12707;0;16665;28749;8947;17249;16982;4651;0;13151;28821;28758;5225;13076];
[11900;0;16424;11937;9175;28822;17250;8652;17172;16858;28827;28791;12381;28791;9065;28821];
[10326;4895;0;11469;0;28779;0;17299;16440;28745;12347;12760;13176;32820;32910;12707];
[0;0;0;6451;17003;12488;0;0;0;9309;28760;32803;4436;10505;28705;12406];
[8397;13151;28821;0;0;12737;12415;28808;32792;0;28689;28726;0;10584;32828;4977];
[10284;12677;16753;28747;0;0;16492;32918;13008;0;0;9474;12667;17210;10584;12868];
[13152;11170;9306;28806;6373;12395;17093;12769;13209;28793;11766;0;6433;0;4395;12346];
[12439;12570;9655;0;28745;13089;13080;32817;17093;32779;4723;8577;32917;9180;28719;12989];
[11909;4814;8655;16517;12780;4902;17298;28811;0;11469;12498;12642;28756;9089;8324;12549];
[12497;0;0;17299;0;0;10028;28756;32815;12921;6076;0;28690;6175;10815;12574];
[0;12924;12665;11478;0;13078;28718;0;16728;16413;8606;10283;32870;12567;28724;12323];
[12749;16525;13207;16807;12828;0;0;6255;0;8725;32871;13043;13102;12372;0;28769];
[0;13171;28812;4656;16753;13172;0;17162;9984;9758;28778;13199;9356;0;28735;17298];
[17004;16667;8319;9210;9021;28813;12359;0;9544;12533;0;0;11479;0;12345;20484];
[6419;0;0;28745;9261;6442;28756;28746;11468;28808;12324;0;0;12333;12627;0];
[0;11478;13182;16587;8655;11469;32841;28756;0;20487;12369;13008;10872;11711;17094;12738];
[9088;28732;6442;13148;12427;28689;0;32919;32806;9269;11946;10419;28675;32883;13140;0];
[8410;0;12347;0;13148;8882;0;11946;20489;11758;0;8402;12360;0;5847;28821];
[28737;11479;28737;0;8948;8732;8988;16606;0;0;28685;9181;4998;13089;0;16841];
[11766;11468;32818;11161;28754;8694;0;11470;0;16727;0;12857;17250;12370;13140;12676];
[0;32908;16677;13195;12772;11703;28779;10226;0;32885;0;12948;0;0;4898;0];
[16865;8612;0;6286;6397;12732;12372;13139;32831;12534;4340;28720;28746;10274;13195;28765];
[0;32843;10891;11711;9942;0;9514;12345;11758;9237;12406;28757;6397;11767;32920;8948];
[17173;0;8390;11780;0;0;28732;10880;28700;12427;9975;16461;12558;16450;0;13221];
[12309;12826;13210;0;9287;0;17151;13103;28688;9306;8988;28742;13160;12631;9474;10618];
[12924;16737;32910;16685;0;0;16506;12371;13103;12525;13208;0;28746;11459;0;32871];
[9181;32924;28693;32920;5005;12539;0;0;28673;10583;17251;16923;0;8396;16429;17307];
[16526;0;0;12772;17149;28796;0;9338;16595;12378;13066;17307;13116;12828;28692;12879];
[0;0;0;0;0;0;13040;32831;16463;12297;12847;16647;13185;8649;28745;32804];
[4597;9771;9017;16699;0;12335;11169;9299;13138;0;6397;10619;11759;32779;4975;11479];
[4442;28676;16517;0;0;9515;32936;32819;28820;32790;28803;12415;11701;16687;13020;17095];
[12881;13185;0;28820;0;16430;9287;12382;12536;12348;0;4601;4911;0;9604;12041];
[12360;10931;0;12868;28675;32884;17249;0;13102;0;13044;28707;12382;12429;12515;16737];
[12924;13174;6451;10079;0;32842;16588;0;0;0;12881;12358;0;0;28790;32779];
[11211;28775;0;12075;6442;8995;32844;0;0;9342;13173;9909;12346;0;0;16867];
[10617;32898;17250;17080;9217;0;28809;16850;8664;0;0;12878;9503;11013;13173;9287];
[8444;32911;0;20484;13196;12310;12406;11768;10882;17003;28768;0;9747;32845;12333;10917];
[16609;0;13163;0;32935;17411;17298;28769;17387;13115;28703;28736;28776;5197;13206;0];
[12960;0;13128;32806;5511;13197;17330;0;0;0;8718;0;16509;32896;12395;28744];
[32909;8357;16869;0;13209;13174;16764;16992;12576;9010;12359;12534;11768;5015;0;0];
[12336;0;8446;13147;12996;0;0;10582;11179;0;5199;12677;32819;12406;9373;9749];
[32777;10613;11956;17172;16912;16675;0;5296;32841;0;11460;17094;8329;28774;12558;11946];
[12443;0;9286;12776;10916;0;32818;11104;11955;28822;12630;12419;12869;13206;12881;12504];
[0;13184;12371;10343;16450;12048;8992;13031;11468;12010;13197;16869;17174;12477;28823;16608];
[9041;13221;12010;0;4441;12078;0;16944;13211;9934;4602;12729;12444;32893;0;28755];
[16449;4610;0;16529;17397;16609;12001;28715;9749;28728;12417;28822;28818;32843;0;16746];
[0;0;16564;13174;13127;12336;0;16699;28732;10631;10264;28784;17082;9474;0;16834];
[13212;12391;9210;0;0;12525;32776;8545;11778;5199;13044;9586;16737;12846;4440;28719];
[13207;32828;13220;0;28681;11758;13140;13007;0;0;0;28676;16448;0;9474;28727];
[6451;10881;13160;13140;0;28722;0;12880;4662;28704;0;28729;4689;12642;10920;16440];
[13197;0;4441;12881;32867;8620;13128;0;32844;12381;0;8702;17388;12534;16517;6396];
[8440;12002;12347;0;13139;17329;11769;9075;0;28708;8966;9210;8380;9049;12642;12068];
[0;11458;0;13006;9586;12357;4855;12726;9603;12846;32841;13220;32779;4860;0;8883];
[12405;28826;4659;13078;12738;8995;0;0;5838;32791;0;0;0;12371;16508;0];
[16620;16597;0;28730;13103;0;11219;0;10049;8882;12504;10637;16879;0;0;28737];
[17253;12442;8850;9564;8702;16901;4662;0;0;10049;17329;0;0;0;28723;12765];
[16832;20489;28676;0;0;28739;8650;0;32895;16808;0;8613;28764;12871;12395;12559];
[8285;4197;12768;0;4913;0;28739;28677;4943;32793;5006;13185;28736;0;17329;28700];
[12468;0;0;0;16755;12536;12989;12407;11273;32830;28737;12002;9009;16737;28716;16766];
[13040;10370;12738;9247;0;13208;32830;0;10879;17253;16746;20482;0;0;32845;0];
[10650;0;12065;5002;13209;5826;0;12690;16823;0;32806;16523;16743;32933;12688;28714];
[12336;12011;0;11170;12066;0;0;12358;5383;28706;12465;28819;16666;9001;11955;10936];
[12780;17001;28772;12454;20484;17289;0;8919;12786;0;11759;28815;12453;28747;10380;17376];
[0;16910;10354;13220;16983;10969;16537;0;9009;10920;16693;13176;28737;0;12548;12002];
[28765;0;16951;11779;12977;0;28723;17219;12310;0;28689;10097;8365;11168;12947;13197];
[0;0;8403;12396;12524;0;17397;0;12999;16587;12048;0;16616;9353;28759;5354];
[12727;8649;12694;12955;10639;28824;12332;12057;5665;12891;32872;0;12057;0;12561;5757];
[5848;8751;11955;12934;10948;10483;12324;32923;28805;12881;12478;12655;8425;0;9647;10208];
[0;13198;28757;32923;28692;28676;12383;32819;0;28822;12858;0;12478;0;12442;13175];
[28729;5348;8322;0;16699;32920;10387;28733;8396;8650;16440;28797;28718;12562;0;11777];
[10048;28727;0;4936;0;12945;12683;0;32819;0;0;28713;16540;12573;8358;10343];
[12467;16873;12359;16514;5517;5008;0;12067;0;11509;12534;0;4674;0;0;12360];
[28738;0;12881;10573;11214;9815;9646;16620;0;10562;12077;12718;8966;20484;0;11780]]%N.
Definition LOOKUP_15 : list (list N) := [
[0;28825;9363;0;0;8719;13080;13092;10937;28764;13080;16598;12408;12594;12669;8665];
[12431;32807;5847;32852;28680;12011;8396;16696;12858;9606;12428;9518;32805;5024;12690;28734];
[12395;4932;10136;0;12908;32780;5292;13161;28693;10519;9852;32833;13176;12418;6387;0];
[12535;10078;16815;9211;9615;0;6397;0;9618;0;12420;28780;0;13221;0;12077];
[0;12666;10102;12407;0;28691;12455;0;10947;28801;0;0;32845;8949;12360;12077];
[0;12655;9800;12787;9481;28711;16885;12394;13198;0;12372;12384;12826;16519;12636;12335];
[16698;4603;11113;13104;12595;5030;12584;16439;0;0;0;9001;5839;0;0;5293];
[32845;28678;11171;12607;5238;12989;32833;13001;28714;8965;0;11478;0;28765;28740;28773];
[11780;28703;12827;12573;28692;9263;0;0;12727;0;12300;32792;0;0;10659;16607];
[12909;16538;32820;20485;12560;28736;0;28744;0;20483;9510;0;0;17190;4690;32910];
[28827;28819;28823;9555;10648;17376;12384;8710;4683;0;11246;28675;16832;28746;10393;0];
[17253;32820;12658;9018;12656;12762;17368;0;17396;32864;28820;13140;10665;8404;11266;28822];
[0;12797;5947;0;28733;12751;12954;16699;13210;28769;8621;12804;10384;20484;0;17017];
[32896;0;17170;13176;12573;12369;12585;16449;0;28726;16885;10675;17399;9669;12788;28823];
[0;11240;10285;8919;12739;12396;10365;32807;6097;8719;32781;5787;13001;28689;16915;0];
[9083;4965;13109;12777;28682;13210;0;12607;11328;0;0;28757;5916;12077;10697;10426];
[8751;28704;10958;10482;5016;12645;0;12707;13080;8657;12775;0;16766;8379;0;12454];
[5315;13055;28683;4622;5595;9652;13078;13122;10103;0;0;0;32921;12698;9861;0];
[9894;12383;12550;8719;13208;0;0;11779;12752;28679;9631;0;28731;28804;20482;0];
[28717;8956;16685;9518;32936;9003;12538;8359;0;17220;12741;28821;9547;10982;6072;13188];
[12777;17406;0;9906;0;5420;12765;8719;10416;0;9349;0;0;17290;0;17082];
[28773;28690;0;32844;0;12752;5945;28680;5321;12562;0;9372;8359;11103;13018;28804];
[10947;13200;0;16893;5036;0;16834;13004;17320;9547;12671;28818;8658;16538;0;12575];
[28712;0;17115;12298;9019;0;16842;12812;9301;28782;10731;0;10582;9915;11481;17330];
[16697;0;6245;0;12384;0;28822;8412;6243;0;5572;5025;32852;12539;9018;0];
[0;12794;17397;0;8711;28824;9349;0;0;8658;10436;12057;9601;13220;8965;8467];
[28763;0;11477;28803;32829;9255;28785;5055;28730;20485;0;12408;13122;9564;12682;12728];
[0;0;16933;16834;32794;8421;32829;12694;0;5066;8431;11627;9564;32868;12871;17299];
[12455;28719;12597;28784;12777;12825;32841;4965;12584;5420;9372;28781;9671;0;5400;12417];
[12959;5056;9616;0;0;13032;12078;17386;12584;12455;12859;16767;8995;16676;0;0];
[17386;13211;12966;4711;0;28818;28773;13220;28727;0;32937;12911;0;13208;28723;28734];
[9309;0;13011;13006;9861;4689;28710;5306;28794;28772;28800;28675;28745;0;13128;28734];
[9654;32831;0;5537;12396;28720;10437;11234;28747;4709;11291;10183;28688;16855;28748;13001];
[12787;32844;0;28731;10669;12067;28773;12848;32793;10517;11257;6075;0;12884;12320;28723];
[0;11469;4964;12299;4331;32906;6388;0;16843;0;12657;12607;0;0;0;28785];
[28750;17162;0;28772;10400;0;9593;12682;16972;0;11477;0;28700;16776;12618;0];
[5087;9671;12681;12969;16909;28693;32846;12001;0;12848;0;10583;8751;32843;0;17378];
[9380;28748;17386;32819;9376;13111;16584;5327;12668;8957;10077;9593;0;16542;9009;32804];
[8595;9846;13029;12873;5796;12681;8704;8476;32924;0;12804;5801;28727;0;20486;8412];
[10437;11779;0;10075;28797;10967;12596;12608;9916;16894;12658;0;8469;13028;5316;16618];
[32818;16778;17378;12691;16439;12396;16901;9898;10968;32846;12777;8704;12680;0;0;12933];
[12516;9003;32864;0;11131;0;10705;0;32921;4963;5346;28738;12560;32880;5425;28679];
[12683;12884;32820;9809;5811;0;0;12657;0;4962;13127;16608;13014;9947;13162;28703];
[28779;0;12598;0;0;12324;28785;17378;0;12968;16529;12324;0;28695;12682;12418];
[0;28727;13067;5440;9264;10697;28785;16845;12809;17378;0;9960;9687;8712;8404;4711];
[5632;12618;8413;0;9609;8666;32792;13138;20490;0;5523;16688;13164;0;28796;16909];
[12660;5943;16893;12336;28695;10189;10212;9899;12408;11034;9564;13221;32853;12586;28808;28765];
[4716;5055;28761;0;17190;17406;10076;12787;9011;0;20490;0;9846;0;0;20486];
[28822;12624;12611;28823;0;28818;13076;0;0;8720;17123;28749;13041;11632;0;12618];
[0;12824;12539;28765;12371;12478;16910;11565;9601;12730;0;16688;0;17378;28762;5431];
[28729;28783;0;0;16459;11459;0;9020;0;10734;8467;10077;0;0;28708;17015];
[0;16964;28690;10782;0;9562;0;17307;0;17115;13014;12488;12859;17172;32935;5798];
[0;10733;0;16846;17038;5420;28737;9968;12608;12444;12012;4965;11246;16609;11550;12444];
[0;11627;28729;0;0;9320;9059;0;11380;0;16618;32830;0;0;0;17116];
[10974;28738;16853;10106;9679;8667;28704;12489;13006;0;12480;9021;12444;0;9861;28824];
[0;12991;28720;13085;0;12537;12670;5814;17052;17038;32807;10527;17377;28823;0;0];
[12609;9058;0;12873;12609;32893;13224;9861;10443;12524;0;0;16720;13032;13222;10113];
[12694;8734;9620;5949;12922;11330;5058;0;9593;0;28754;5560;10880;11033;0;12874];
[12907;13174;12900;12936;12490;28708;11379;0;12767;0;13020;0;9817;13223;12753;12874];
[0;28749;28745;6257;28681;16920;0;16538;17299;12644;28709;32896;8565;5971;11274;9649];
[17396;0;16755;11590;12822;28824;0;12873;8704;28763;0;5966;20490;11673;12607;5875];
[10238;28717;10272;0;32819;0;0;28773;28820;11333;13221;28738;5063;11170;0;5816];
[0;12488;9681;16449;0;10563;11136;28745;5632;10377;12766;5438;11374;32854;11312;8760];
[9067;13108;12646;12564;8891;10218;16919;13206;32791;12670;0;9051;0;17408;12608;16678];
[8378;9861;8489;9853;0;0;12000;0;16681;28708;12656;8767;5469;0;32867;16450];
[11179;17408;20484;9892;0;28695;12693;12991;17169;12798;11469;0;0;11595;0;12480];
[0;0;11272;28823;28807;16981;9907;9067;9600;12701;0;5101;17396;0;0;13097];
[10377;0;0;9365;32882;5355;12788;28761;12920;16541;17083;32897;12612;4716;12671;0];
[0;12780;11539;0;10079;28790;12692;10189;12743;10107;16541;28704;12516;28730;11334;0];
[12779;11673;9674;0;12395;16777;12681;8423;12647;16767;16853;16931;0;32868;0;0];
[11532;32859;28761;11590;12611;10797;16677;28758;11539;9947;12798;0;6129;0;0;10079];
[11566;12358;0;28741;32864;16700;0;0;28719;12740;11115;0;11379;9320;17150;0];
[11178;0;0;11005;12702;13005;28826;12788;5596;17041;28786;13130;16767;28748;28776;28775];
[16966;28794;28758;17289;11057;0;11831;6254;5637;0;0;0;6024;12797;0;28752];
[0;28712;12956;28754;12586;28753;6191;8414;8367;17253;12452;0;28757;9020;17162;12623];
[0;0;12504;28752;28770;28816;10406;5878;12898;9089;12788;20487;16922;12456;28720;13056];
[13152;12904;0;28724;17083;11086;10078;0;8848;12701;0;12396;9963;28731;12633;9681];
[32781;6250;10108;0;28793;12713;0;12980;10186;12611;16902;28827;11806;28797;0;17399];
[12502;28722;12701;11297;4347;5815;12692;16911;0;10107;13197;32864;0;10511;10760;10151];
[32908;0;9687;17150;9899;6254;10044;0;12576;8367;9564;0;28681;17081;6367;12692];
[11780;0;12489;12801;13210;28816;12609;10538;17132;13121;12713;28755;9854;10675;12863;0];
[11356;13223;12512;12606;28773;28763;17331;0;0;12525;5896;5973;9916;0;11348;11334];
[16506;8469;9085;9916;6160;12814;12588;11042;13018;0;16980;5572;12492;32884;0;9778];
[0;16931;12980;10713;0;32870;12609;28752;20489;5968;0;17397;9084;12797;17062;28787];
[0;5601;17119;16825;12678;28757;8469;5905;10538;8621;12514;17398;10705;0;16924;17141];
[12982;16530;28819;9357;8489;5997;12797;17071;28729;0;12788;9666;12684;8476;9666;0];
[9863;28759;17150;8487;12540;12696;0;9862;0;12683;11567;17408;9374;17139;12598;12860];
[9384;17210;17081;12788;12312;11270;16980;0;12550;12887;4717;9853;28730;12682;12809;9321];
[9682;32846;32920;16835;5636;9020;0;10804;12741;16779;28781;11595;28746;13080;0;0];
[12573;12731;0;12779;28721;0;9012;28785;13198;11297;9657;5352;0;16856;8377;12754];
[28687;0;9963;28745;0;11545;11430;12799;12550;12799;8478;28753;28771;28747;12501;12372];
[0;28805;17141;12909;9916;6095;0;28702;6154;32930;17071;16966;28713;12887;11632;12753];
[16992;10378;28702;12743;0;6130;12468;10583;11545;11808;28754;10489;12808;11673;11081;0];
[5907;8488;0;12526;11004;12850;28751;28810;10497;12836;28790;13160;12993;12703;0;0];
[0;17081;28801;12932;11311;9256;12790;9376;0;9916;6109;0;5353;32820;32894;13200];
[28690;12515;16989;28731;8779;12620;12875;6134;32870;13027;28740;10706;12693;5608;16970;17274];
[11377;0;11479;28692;17378;28769;32885;9374;12994;12550;28784;9089;28784;28703;12611;11379];
[12659;12764;28762;0;0;13086;32893;12477;12576;0;0;32872;28695;6330;10539;12490];
[0;0;28730;10837;16903;10160;0;32858;8712;12789;9684;0;0;12811;0;28732];
[0;17386;11632;12502;12922;9385;0;16904;0;0;28758;0;28744;0;10214;12671];
[0;12609;10489;6001;9863;12703;9256;0;6159;12672;11348;9546;13005;9377;28752;28757];
[4270;28798;0;28686;12078;0;28731;5904;17253;32884;5094;10796;10702;0;12822;28742];
[28763;16904;28740;0;6029;10452;0;0;0;5446;32911;0;32855;0;12634;0];
[12909;16735;10706;20484;0;12900;32856;11594;0;12729;0;12956;17269;0;6367;0];
[10152;28699;28752;5998;16535;28760;12981;0;0;12875;28823;0;10713;32794;0;12503];
[32885;0;28798;28738;10278;0;5447;11136;9666;16779;32845;8368;28752;16834;8721;5996];
[12538;12574;12907;10750;12811;11776;28719;12958;28716;28810;0;16931;12582;0;11678;9919];
[9791;11274;11633;28695;12968;17123;12837;6278;0;12576;0;11088;16767;17269;13137;0];
[12468;10497;10212;12480;16931;13132;8383;0;9948;0;0;12799;0;0;10713;0];
[17120;16924;28731;12874;12897;28805;16699;0;6372;16542;0;0;6285;28716;16936;0];
[17052;11012;11039;0;28684;5575;0;12620;28752;12837;11683;32846;16779;10451;28703;10833];
[12600;0;12575;0;0;13141;16463;28737;28730;9674;6109;9919;28755;9955;28795;12588];
[28772;12634;0;0;32855;12874;6419;28773;12599;9674;8776;5659;28745;0;28786;12077];
[28793;13018;28754;6027;16778;12479;12393;11299;11413;12503;13024;0;11041;28794;28772;0];
[0;28738;0;28774;0;10742;0;11640;32930;28773;16608;9366;9827;12635;13145;12559];
[0;9376;0;6131;28826;17173;10545;13174;12563;0;12551;28720;12957;28745;16931;9387];
[10218;17160;9684;10815;6001;9675;10758;0;28774;6293;8424;17408;0;32820;10271;12716];
[9068;16618;10244;12888;6418;6367;12917;10457;0;16700;5578;9948;28753;9377;11335;0];
[12621;12395;10213;12586;12623;0;11049;28807;10713;8344;28802;9885;16997;12527;0;9982];
[10502;16923;12873;32879;13175;11049;0;11647;13098;11758;9965;10212;9311;4848;0;9917];
[9955;32869;12444;0;9916;28753;32846;6196;12811;9675;13062;12756;8777;28807;10786;0];
[28812;32904;9551;28809;12563;0;6367;0;11340;11041;12527;0;0;12647;12516;16778];
[10838;11085;12788;12575;5101;13087;12597;32833;0;12705;0;28772;0;16921;10713;11410];
[17318;0;13055;12693;17095;9955;28753;28727;0;20485;17148;12612;16767;0;0;28751];
[9358;12899;0;0;4400;16982;28740;0;13062;17139;8713;9918;32855;10495;12382;8778];
[6135;17069;16700;0;11095;5475;0;0;4433;6044;0;0;17131;0;16914;11013];
[11311;0;10116;9367;0;28729;32924;13099;13123;11348;0;0;12672;9963;13017;12620];
[17385;13023;6307;11693;0;10270;17072;10714;13099;12539;12503;9862;6197;0;12717;11729];
[13136;13146;11085;0;6285;28784;0;16779;0;12623;12717;12899;17217;0;17386;5477];
[12515;12743;9973;16933;16508;12930;32845;17069;16698;28806;0;13007;11889;5639;13078;12360];
[0;0;28737;28755;17139;28785;28754;28786;11181;28765;6418;16992;16974;9908;11633;5643];
[16923;5643;28678;0;11311;0;9020;5101;0;17079;10570;12931;13052;11610;28729;11440];
[13111;0;16912;0;32833;11057;6372;0;12900;12623;10495;12743;0;12816;0;6419];
[5652;28756;12575;16762;28727;9376;8469;10796;9561;17271;16913;12704;13151;12767;12766;12720];
[13099;10845;12634;12930;28731;28809;9975;13116;5485;0;0;12672;9686;11356;0;10268];
[0;28776;28788;0;12384;12923;0;28750;12900;12706;0;0;12823;12864;17169;9986];
[28795;28754;16922;10812;28737;13145;11348;17140;0;0;0;11057;0;17070;12504;17210];
[12800;6160;28716;10561;28767;6160;16914;10796;12887;0;11567;10577;11311;10253;12896;8422];
[13140;20488;0;11647;12528;28754;11348;0;0;12684;13019;10796;16527;11385;13223;13027];
[13064;17332;28764;9862;10461;0;9087;0;0;0;9956;12931;9089;0;11573;0];
[16932;12612;12900;12705;17226;28776;0;9965;16922;10514;12492;0;6211;12802;16855;12800];
[12624;9982;11895;12816;8760;11144;17148;17203;11926;6307;32868;0;5615;0;12823;0];
[11686;28746;12875;32872;0;12611;28774;11103;13127;28809;12534;12623;13041;0;11632;6336];
[12814;12454;11656;12704;10759;12980;28776;12984;0;17289;12671;12931;12683;9012;28748;8787];
[13066;12874;10582;28751;0;32931;5615;9686;28762;13224;11573;13086;10161;28691;13102;32895];
[28740;28714;12994;28804;11050;28731;6044;17072;0;10173;32882;9917;12704;16991;13036;11095];
[0;0;9885;12516;11601;4437;12552;0;11387;0;32856;13017;12943;16924;12456;12943];
[17275;17149;6371;0;0;0;9889;28787;0;12715;28796;13224;12621;0;0;12706];
[9964;0;12672;12995;12408;0;12540;12621;0;17132;17062;0;10272;10153;13136;0];
[9955;12943;32892;5645;11972;17079;0;16983;13088;12869;20487;32843;16856;28776;13027;28743];
[12970;8612;9982;32846;0;0;13111;12780;17149;28751;28739;28781;10247;28761;11844;28758];
[12943;32871;0;11865;13123;0;11693;0;16936;28708;12704;11729;13115;28730;13112;17061];
[20484;12528;10461;6197;17070;0;0;28826;12504;17170;10153;13007;0;17211;0;28758];
[12800;10870;6174;0;16620;32920;11112;12696;11844;32931;28752;0;0;28764;12492;0];
[32933;0;11926;32871;10570;11868;11103;13136;16684;0;28747;17411;13008;12811;6414;17315];
[17080;12648;8478;9367;20486;13123;17004;20486;0;13116;5227;11311;0;17227;0;32880];
[10208;12994;13018;12931;32898;17002;11167;12756;13076;11103;0;28708;12621;10247;12480;32845];
[28706;0;17227;0;0;13027;28808;0;28774;28746;0;9673;32880;32859;12683;11411];
[0;28774;12839;16698;12648;28690;0;17080;12898;28762;28769;12768;10280;20488;12800;32868];
[0;12564;32845;12552;0;28679;11894;12576;6211;0;28757;13126;28750;9068;6221;12900];
[12514;5652;0;11349;5616;10572;13212;10162;17305;28797;0;8778;17210;28746;12717;32820];
[12802;0;17150;10760;28826;0;28771;9675;32881;0;28810;11895;32904;9854;16887;32893];
[0;0;5660;12623;12499;9984;0;0;0;6135;5652;17149;9592;6175;10254;0];
[13136;12671;13102;28795;12066;17228;28809;12943;10280;32905;0;10813;0;32931;28777;10051];
[28762;12604;12932;17095;28789;28811;0;28810;5305;5660;0;16855;6311;17004;28759;10562];
[0;10852;12624;0;13114;9983;12982;16933;8470;11411;10274;5652;16992;0;11103;6137];
[9672;0;0;5660;9676;9685;0;0;0;0;12766;5913;32871;20490;11768;0];
[0;10796;10626;0;0;9388;9984;32921;0;0;28776;0;12933;13222;0;0];
[0;13151;12983;11394;0;12732;17280;28731;0;10460;0;13123;12825;12801;10208;5653];
[17062;17081;9509;6308;28708;17237;28729;10218;11739;0;28795;10760;0;10161;9909;0];
[10852;0;0;0;28753;10845;32893;12912;12880;28767;17080;13104;5661;0;11103;11112];
[11402;17010;32895;28752;0;16621;12944;13136;11844;6394;0;17070;13050;0;11357;0];
[0;10498;0;13125;17090;11402;11655;0;0;28815;5486;11450;20483;16933;28812;28759];
[12456;12330;0;10844;0;32932;12798;10561;0;11481;9927;28810;28745;0;13088;0];
[12923;11866;32789;32892;17070;28763;10925;12898;0;28820;12612;0;12851;10461;17141;28790];
[12945;10881;0;28798;28755;32819;5616;8490;10805;10271;4332;0;13159;11894;32931;0];
[16913;13139;32869;12922;17280;10559;12582;13080;0;9687;0;0;11701;10797;0;17150];
[11356;13016;0;17150;11151;13040;12705;12933;11096;28809;0;12933;28691;0;11104;12395];
[9985;11358;11865;0;0;12944;10487;13051;0;10278;17228;5790;0;11104;0;13138];
[13062;0;0;12693;32882;10805;16505;28716;16933;28799;11865;11394;13051;0;28714;17003];
[12824;28798;6350;17141;13115;0;28731;11143;13006;32870;17248;17071;11701;13147;17070;0];
[13062;17237;12946;32845;13051;11412;11412;17061;16542;28793;13028;12452;32931;6449;17159;0];
[13056;12790;0;28729;0;0;32882;12755;12920;28794;32896;10039;17159;13140;17083;9986];
[28777;13114;28788;13138;11647;28731;28795;32934;12970;32820;0;9619;9660;11895;0;0];
[10461;11096;17014;28752;0;13063;12684;11412;12604;6313;13029;6313;4607;11412;17081;17004];
[10199;13075;17081;0;32905;17289;0;0;0;12932;9610;0;17002;9480;0;0];
[28797;0;17169;13158;0;12295;0;10583;13051;17159;28819;12647;32845;11179;6174;28711];
[0;10814;11610;32906;28773;10216;28770;12780;10561;10626;9459;13075;28756;12994;0;11059];
[13148;0;0;12876;17219;10460;32896;6174;13063;13063;12647;12922;11779;16935;9655;10515];
[0;11114;11693;12838;12888;28799;0;8948;10882;12381;28789;13074;13147;6378;0;28718];
[12828;0;5616;0;9986;6044;11694;0;0;17082;9964;11476;16621;11982;12932;0];
[16933;0;11902;0;0;12671;28688;28753;28800;10208;17070;17158;6174;12034;0;9676];
[10570;32880;32869;10813;12982;28759;11655;17090;17297;28785;0;0;10517;0;0;10218];
[9089;12684;28729;12814;0;12660;16845;0;32906;17013;0;6219;13051;28808;12888;0];
[12922;0;10515;10584;28724;6219;12899;28796;9559;0;12720;0;9850;10925;0;32908];
[11059;12684;13127;12717;11105;32920;12945;11413;0;13186;0;11059;28786;32897;12575;13126];
[13091;13018;11909;11895;11113;17083;12552;28742;11702;28808;0;0;17305;12768;10853;0];
[11412;0;13019;0;12348;0;0;13182;0;0;13151;10570;0;9425;0;17282];
[20487;28749;0;10264;10327;0;10869;13005;12430;6426;11467;10861;9918;6394;9088;12358];
[17237;8842;32858;13104;28750;0;5653;10861;0;0;11702;17004;0;13052;28788;28788];
[17014;6343;0;9429;0;12633;6211;12571;0;0;0;11152;0;8562;11711;11403];
[13063;12488;16727;32911;12888;12677;28820;28751;11412;9676;12654;13052;17229;13008;12816;12476];
[12672;17169;0;28682;17004;12012;9503;28716;0;10869;12636;6211;10572;9684;0;0];
[0;0;28805;8569;28789;16745;16937;9386;10498;0;0;0;32883;0;17159;6212];
[11412;0;11152;11977;32833;8888;10814;0;12682;32791;28788;17012;17238;0;32937;12719];
[10879;32871;12718;9983;13075;0;8619;13128;0;0;11168;0;5126;8788;17091;17170];
[13150;16745;11478;0;0;0;12405;0;28764;0;0;8895;12779;28769;17316;32791];
[6387;28732;5199;28684;0;0;28828;28828;28770;17114;12814;28789;16904;12944;13198;12068];
[0;13000;9813;8467;0;28678;8695;0;12039;12773;0;9018;12540;28800;12984;13064];
[17013;12923;32791;20489;17241;5661;11702;0;0;0;12972;0;32922;28768;11168;12672];
[13138;6220;28733;10806;11749;16936;11701;28793;12556;13196;20486;12467;10218;28809;4379;12049];
[0;11932;17091;0;0;0;9387;11656;12863;28812;11113;11451;0;32846;28693;13184];
[13196;0;28828;11702;11178;17306;0;10554;0;16846;17061;28807;10862;17248;0;0];
[13173;16439;13171;6220;0;6441;10436;28802;13173;12792;0;12431;13042;13197;0;0];
[28790;10998;0;0;28741;32932;0;11169;16925;17169;8605;9555;12816;12720;16993;12778];
[32859;10869;32898;13064;10263;28809;0;6350;0;0;11657;28746;12813;28677;0;12971];
[0;17298;4431;11711;10580;11152;17061;16932;32893;13152;10272;11740;12684;12540;0;11404];
[12706;11711;0;13157;13042;0;9975;10517;5036;0;0;0;12371;0;12347;13167];
[17228;16697;13052;11776;12839;0;10797;12612;28789;16586;17316;13076;13155;12864;0;17307];
[13148;0;6351;13173;16866;12684;12768;13115;10283;11894;10879;17307;0;28760;8612;4436];
[17171;10862;11702;28703;6045;12827;0;6450;32935;10517;0;0;0;28747;17015;0];
[28809;9746;28676;0;13168;0;12682;11870;13043;0;12396;13210;0;20484;32907;28772];
[16992;0;0;11468;17289;11168;28737;0;17170;32907;32918;28819;12403;17316;8789;0];
[10870;12804;13104;28721;12665;0;13077;16913;0;13007;17140;8882;28760;11946;12533;13076];
[0;28819;17070;28802;16745;12392;13053;6450;13162;6387;0;0;12761;0;13134;28803];
[12756;6395;13006;0;32918;28680;0;28798;12378;16429;12792;32841;9078;16657;0;0];
[28724;12582;17298;13128;12528;8918;12583;13128;0;32802;12331;17317;0;13008;12369;28822];
[13076;0;0;11178;17150;16621;32893;10562;28719;32840;12308;0;12058;0;11268;0];
[16663;0;12970;11477;8855;10284;0;17013;32790;11170;0;12592;32936;5441;13194;11711];
[12346;13043;5527;12552;12648;11404;9670;28744;8876;0;6396;13206;0;0;0;0];
[12863;28693;0;17290;11169;12689;6221;32843;0;12935;12756;28737;0;12816;32806;8374];
[17013;12465;6433;10176;0;0;17298;0;28741;11992;11822;10572;12852;0;12912;32778];
[8587;12995;16779;0;11468;11161;8918;0;0;12726;12394;9514;0;17248;10584;13065];
[17308;28679;17091;20487;32858;8381;12744;13076;28712;12356;6450;0;10517;0;12528;8910];
[16439;12429;0;13030;12828;10861;13053;13159;28738;17230;0;16754;0;32844;12852;6434];
[0;10573;28806;17081;12719;5349;0;13140;5386;17220;11757;9215;13041;12382;12780;0];
[28745;11178;0;11766;28727;32897;9089;28809;28710;17316;13167;0;0;12920;12648;6221];
[28727;4399;32897;8307;20489;10816;13152;12816;11468;32918;17013;28708;0;8278;28776;12660];
[9479;16754;9907;12478;9902;17003;0;0;20489;13151;16935;10036;28797;28817;13138;28781];
[0;28746;8649;11460;0;0;12972;4864;13207;32917;11757;16432;32817;12997;32918;11477];
[12418;8899;4912;6442;6451;17308;32816;9550;12601;12034;0;11712;17318;8606;28763;13159];
[16516;13007;9285;17348;10581;0;11759;11459;32898;9986;0;12455;17316;13152;0;12923];
[10816;13183;0;0;16887;17015;0;9975;13194;32870;28800;12600;0;28745;9615;28797];
[0;12417;13168;12476;9216;4434;0;9251;6396;17378;0;17328;11939;17016;16519;11776];
[13065;28739;12879;32894;10498;12767;28757;4449;4301;17162;12415;20488;17298;12720;12888;9088];
[12416;32818;16684;28790;13007;0;17230;0;0;10881;0;0;20484;12394;28697;0];
[0;0;12924;16578;32911;13164;8256;17251;0;11776;28812;28787;0;11992;32833;12056];
[10871;0;13126;10562;12864;11909;12984;0;0;20482;17015;9472;32910;4769;0;0];
[9986;11460;13139;16508;12971;17241;17013;0;28786;32832;10563;12840;28680;16699;10880;10614];
[32826;0;32858;13114;12887;10563;13040;0;11946;9147;11459;32846;4553;10516;12384;12371];
[13140;10516;16779;12382;0;12492;12924;13121;0;13128;11909;12639;17307;13138;11468;5198];
[0;12079;0;0;13076;16656;10571;12381;0;12383;10583;8948;12869;10284;28797;28717];
[0;12816;12034;0;9452;9685;12357;9838;28779;12333;11909;0;28747;10816;0;12299];
[10581;0;17083;11954;12295;12534;9661;4916;6220;12718;28722;11480;8284;5236;12756;17238];
[0;6450;0;8913;11170;6452;0;32791;11999;9471;12502;12310;0;0;12309;8357];
[28731;28728;9687;17071;8583;0;0;4998;12558;32829;0;12332;6434;12773;0;17240]]%N.
Definition LOOKUP_16 : list (list N) := [
[12725;17250;32778;10912;32919;12545;0;5388;0;12676;0;12792;13116;12077;12777;13195];
[13091;32831;9307;9293;0;32830;9959;12041;12009;28692;9984;0;16813;10582;11477;12735];
[11374;12660;8790;16936;28734;17171;16527;12405;32910;12677;0;13031;8911;0;9606;0];
[8320;16609;13090;12359;11946;0;28732;17250;9204;0;8390;12650;9559;0;0;9986];
[0;12382;13115;0;16596;28688;0;9501;10461;8395;0;12549;4598;11985;0;28809];
[32778;4632;17016;0;28761;0;0;28702;28753;0;13173;12442;0;0;13064;0];
[0;20487;0;0;9676;28729;12833;0;8411;28747;4768;0;0;12371;28821;9685];
[13020;0;28682;13162;0;11954;0;8616;16763;6451;13159;11910;0;8491;0;0];
[17172;12804;28701;5513;12922;11179;10282;28730;0;32919;16685;11414;9672;28693;0;28826];
[12076;0;0;17361;28715;11757;13174;11590;0;16864;16440;0;32922;12335;9240;12648];
[0;17093;9388;28821;0;0;17093;12533;16528;28699;16737;0;32842;13029;0;12745];
[13127;12888;8946;32791;0;9287;17354;32820;12879;0;11170;0;12438;0;12358;10584];
[0;9287;28813;9535;32841;10325;12582;16438;13218;16777;12558;20483;16439;0;28746;13184];
[4399;12570;0;28756;11757;17327;9586;0;12392;0;16737;0;13040;11767;0;9479];
[17003;13091;0;13008;5514;9050;11776;8963;16685;8313;13067;12884;0;4437;16763;0];
[32919;0;32779;8651;12516;28704;28820;28716;12370;12407;0;17299;10584;11180;0;16460];
[9986;10326;12677;12056;10538;32896;16528;11758;12654;28748;0;13196;8606;0;32830;28722];
[11956;12444;4437;12384;28748;0;16937;0;32819;4596;8695;20490;17014;8284;8702;16664];
[0;32935;0;8285;11470;10283;20485;12622;17307;8397;0;17317;0;11767;0;9597];
[12852;12415;12677;9216;0;17394;28814;0;13160;11694;12773;12405;0;13196;12381;10870];
[16658;9724;9984;9287;12824;8988;5979;28748;32843;12407;32839;0;13195;12074;8612;0];
[12343;0;16745;0;20482;13171;5397;12001;0;11777;4441;8419;28820;11469;0;9286];
[0;6397;28682;9515;9750;4850;10880;0;13055;12308;11678;28688;0;28735;16880;10563];
[11758;17318;28746;0;0;32803;10620;0;17241;8911;0;0;28768;17151;0;28690];
[0;0;10048;0;17082;0;12450;0;0;13079;17369;16808;0;8399;17013;10584];
[10218;12559;32815;12880;16675;8718;8612;4856;16517;8683;28714;12999;4769;28721;0;32881];
[0;17384;9247;11170;16664;16934;12773;0;9306;10620;32842;16676;4444;11954;0;11477];
[17230;28753;28705;8357;0;20484;4442;12452;0;8420;32819;13044;0;13160;13091;17361];
[11779;28729;0;0;12074;13207;12526;0;12041;12654;28729;12936;12583;12347;12812;12499];
[12690;13139;12666;12501;12322;12407;8396;16537;0;17378;16910;16839;0;28721;11777;0];
[28768;10190;0;9800;12359;9211;13160;13222;16756;32817;10919;9595;32843;16736;0;16764];
[0;12801;8612;12767;0;4856;8657;8365;17161;0;12548;0;32884;11767;9355;13044];
[6262;11767;13184;0;0;12419;13196;11767;13032;0;28700;0;17359;13001;12789;17174];
[32805;4915;0;28726;11956;28806;28718;10883;16677;0;0;12523;28681;12642;32897;28802];
[28820;8637;28700;12312;9312;12331;0;13173;28801;13173;12075;13128;9801;12583;8964;12683];
[0;0;12010;5358;16617;10204;17253;17318;17317;10300;12727;13207;13152;12750;32833;6452];
[0;17299;10582;16499;0;11777;12762;9815;12065;11955;6452;32790;9509;6175;12001;10131];
[28724;9540;9908;0;0;0;13164;0;10573;8407;28800;32846;12001;0;28677;0];
[0;28822;0;9247;28756;11208;20483;16588;28757;0;12858;9624;12689;28796;0;10095];
[12827;32840;28678;11212;9661;12372;0;0;12912;17269;12057;4541;13218;0;20488;20484];
[28812;16518;0;17317;12465;12454;13104;0;9849;28707;16461;12523;9808;0;28747;28717];
[12960;12299;0;0;12594;12880;6397;12440;0;0;0;10666;0;4872;10654;4457];
[5788;9769;0;11469;13162;5806;20483;10066;9838;16452;9510;0;10339;12780;0;16579];
[5853;12057;13116;32820;0;9650;5018;12010;16440;8358;9838;8584;0;28736;8745;0];
[16688;28744;12311;0;9779;12001;8695;16579;11479;16764;17327;16525;11504;0;12908;8396];
[16894;0;5486;12429;0;28760;13196;32872;13174;28728;8621;0;9000;12011;28724;11479];
[12785;0;16687;16879;17309;9351;28808;28707;0;6443;5296;12919;8766;0;0;16658];
[9669;11296;17219;4678;28791;12527;16437;32791;13218;0;9217;12076;0;11413;8351;0];
[16808;10351;0;12321;32923;13092;12559;9294;0;6451;11181;28821;8365;32922;4710;10964];
[13175;12998;10952;9605;13175;13210;16686;28694;9814;28819;5392;17368;0;16677;12010;28700];
[0;16746;0;0;11777;32793;16529;5848;8912;11758;16684;5710;12396;12850;28794;12739];
[12076;16774;11759;12513;12834;32814;12762;28818;28721;28730;12912;12048;13086;16774;4943;12750];
[12632;8956;0;28736;13173;12687;12948;4230;32840;0;0;10582;0;9555;12499;12395];
[9817;9646;6367;9540;13175;0;32831;12900;0;17016;11956;12058;12010;0;0;9614];
[12785;8757;16575;8765;0;16675;9906;0;12659;12659;0;10132;28759;8757;13218;4929];
[12859;12719;0;10460;13092;9940;0;16450;17394;0;8665;12000;0;8665;32840;0];
[0;9969;28722;16518;0;5859;11955;10350;9845;17329;12501;10583;13188;11478;17376;9613];
[17375;12681;28752;9009;8718;16525;0;17249;12504;28757;12834;12312;12690;16892;12321;28799];
[28745;9265;0;12065;4872;5941;10441;28735;32780;5308;12049;8403;0;0;8912;0];
[32923;9211;0;12442;10967;0;0;11181;28681;0;9780;17408;11512;12667;16756;32805];
[4931;8766;13092;0;28688;12079;9009;8322;11479;0;4678;9614;8696;0;6413;12989];
[12058;9952;16852;12049;32846;12696;16925;16823;8421;8467;8751;0;9859;10862;12595;8322];
[13162;28736;32922;28736;0;13209;16779;12299;28703;12431;9661;10070;0;28717;28677;9654];
[28760;0;28750;0;0;28714;0;0;32778;10381;32777;10352;12048;13150;28769;5303];
[8919;13121;12655;0;11758;28785;28753;8285;32830;0;28821;11956;0;0;28691;5519];
[16686;28679;28739;13208;13174;28691;10217;0;13076;12655;8628;10356;12360;0;13219;0];
[5408;11955;8912;20490;10814;12859;0;12066;0;0;12632;0;12858;9642;13196;0];
[5053;12572;4619;0;12477;16649;12834;16964;12078;20490;12786;0;12584;13164;12068;28773];
[12550;16451;0;0;12948;9044;4931;0;16461;12478;12892;12585;10649;0;9218;0];
[0;0;10199;0;0;12885;10517;28691;0;0;13152;0;12058;8758;0;0];
[9048;0;0;13208;16517;0;9667;12996;0;0;5029;5523;12562;10734;16686;12611];
[16918;0;12729;8919;0;13176;12751;16953;12682;12467;0;12656;4932;28745;28715;16924];
[12894;8397;5029;13086;0;28690;20481;0;5241;12443;12526;0;16697;0;28695;17332];
[12408;8322;28703;0;12002;9065;32844;12885;0;20486;12417;12847;10483;5245;10966;0];
[32781;5825;28820;0;16699;28769;16620;12466;9363;0;13176;12584;12334;8403;0;12739];
[28689;16765;16921;12777;9317;13185;0;13175;8665;0;8657;12989;0;10050;8949;12049];
[0;12550;12873;12978;12001;0;10137;17377;28719;28692;20481;28768;12954;0;0;0];
[32924;17376;28726;17190;28736;12563;0;0;8322;0;28812;16490;0;0;12077;10696];
[28758;11033;16766;16833;0;0;11238;0;16430;12562;9666;12622;12778;4689;13000;10404];
[5441;0;0;8860;28767;0;12514;12972;10360;28708;32856;28821;11768;13174;11236;0];
[32922;32820;12643;28722;0;9913;4762;0;12575;28764;0;16700;0;4947;0;10668];
[0;10100;8964;12610;9563;28755;13056;13209;11734;10995;0;9510;8965;0;0;17329];
[0;12978;0;0;12574;0;16450;10137;12616;0;0;12396;13128;32844;16824;8591];
[28817;0;5758;28702;12561;28817;9248;20490;0;12671;0;0;16914;13176;20484;0];
[0;17386;32807;6246;16833;13029;8751;28731;10750;10075;5711;8621;12479;6388;16621;11267];
[9349;0;28747;17114;8720;12682;17308;0;8397;0;0;8719;28682;5320;32820;13133];
[12681;8459;0;28821;16609;0;12467;17061;10459;28733;17368;10440;9600;0;20484;12563];
[12966;13123;12408;17395;0;5320;12632;32832;12491;12431;28820;5036;8359;28765;9302;0];
[0;9383;9050;10967;0;12443;11632;11711;0;13162;16677;0;12617;0;8397;9564];
[0;13080;28731;0;13115;0;16777;0;11251;16529;28817;32793;28692;16886;0;9301];
[12679;16698;0;28678;5871;8467;13174;12683;17377;28762;32779;8626;8412;12420;0;12480];
[11239;8711;8956;12420;28766;12012;5420;9255;28747;12894;0;12778;11049;32862;0;5857];
[0;0;28822;0;0;28792;5348;12903;12441;12979;5440;12691;12501;12479;0;5709];
[28770;16698;10400;0;0;12324;12408;0;17406;0;0;17140;12552;17151;12766;10671];
[16540;12787;12708;12990;13212;28796;0;16965;0;17369;10969;0;0;12067;32846;13186];
[12563;13114;10482;28683;12348;12538;11267;11246;12067;28807;16619;11910;17377;12551;0;9642];
[0;32883;12851;12681;28825;0;12501;11238;0;12702;17377;16887;16853;12312;0;9003];
[13199;32833;12359;16887;5716;9265;28817;9610;9074;16918;10699;10451;0;8404;9670;11246];
[8412;6073;28753;12671;10110;12430;28729;9002;28739;0;12905;12765;28752;28721;0;8758];
[12539;28760;0;0;0;16525;9950;5414;8920;0;28759;10405;0;28737;10195;8486];
[17329;28754;0;9670;28784;16451;12887;12896;13040;0;9906;8712;12670;0;12372;8423];
[0;12011;11537;12076;32840;0;12741;28680;0;16911;16765;13222;32884;10141;12715;9915];
[0;32818;6451;12049;5959;16774;32853;8460;0;28713;12548;0;13220;5348;5327;12456];
[0;12408;28792;16450;0;12826;16833;9349;17369;12538;17298;0;12562;9601;5320;28821];
[12360;8966;12874;32793;17406;10143;16795;8777;0;12619;12501;17387;0;0;12719;32878];
[12521;0;12300;9309;28727;16539;17377;16911;10112;5441;0;16609;0;32816;13129;0];
[28774;9816;12610;17117;4283;8864;20481;12521;0;12078;8711;6452;8453;12463;9610;8421];
[12584;32832;32924;28786;13012;16801;13128;28736;0;32815;8467;12694;8421;12742;13109;8368];
[12296;0;0;12797;12463;8775;16451;10078;32819;0;10404;12794;12408;0;0;0];
[12979;9311;13220;10736;28693;0;8917;28687;10699;13014;13132;6196;11468;0;17407;0];
[12788;16505;0;5437;0;0;10538;16778;9672;20481;32844;0;0;17329;28804;28738];
[12528;12934;0;9563;11545;28759;0;0;4533;0;12514;9657;28677;10106;16923;28754];
[0;9642;10452;0;0;8322;10142;13031;0;16887;0;0;32829;9680;0;0];
[0;28757;13184;28678;0;12468;0;9862;12453;10234;12609;17331;12920;16767;9075;17408];
[12324;10562;8422;32854;13019;28819;28739;9971;5979;12334;13224;5972;16459;32844;32878;13144];
[0;8758;4969;28769;12468;0;9947;0;0;16920;28688;0;0;9677;10483;11536];
[16965;0;6246;0;13174;12432;10438;11035;8476;32907;9681;10699;17117;28688;8720;0];
[28745;28701;4905;6396;10736;8322;28705;12691;0;0;28699;0;28757;16514;32924;13014];
[12873;10158;13014;0;0;17385;13007;10078;32801;8233;28749;12776;28714;12419;5873;12683];
[13221;0;12384;12516;4782;9320;12479;28686;12408;10143;32832;10375;0;28820;9862;0];
[0;4967;16925;0;12608;0;8487;12619;12420;12609;12334;13223;0;11012;8663;32936];
[12432;32777;4324;32832;16902;0;12610;0;10406;9318;12490;0;0;12476;0;9918];
[12911;0;12822;9618;0;12908;16462;11000;13173;16619;32862;17386;17407;0;28738;32831];
[17016;0;10779;0;12491;12752;11628;28691;13164;5442;0;9564;17406;6252;28694;17117];
[16990;17396;9620;11088;28720;11735;10483;32781;5675;12526;12548;28699;10673;0;16505;12778];
[28720;12611;28777;13014;0;13152;12552;16778;0;17195;0;12586;0;12905;12708;28719];
[12887;11394;12895;13014;12575;13133;0;12619;12443;10144;9563;0;0;0;9076;0];
[16911;12682;17226;12931;5872;17139;0;12683;8460;16518;12896;12696;16922;17069;32863;0];
[10284;0;16779;11374;28762;12905;8453;0;5063;11538;32864;9681;8965;16833;0;0];
[0;8461;8752;10269;10443;11404;0;16766;5972;6258;10524;10836;0;10159;5094;10189];
[13022;12419;12896;0;12906;10377;11078;9664;0;16902;0;8423;10675;12703;9971;16597];
[9973;12527;28760;13155;28822;11355;0;13223;12444;0;9862;0;12611;10158;12995;9676];
[10972;0;0;12587;32846;12874;12898;12358;10114;6109;28740;12767;16972;0;0;11566];
[9021;0;10108;28714;10196;12895;12432;8769;12981;16970;9862;17269;4715;12897;28797;16779];
[12955;16528;9666;0;12371;9817;5967;12574;5874;9022;12919;12779;9051;10782;28727;10151];
[12454;9900;10108;28786;12906;28825;9907;0;0;10407;10201;5886;10196;12668;17387;0];
[0;9676;17049;13025;11273;10205;0;8378;20481;12359;0;0;17408;9609;9518;11135];
[12491;12896;8461;16904;6099;28758;17053;10527;28693;9900;12712;12503;12078;0;0;0];
[13016;28697;9908;0;12516;13221;28724;0;28747;16697;12312;12515;12836;12431;16767;32858];
[0;28722;16934;0;5704;13005;0;10702;16605;16913;10108;5888;9962;13040;12645;16911];
[9561;12612;32930;11545;0;17397;32833;20489;12611;11004;28748;0;12539;0;0;16904];
[12906;0;12780;12906;0;8965;0;16439;16461;12767;16834;0;16833;28769;9367;0];
[9863;11081;9066;0;9350;0;0;12610;12479;16776;13080;10197;32930;0;5907;10079];
[12896;0;16834;13131;32864;0;0;12699;0;12480;10975;5354;12694;17042;28680;32819];
[13065;28729;6270;10449;32832;0;0;0;9900;6258;28781;12420;0;0;12808;13007];
[28728;11648;16621;28759;8422;16777;10561;17407;4970;10540;11311;28719;12790;8787;0;0];
[0;17052;32919;8405;0;32920;0;9978;6000;5601;28781;12574;16987;0;8477;28729];
[10196;16845;12971;28748;0;11767;32878;8712;9665;8468;12549;12632;0;28774;12492;9666];
[17148;12898;12492;32843;12898;5093;28783;28761;12791;0;13054;16913;12514;9900;10740;11012];
[12608;17139;9219;0;10079;12454;12348;0;32781;5671;12526;12886;32794;10485;6102;12432];
[28798;0;12671;17388;0;9357;12991;16903;0;9854;0;12795;11380;28757;11356;9657];
[0;11002;28781;10206;5118;10266;0;28758;0;12780;12789;0;10211;13015;17387;10709];
[12515;12515;5448;11095;12609;28746;0;0;28759;28679;8667;11039;11567;0;9666;28763];
[0;8966;11630;12876;16895;11012;16835;28775;12791;17042;32832;28754;5979;12611;9890;12633];
[12716;12348;28774;17227;6130;12525;11274;12916;10459;32879;17407;28798;12396;28782;28754;10975];
[6413;12608;0;9599;28774;6100;0;9219;9909;28816;13053;9909;0;28752;28791;17079];
[0;13133;11039;12887;28759;16987;13110;0;0;10553;0;0;13132;0;0;9077];
[12931;0;32869;9955;0;28692;12767;0;10269;8786;12919;0;9674;0;12623;5485];
[12994;10871;17045;12981;5638;10804;10705;0;0;12622;11152;28820;16440;12695;0;12621];
[10205;0;28776;17127;10714;9973;12622;10836;32931;28811;28826;28762;13130;0;9563;12768];
[0;0;0;16904;16913;0;28762;11337;0;17396;9386;10242;28762;9908;13196;9085];
[17408;12551;16923;17126;12585;0;12789;13023;12809;0;9022;16994;10213;10145;12575;13133];
[28759;12912;5093;5090;0;28747;32867;12540;32794;28715;10544;16914;12919;0;11348;28731];
[0;28753;0;11103;9918;11866;17275;10206;10191;9917;12906;13015;11349;28785;5444;12861];
[13086;16844;5093;0;17060;16932;8966;0;16904;9011;12705;11709;0;12527;9619;0];
[0;10214;28716;28728;10246;17141;12444;12896;0;0;12563;28758;12548;8786;13025;28731];
[0;12791;0;28786;16912;20487;17201;0;28825;12696;8487;11135;12753;8470;0;16913];
[12983;12612;28798;11810;16463;28678;28816;0;0;12888;0;13016;12551;12647;5475;8422];
[20486;12610;12742;0;10116;28822;0;9909;8368;11931;12010;28809;12610;28789;0;12621];
[13007;16912;5485;10862;0;28738;13134;32898;12561;28747;12767;10497;13086;28738;12994;10872];
[32905;9665;0;28752;12824;5485;11401;12504;12516;0;0;16924;0;12824;13015;9687];
[12646;10214;10743;10215;12504;13032;13017;28764;17139;12768;28693;10246;16767;28757;11303;10189];
[12692;0;0;13039;12612;9964;5447;32905;0;0;0;12823;13111;0;9917;16846];
[10191;10191;13020;0;17069;12730;28788;12478;0;0;5577;28822;12611;10713;12718;12635];
[5912;11571;32881;0;12586;5101;16462;9972;12384;0;0;28741;0;0;0;0];
[0;0;0;0;28758;10838;0;9687;13122;16451;5577;11112;6285;17210;11679;8949];
[12932;10512;0;10489;0;11640;11679;0;28813;12684;32781;8731;0;10782;0;6373];
[28763;0;12704;16999;13008;0;10785;0;32815;11049;9919;10217;8768;28714;12695;5578];
[0;11171;32859;12669;12694;12324;11312;11341;0;13026;0;28765;13026;0;9934;12715];
[0;0;12922;9310;10153;10788;13142;10260;9918;0;12456;12717;5940;12944;17296;32892];
[11571;28726;5577;5644;28727;12624;28748;10758;10251;13016;0;28796;12888;0;10285;11356];
[10460;9955;12814;11083;9964;10452;0;0;10030;16996;10452;12717;12814;12717;0;0];
[10460;17274;10545;12451;12780;11411;13018;10503;11435;12396;11470;17053;12492;17139;0;10273];
[0;8713;0;11610;5615;0;10161;12528;10759;0;28803;10784;0;12780;9909;0];
[12704;8909;17069;12504;28690;28732;12551;12670;11341;28681;10553;12943;9974;28750;13162;9675];
[9972;17410;16991;12824;17174;12718;0;10246;12922;28727;11610;32778;4628;16983;9687;6131];
[11466;0;32930;0;0;12780;5608;8760;11311;0;0;13150;0;12516;0;32867];
[0;0;16982;10269;0;11348;28793;0;0;13019;9067;17132;0;13019;0;17061];
[32830;16991;12551;9086;10758;9620;12659;0;5477;12934;12612;0;6037;12622;32879;28794];
[9973;28788;0;0;0;17044;0;32794;10796;8489;0;28787;12920;10550;11144;9078];
[0;17237;28759;12706;17410;0;28809;12861;10252;9240;11050;12942;32892;13138;11655;11082];
[8423;0;12908;9377;10758;11050;0;11844;0;28687;0;11684;0;4830;12706;0];
[0;0;0;9972;5644;9956;32880;10412;32833;28777;32935;9974;10514;13017;0;9089];
[12801;12755;9685;13036;28729;28750;16993;6394;10570;9067;16775;12694;0;10253;12899;11167];
[0;0;20487;0;6413;12527;13008;32869;0;0;0;12683;5485;12789;8696;13138];
[12586;0;13116;13039;9836;12800;0;10806;17148;28807;6372;0;0;12575;10207;0];
[11058;28784;32845;10498;0;12623;32934;9086;0;11647;12814;5912;32832;0;12968;10507];
[0;0;12789;10498;11058;8722;12696;12802;11701;12492;0;17219;0;32868;12803;32931];
[11635;10806;28762;17228;0;16700;16923;0;17148;10199;12492;12576;16924;0;0;0];
[28774;0;12887;13004;32905;0;0;0;17141;28676;28795;13137;4619;12779;10270;17053];
[17071;10270;5409;12823;12922;12765;13019;20481;0;0;12825;9906;16644;8244;13221;12563];
[12573;0;12516;0;12971;11648;16598;0;28784;16982;11151;28799;13146;13044;9973;28785];
[0;12707;11638;12969;12539;12491;28760;11572;5615;28673;0;17160;32867;0;0;9956];
[0;32922;20487;0;10461;0;12696;17079;28798;32832;0;12705;0;13008;32881;11684];
[28752;10460;0;13137;8368;12636;5913;11159;6174;0;12792;13039;13111;10551;28798;32911];
[11394;32845;10814;16932;9078;0;5652;10161;12693;32858;17008;12800;16856;12692;9089;0];
[11729;8292;28769;13111;0;9083;9965;17079;0;13006;32893;9059;28703;5615;10207;0];
[0;12932;28745;11013;0;12634;13146;11602;4873;0;28764;12575;16856;16451;0;17296];
[10806;11349;8768;0;13123;16992;11356;32937;13007;0;16904;28679;0;28718;12900;0];
[0;11694;0;16597;0;0;10216;28777;12468;11458;9919;17227;32907;0;0;28783];
[13075;17151;12706;28785;28747;12694;16838;17070;0;28778;10276;17306;17228;0;13147;28787];
[12921;9078;28776;12526;0;11387;12900;32908;6033;11141;12766;0;12695;10507;12863;28809];
[12660;17219;0;17161;16856;13112;11480;11610;8777;13027;0;32932;28786;0;0;0];
[11693;12767;0;28789;10460;0;11058;11636;0;13052;6336;0;17158;4726;12028;12444];
[28686;11466;0;12646;8488;12944;0;0;0;17149;28781;0;0;32872;13146;10017];
[9376;13050;10845;9919;17160;28777;0;10516;5486;28781;12921;11142;0;0;4286;0];
[9067;12718;0;11939;0;9984;13157;0;10570;32833;8479;13042;16991;17315;10551;0];
[0;28679;5660;12910;11647;16999;13138;12932;0;16578;13039;13020;0;0;12420;0];
[32884;16993;0;13148;10561;13008;12813;12719;0;12825;0;12718;12994;17061;12635;28796];
[0;28785;0;12599;0;6198;12922;10788;10814;11926;6219;32893;10842;20486;28799;12552];
[10208;12960;12826;10759;0;0;17002;16993;6030;0;10279;11956;0;13064;0;12790];
[6036;6032;9199;0;12894;12672;32937;13063;12534;28767;0;0;12755;28731;0;12813];
[5653;0;5653;12563;13063;0;0;9983;17080;10503;6212;16924;0;13075;28806;17219];
[12527;12719;0;0;5616;12814;0;12897;28769;0;28810;0;16933;10760;0;20487];
[12935;0;32906;12028;11178;0;12815;13030;12428;32892;0;12944;12744;12718;0;11395];
[17236;10199;13091;0;11441;12932;32871;28678;10461;12612;11395;12671;32933;12814;0;13139];
[12647;17140;11113;28755;17219;11058;17229;17003;17316;6211;28742;11087;11143;8488;0;12666];
[11141;0;6136;17211;0;10217;13125;28800;28715;12792;12563;12405;13186;0;17011;9838];
[13016;0;13065;28766;11476;28720;0;12922;12852;10805;0;28748;0;0;9247;28806];
[32842;0;13006;0;6440;6387;12919;10280;17410;0;12430;0;11104;11972;10852;0];
[16924;0;12825;0;11358;28703;6449;0;9983;32816;13064;12345;11105;12756;13197;0];
[20487;17150;17407;10561;0;17248;0;28810;0;12863;32933;13138;0;16845;12696;13032];
[12780;9674;11104;28679;28751;12920;10217;12930;6312;12944;28697;9087;17015;9086;0;28800];
[12474;0;32937;12624;0;13147;12720;13157;28746;28776;28730;0;0;20489;0;12717];
[12945;0;16677;12994;12684;0;17170;16857;4653;28751;5616;16462;0;0;10870;10578];
[28762;8778;0;12557;13148;12427;28732;12909;10869;0;17002;28719;28766;5653;10860;32883];
[0;17150;0;32932;13175;10869;28762;0;9985;8460;8350;12923;0;13138;0;0];
[12899;12886;20486;10207;0;11611;17150;0;32853;0;0;12659;9181;0;12933;32932];
[10573;10852;10255;0;0;0;11711;17004;0;8489;0;32910;9089;12028;0;13052];
[17081;6379;8912;12333;13031;28738;28758;0;11694;0;13139;28808;12575;28809;5661;0];
[11104;0;17211;10554;17014;0;28722;4576;6343;4852;12816;0;0;4668;9965;11113];
[6212;13019;16936;28788;0;11656;11977;0;10805;17305;13155;0;11161;17388;12492;11222];
[0;17004;0;12684;10853;0;0;13019;13171;28678;10116;0;13076;20484;0;0];
[17090;8320;28775;12826;0;12826;0;10507;28785;11168;10516;0;13156;0;0;0];
[17081;0;0;12720;10562;9676;13028;0;17411;12923;0;12672;13140;11866;13140;12600];
[0;0;12945;12533;10218;17081;0;17220;13176;13182;9560;16858;10264;20483;6387;11395];
[10507;8787;12539;13039;9986;0;28800;28720;10805;0;13149;13020;17219;12738;4868;17012];
[32841;12504;12960;9686;11710;13077;11694;0;28773;13138;17091;8986;0;11477;0;12564];
[16620;17219;32779;4826;9986;11711;0;0;12593;32816;17012;28828;32905;28800;17282;28791];
[28724;16925;6211;28794;0;9175;5304;0;11152;17238;12815;12993;0;13091;8489;0];
[9089;0;13075;0;12796;32859;12708;32896;12708;32896;0;5771;0;4907;6045;10516];
[13079;0;17062;28809;11105;0;16665;0;12546;0;28787;12732;0;0;0;0];
[13041;0;28810;9687;0;12696;6312;0;4589;11105;13020;0;9986;13194;12659;0];
[12911;6212;12028;28743;9387;0;9687;28786;13152;0;28726;0;17159;0;20484;8255];
[0;32859;9937;13112;0;0;28743;10815;28809;10039;9882;12576;16650;32835;11160;28802];
[16617;28745;0;8548;11757;0;13125;28725;32817;12924;12924;16420;17316;0;32898;10272]]%N.
Definition LOOKUP_17 : list (list N) := [
[12580;13147;17306;6351;10516;28782;12604;28676;0;0;16499;13128;12533;32831;28813;13042];
[17220;9768;28800;32906;0;13090;0;13031;13156;0;12923;17238;28739;0;0;28726];
[10156;13147;28749;10580;11534;17289;17082;0;17082;32841;28782;0;9686;13014;13112;12558];
[12911;13149;32845;8643;0;0;28777;10626;8695;13140;0;12654;28725;0;17170;20485];
[0;28711;11766;0;13150;28715;32918;13029;11702;12912;12893;12465;16608;11168;0;12344];
[0;8882;12512;28729;9676;12309;0;16937;0;9544;9253;11114;20485;16812;17016;12881];
[9675;11412;12708;0;32935;16721;12900;17297;17290;0;0;13139;0;10621;28757;12428];
[12936;0;12911;0;0;8356;12946;16648;17298;17308;0;0;12900;17015;0;0];
[12984;28757;0;13030;0;13127;32842;10815;28743;11657;12533;8649;12344;8612;0;17317];
[13043;13041;28770;13176;10562;16497;11413;16842;12924;28734;12309;13134;13158;17326;12816;28810];
[9551;11749;0;0;0;12654;12467;32841;28823;0;0;10324;12499;0;17012;0];
[10283;0;12322;17013;11749;4627;13008;28775;0;10322;28713;13139;6396;8343;12394;0];
[10283;13140;8256;28712;16541;9838;16579;12000;9985;11467;17250;0;10263;9984;9479;11297];
[28703;4823;0;12592;28751;16675;9598;0;11656;28797;11468;6220;28688;9984;0;0];
[8278;10920;12464;6426;0;0;11413;12576;13031;12813;12665;16755;28811;32817;0;28758];
[10274;0;28763;9984;0;0;11869;13159;11703;13065;10625;4560;32885;9066;11749;0];
[28731;0;12706;13040;28737;13019;16744;10588;0;28774;12381;32898;10264;12982;12324;0];
[13029;10861;28678;0;11909;32818;4829;12393;12404;12750;28696;13195;0;28721;0;10264];
[12504;0;0;28757;28812;11711;13031;4587;16677;28810;8365;0;12857;9540;10274;28678];
[12079;13020;6350;13041;0;0;8619;13092;12996;0;28757;13066;16856;0;32806;5156];
[6395;6443;0;12333;17016;20484;12531;11871;8333;0;0;16857;28679;0;8962;17014];
[13149;6396;12475;32907;12440;12869;9387;12720;12945;12720;0;11694;16440;8656;12761;28769];
[11910;32897;17239;4392;10573;11459;28813;10273;11954;10816;4815;32788;12912;9175;10924;0];
[12828;0;0;0;0;10881;16437;0;12954;13212;32778;10886;12744;12792;8649;20485];
[32842;28727;9971;0;0;10057;17241;6442;12383;10282;17317;12900;32815;12664;12416;13138];
[0;28810;0;0;10554;5003;6441;0;32917;0;0;13020;11460;11459;28733;13220];
[9986;17015;6396;4838;16517;12846;11217;28735;28717;32842;6396;0;28758;12546;17308;8583];
[28743;12407;0;17092;13182;9507;12392;16667;0;0;32793;0;12802;6434;16597;13043];
[13140;28690;0;0;0;0;10563;8319;12876;0;11208;12816;12778;16871;10880;0];
[12720;8319;12840;11160;8350;0;17327;11946;11480;11703;10871;0;5381;0;12665;10218];
[28732;32793;12368;10283;6442;12924;28714;11459;20484;9551;0;16605;11712;28688;8486;4560];
[0;28737;12074;10281;28675;11985;11992;12404;0;0;12322;32918;9349;17327;9508;10274];
[16527;0;28800;28736;0;0;12371;11742;9935;28715;8917;17348;0;0;17173;0];
[28745;0;28692;11160;10880;12971;12564;10581;28823;12310;28722;12816;28772;5300;28730;12492];
[6174;28734;12308;0;8606;12382;13218;32818;12594;28728;16922;0;13092;0;32896;0];
[16605;9541;0;28702;4920;12416;32831;12773;12534;0;28768;0;0;10586;32819;16837];
[13008;9000;0;0;20484;8693;12737;28747;13067;32843;4633;16667;16597;0;11170;8403];
[28701;8467;12761;13044;9009;12334;9387;0;0;8710;0;0;10582;9241;0;11909];
[28749;13162;12768;6451;0;10273;13183;12870;8918;32827;10573;4811;13076;16606;28810;0];
[12972;0;12511;13183;13151;0;32806;8678;10789;10584;0;12403;12334;8709;9986;0];
[16570;16868;9612;0;16766;0;28693;11180;12322;13092;16756;8882;0;17095;0;12605];
[32790;0;0;0;6388;8954;0;28800;17387;28688;13207;20484;0;0;9748;28732];
[0;0;8480;13013;9480;0;11750;16667;20483;0;10505;8946;11902;17082;0;12065];
[11451;10884;9078;12298;16775;0;28796;13152;13001;32920;0;9286;13173;28798;11947;16862];
[28756;32843;16447;16450;28738;32779;4882;8612;9550;8320;10283;28811;16517;6084;16448;9430];
[0;9802;13161;0;28733;28775;12065;28768;12475;32805;8647;13017;0;0;9300;17299];
[12772;16649;28680;12500;4916;0;28819;13195;32832;28803;13163;17411;13171;0;28812;0];
[0;32816;12912;0;32831;12604;32937;28721;12866;9605;0;8649;28748;0;32817;16498];
[0;0;28718;16527;12594;32937;9018;12534;9662;17298;0;0;12858;13185;10516;12900];
[17250;12416;13152;10034;12924;11477;0;0;12383;12451;0;12676;13128;0;0;10341];
[8664;17161;0;0;12382;28818;12630;6351;11596;12936;8350;12075;12583;0;28708;0];
[0;5767;28694;16763;28686;28728;16427;28689;0;0;0;17309;28706;32844;16587;32846];
[11946;11469;0;12478;11180;9293;9509;0;8689;12801;4666;20481;12370;13127;13116;5009];
[11776;0;0;0;6434;32830;12726;12370;32919;9883;28815;32830;9559;10582;12666;13020];
[17319;10623;0;16528;0;0;0;12479;5241;16963;12977;11468;13149;28756;0;9298];
[13161;0;0;4612;12333;9611;0;13196;32843;16686;32844;9560;11985;12869;9863;11947];
[17170;8314;13020;5512;32830;12977;12738;32776;10031;28726;8285;12576;0;28744;16767;0];
[16606;9662;12511;0;0;10881;0;16658;9590;11713;10925;28690;0;12948;12000;12594];
[16874;0;0;0;0;0;16685;9388;13175;28729;17327;12347;12440;28815;28732;12605];
[13184;13065;8337;28678;8402;12406;12876;0;6397;12428;0;32833;9308;9751;32792;17354];
[28711;17249;17252;0;0;0;4917;10111;0;13104;28682;0;9560;9316;10256;13126];
[28728;32921;28816;13080;16839;10921;0;12034;28701;0;16527;0;13160;8955;5230;17320];
[12666;5756;0;16874;12055;10382;0;12501;9182;13195;12418;28714;16492;11946;10583;9837];
[12909;12887;16517;0;10071;12960;8396;12487;9970;13171;17249;0;0;4859;12954;0];
[9751;28680;28791;9182;4372;0;0;0;12454;11180;12370;0;6443;9671;12880;9217];
[16755;16816;28732;16755;11181;16736;8420;12828;0;12801;28755;0;0;0;0;0];
[10285;0;13195;8458;0;8446;5199;32831;0;12009;11779;8963;8406;10132;28676;0];
[12489;17330;12523;11481;10342;0;12789;0;6442;5791;5232;12357;0;0;0;32804];
[8604;8949;12010;16619;13206;12642;0;16766;12881;28788;9845;32832;32931;28734;9653;9859];
[8285;12009;9262;32845;9801;0;0;16667;13116;8695;9555;13044;12371;13196;13196;11478];
[9041;28809;12296;10122;12430;0;28749;32937;4932;12420;16764;12323;12396;16695;9598;0];
[0;6397;13098;9940;12549;12726;16766;5512;12511;13173;16542;12383;8322;6160;0;5764];
[0;0;9349;13116;8452;9815;12878;11478;13160;11955;12384;9254;0;13152;32872;0];
[0;12681;12720;13211;0;12605;28690;12523;0;32844;4609;16756;12348;13140;16895;28747];
[0;12595;0;28746;8665;0;0;0;12396;12583;5236;0;12347;0;12476;0];
[0;12396;32820;13140;28811;0;16459;32934;32842;4928;0;28739;28735;0;9606;9598];
[12990;12571;12418;32820;12442;12479;12666;16500;13163;0;12512;12443;17317;13104;0;11496];
[0;12560;32921;11767;4935;16777;16698;9802;0;12891;9073;12803;8285;0;0;0];
[16604;0;0;12684;28702;0;9509;9778;8396;0;11035;10095;0;0;9293;0];
[0;0;16767;0;28807;16519;12708;8358;28711;0;9254;12383;0;9597;0;4610];
[0;10343;28714;0;0;28785;12816;12322;9808;12573;12618;5852;0;16421;0;0];
[0;12333;13174;0;0;28759;4858;12503;5758;0;8965;0;12311;0;28689;12453];
[11910;0;12002;16688;0;16755;28727;28821;12894;28759;0;12067;5791;16913;9308;0];
[12984;16952;12690;6037;11481;12057;12444;12655;17328;12383;12762;0;17394;0;0;28827];
[8883;0;9897;12525;12056;9300;13188;12357;0;12478;12002;0;28733;12548;0;12010];
[9896;32807;8749;6085;12324;0;0;10218;12680;5528;16776;0;12491;11503;0;0];
[13208;0;12572;4458;9859;12978;0;12527;13197;11778;12804;12778;0;0;17327;0];
[0;28750;10346;8620;0;0;9858;12572;0;12431;16438;9009;9815;11523;0;10131];
[28822;0;8452;0;12467;13162;12078;4683;13185;12871;28756;12999;28679;10284;32841;4681];
[10099;10459;12491;28772;8919;28812;11266;8703;12475;9364;11768;11246;12076;8396;0;12442];
[12384;12538;0;13184;17368;6451;12965;10207;9063;32832;28730;11769;13196;0;28706;32791];
[13209;28823;0;28691;0;0;28680;13164;12527;13008;32891;28758;11947;12384;32844;5527];
[0;10881;0;11768;11767;17248;13184;28799;8964;5241;9294;0;12776;9905;16767;0];
[12739;12010;12656;9660;0;0;8451;0;13185;0;0;12430;12420;10633;9510;0];
[12893;12502;5863;13185;32833;0;12690;0;16528;12525;9563;0;32820;13208;16439;13001];
[9858;28713;12891;12763;12573;0;12527;12538;12618;10471;0;12333;13197;9009;0;0];
[0;32911;9648;28812;12574;0;11402;16700;12768;28737;5256;32819;10135;9003;8621;28792];
[4700;12066;5327;12467;32844;9373;8359;0;8964;16509;16766;11049;28773;17036;8766;16450];
[0;28815;13175;16462;11515;0;8703;13176;12396;9906;12728;12001;0;32831;0;12477];
[12618;12490;0;11955;0;0;9064;0;13196;0;16450;0;0;16894;12503;4711];
[0;12776;28760;9056;9263;0;12680;13152;16764;8712;0;13175;0;12894;28734;0];
[0;10932;13208;0;0;0;5957;9897;16676;9048;12786;10698;10067;0;5409;28749];
[28691;8452;32882;13140;0;16895;0;13000;32853;9896;12882;0;12889;11033;10584;16461];
[28729;12512;28749;13197;5823;9311;9651;0;12491;0;8751;12740;0;12408;28679;8765];
[32832;12861;12608;32911;10107;28738;12655;32807;5770;32855;32924;0;4953;0;12608;28692];
[0;10996;12898;12431;11229;9642;12618;0;28806;28726;0;8421;13197;10109;12682;17384];
[0;12609;12699;0;12500;28689;16463;17369;0;5799;0;10189;0;12893;28690;12408];
[0;16462;0;12551;9084;0;12895;10071;12347;0;9074;28749;28760;12300;13209;10360];
[12871;0;0;12075;9898;8758;28706;13091;12611;12643;13212;13220;16440;28782;5951;17116];
[9816;28731;9652;28821;16816;16775;10998;13175;12477;12371;10112;11523;9317;9601;0;12631];
[12384;12989;0;9896;0;12079;12079;32854;10149;11331;10106;12708;0;28710;12966;12011];
[16459;12480;17038;0;28797;28733;28732;0;10583;11817;13223;12561;12360;5952;10143;0];
[11518;4682;17044;12786;28799;0;0;12609;0;0;28811;9002;16440;0;0;11380];
[12491;12549;12778;12550;0;9593;12795;0;16980;12010;0;12610;13209;0;28731;12431];
[16675;28798;5256;28827;12455;16960;16775;12587;32846;9662;10804;28718;13197;9899;13164;0];
[13219;6247;13010;28720;10412;13116;10078;9301;12894;12862;13207;12502;0;12739;8404;16766];
[0;28727;12478;0;17117;16528;0;8711;28822;12492;17331;0;10736;0;5327;12822];
[9906;13206;12300;10940;0;5402;0;0;12610;10467;12871;17332;12490;10750;0;5528];
[5469;0;8949;0;0;13219;10998;28729;28819;5414;28785;0;16538;0;28821;0];
[28792;12584;28773;12347;16971;8366;11004;17406;28707;0;13032;9382;0;5427;10472;16990];
[0;13208;17395;17368;0;9050;0;9372;17385;10736;10113;9057;10234;10424;0;16965];
[16687;12515;12705;0;10375;9609;28719;12910;0;28714;9518;12065;28693;9939;12551;32879];
[8752;0;28782;0;0;0;0;9817;28785;9947;16777;17368;5800;16902;9891;0];
[28759;12702;0;0;9065;12797;12456;16894;32853;13220;12058;6440;12396;28749;16776;8404];
[5413;16776;16451;32891;28765;16920;9383;8766;12502;12467;12057;0;0;0;0;5026];
[12561;11049;12788;12792;16816;32833;10245;13212;13222;9065;16971;16451;12584;10144;10714;12779];
[12300;12632;0;10405;10143;32905;0;28749;0;0;28774;12514;12693;12489;28817;9051];
[5439;11233;8413;12612;11545;12323;12479;28723;16451;12515;0;0;17043;9961;8752;12635];
[9364;12610;0;0;12885;9610;16895;28707;12610;28822;13092;12420;12796;5601;10208;10713];
[0;0;9938;12611;12420;17396;12611;28690;5539;9083;28714;28774;12456;0;0;10451];
[28749;0;12066;28785;10838;12671;32831;28738;0;0;17117;12766;12885;13080;16914;12907];
[0;10158;12514;9256;12079;10079;9907;12453;0;12670;32864;16451;0;0;12620;0];
[13006;32863;4969;28777;9665;5442;11777;32846;10161;16777;0;13010;12871;28774;9862;12610];
[28690;32807;5967;10150;0;10973;0;4715;9907;11341;9382;28762;32861;12076;12789;12873];
[32879;5094;0;10674;28738;11334;9618;5870;5316;16880;12837;16903;28716;32794;0;12525];
[9854;28696;28823;11077;0;0;0;9084;0;0;8775;12524;11956;0;8666;32820];
[28778;12432;5877;17131;17196;4712;16808;9967;13109;12692;0;16842;0;12584;32892;28757];
[0;9861;12874;12740;0;16767;17398;10151;11137;12767;12754;12752;0;11534;28753;8621];
[16970;10234;10674;8767;8711;12684;16621;8995;9356;10200;0;28692;12798;4968;12884;12526];
[13011;17388;5094;10233;16983;9051;12348;32895;0;9899;0;13128;12904;11647;9947;28751];
[28749;12631;17042;13002;28753;16973;0;12455;10459;32867;12479;12444;16925;5979;12525;10114];
[0;5059;0;4966;17052;16903;0;10973;12622;0;28771;16934;28762;0;12849;8658];
[12873;8468;13030;0;12348;12906;10442;28718;12897;16700;17069;12704;9817;12729;12455;12779];
[12490;0;12609;10708;5636;28762;5101;0;13013;12682;12502;5601;6087;17386;12645;0];
[10414;11819;12798;12902;11300;13110;12502;6263;9863;0;0;16985;12573;0;17396;16777];
[28753;0;0;16974;28738;12766;10973;5062;12492;12780;17237;10442;0;16982;17131;12788];
[12933;16923;9051;0;9960;0;12754;10153;12443;28708;0;17369;0;10233;28764;32930];
[12768;28773;0;12503;11005;10932;11002;13086;12694;10461;12906;0;12906;0;12786;0];
[28819;12527;11629;10377;0;11356;16982;28695;0;6109;0;12874;12704;10145;13134;28811];
[12906;12077;28786;32844;10449;11081;13171;16970;5601;32819;12694;0;16620;10159;8359;16974];
[12335;9863;12067;12490;28714;0;12420;17125;17275;9022;12849;13133;10498;17139;0;28682];
[10108;8704;28782;13199;0;17069;9066;0;16903;17042;12479;10786;28828;16895;0;17386];
[32930;12611;9051;8486;0;12525;17148;13182;11539;9960;0;12504;28730;0;8460;28743];
[17131;16440;11679;28758;32868;0;5093;8965;0;32879;32879;28758;16460;0;5816;0];
[9966;10160;11338;12919;12801;0;28728;12636;13121;12575;16924;17093;0;12898;32832;12897];
[32779;5017;12576;12790;13085;12645;12442;0;12919;0;10235;12804;10488;12705;16835;28785];
[12800;12898;16991;8368;8461;13054;16657;11566;28794;0;11273;28774;28785;9620;12790;28749];
[28824;5638;12742;0;12539;32867;10415;10796;32870;10838;12503;10751;28679;28804;17406;10239];
[12513;28821;11387;0;9058;11159;0;32831;0;17004;16914;12491;0;10751;16991;11085];
[13030;28771;16921;12898;13196;0;17226;12704;12791;16461;0;12695;16854;12609;6204;12492];
[12300;12906;17332;28749;28677;17079;0;8460;28787;8468;0;16974;12992;17140;12823;16843];
[12706;28821;12876;16450;4591;17386;0;0;9672;9012;10497;11135;28749;28827;20481;17410];
[28747;0;12908;0;9909;12575;12695;0;10284;9511;16924;10751;0;28775;12620;16904];
[28816;0;12886;12489;17001;10213;20488;16460;12443;0;5894;12802;0;0;13075;17408];
[17408;16974;28732;0;0;32879;28745;10218;10153;0;9084;28773;12490;0;17140;5638];
[12863;0;9917;12599;12456;12743;0;20481;12790;9620;17162;20490;0;0;0;28775];
[10198;9066;16767;28775;12622;12610;9384;9075;17148;0;16451;6197;0;16992;0;0];
[0;0;16463;0;0;16914;28825;32868;13079;0;0;0;28774;16844;28745;0];
[13221;12908;28757;12563;8405;28729;28771;17140;0;8995;9545;12945;16983;12840;13131;17070];
[17227;12585;12801;12396;9981;10415;10251;6192;0;10199;16999;28720;12886;28764;12919;11050];
[9067;12801;0;16449;17092;12991;9253;11311;28684;0;11095;13039;11573;12910;0;12789];
[0;10162;11640;0;11349;0;10796;0;12993;0;12475;16925;32895;6419;11678;32854];
[16845;32833;12876;32904;17158;5443;0;12791;8480;12804;12838;28807;10452;32871;0;8453];
[0;32936;12492;11394;12779;0;12931;12942;0;28779;0;0;13050;11679;17407;0];
[11679;17236;17203;12850;12623;0;17398;17079;0;11401;11349;12624;12587;32870;0;17309];
[12312;12923;28723;10216;12620;28755;28764;0;5477;10161;16922;17061;17072;0;32892;0];
[12899;0;10161;0;0;17240;12790;12379;17396;13024;10243;10852;12622;16992;9963;0];
[12611;28762;0;0;0;12419;0;12492;0;11380;28796;0;32882;28819;12659;12610];
[8487;12419;28698;12791;0;28796;10161;10214;28753;32820;11095;5486;9357;12706;32931;13039];
[12491;32870;28760;0;0;16776;16642;11610;17149;16995;11401;8479;0;0;28816;12898];
[0;28725;28751;5652;0;10274;0;0;32937;28758;12355;20488;13050;13066;0;28719];
[10758;12948;32894;0;28798;6413;13132;17409;0;5608;32778;4489;0;12957;0;28762];
[13050;0;20488;32893;16417;12648;12695;0;16800;10517;28765;10759;8255;0;12343;9086];
[16463;13077;32867;6030;9963;32906;12824;13025;28765;28800;10514;32937;0;28765;0;11151];
[12480;0;17001;0;12813;6007;0;28697;9972;16933;0;10246;28724;12490;17408;13051];
[11596;28761;10245;17248;13016;13026;8786;9078;13212;28767;32857;0;12731;12420;10153;28697];
[10217;9919;0;9085;12707;0;28702;13132;28788;13026;28713;11411;9981;0;6167;12612];
[28775;32871;0;28737;28823;5652;6197;17080;0;6197;12492;6336;9321;5616;0;9674];
[9955;28758;10506;12957;0;10570;6274;12920;0;17270;32934;28713;0;28774;28749;0];
[10116;0;0;0;12943;32867;0;0;28710;0;28708;17140;0;32883;28820;0];
[28764;9358;0;17070;13043;12899;12432;32857;17299;10507;0;16699;20485;28747;11413;12922];
[28684;12887;0;0;11458;28796;10263;28752;5577;12623;9374;0;17228;0;12492;28732];
[10216;10252;32880;12921;0;12910;13018;6204;13017;28766;6441;0;0;9376;0;5486];
[0;9377;16934;32931;12552;11096;28762;13026;32896;10199;12802;8924;28775;12611;9956;8787];
[28828;11694;0;12956;12801;12684;17172;32807;11816;12875;13144;28738;6004;13098;17094;0];
[9386;0;11436;32871;10506;17228;8470;0;28798;28774;9683;0;28797;12492;10515;8640];
[28799;12789;17407;0;0;10253;17003;9358;12418;28785;11469;0;13018;28813;12922;13043];
[12516;28789;13051;28728;28765;10797;13026;0;0;0;12432;5910;11686;28798;12779;9685];
[12911;0;0;0;28707;11657;10507;9972;11436;0;8788;12996;0;9964;9972;9666];
[0;0;12911;5661;12858;0;12824;0;28791;13144;12719;13028;12079;28784;0;28696];
[17002;28773;28797;0;12972;0;12876;0;13018;0;0;5653;6174;5911;0;12899];
[12540;8491;6044;28827;11603;12538;0;17082;17090;0;28732;0;11144;0;10253;6174];
[12993;12944;6371;12718;11104;6174;17211;28715;12599;6336;11822;32932;9022;0;0;17252];
[12911;0;6162;0;32905;9918;12921;10217;0;28799;0;0;32793;10573;0;16855];
[10860;12887;17004;28789;0;10162;28732;13018;13019;10544;0;12910;9974;17387;0;11693];
[9592;12731;9975;16925;9918;28766;12767;20488;28678;32932;13028;0;0;0;10805;12792];
[11151;9965;16835;0;0;8789;0;0;12898;11710;10270;0;17062;12696;12815;28749];
[10261;12576;12719;12504;0;28677;12563;13039;0;13007;0;10247;28772;12911;10270;0];
[28755;0;12804;0;8976;28802;13030;0;0;13008;28828;10261;10844;11648;0;9965];
[12815;10263;16993;0;0;17228;0;12814;6163;0;12899;12534;28796;0;17211;12488];
[12480;13113;0;12791;17275;28748;28729;16933;10573;0;32931;12899;0;12719;0;11168];
[10270;12695;13030;11357;17169;0;11349;9974;32841;12972;17315;12716;11647;28728;10559;13144];
[11735;32937;20485;12564;17162;28748;0;28766;13019;12635;16522;12428;28759;28720;0;28790];
[12888;13006;32908;12516;10263;0;12910;13042;13136;10872;28793;9975;0;9974;0;5958];
[17141;12792;9973;32932;0;13075;12815;32872;9676;0;0;12621;32880;28770;32793;12597];
[9973;13018;28716;0;28722;12696;11451;4194;6136;32872;12534;0;9816;0;0;0];
[11143;11395;0;0;28778;32802;9141;0;13101;10853;12516;12814;0;11096;12501;10759];
[13086;28801;0;32932;12815;12528;9388;6394;0;10277;16657;10853;17012;9919;12717;12996];
[12792;9975;10860;0;32790;32870;6220;12612;0;12921;10805;10516;4428;13161;11395;0];
[0;9974;10452;12732;0;12058;12977;32872;0;0;9675;0;12826;17159;0;0];
[13127;12814;12910;32884;5913;8769;13134;0;0;10284;0;12468;10255;10517;17083;12441];
[10272;0;28799;8905;0;0;13183;0;0;10853;16660;16426;17297;28759;32908;9518];
[16815;10216;0;12666;6045;10027;11152;10924;12420;12612;0;32843;0;6351;28737;17141];
[0;0;8490;16746;12379;10284;28727;17071;0;17237;10264;12432;9388;6373;10816;12655];
[16845;32936;12502;6167;17306;12369;28715;0;11403;0;10123;12525;0;0;13207;12839];
[11443;0;12624;9839;9377;0;17169;0;28806;11932;17090;17013;12551;8320;28734;13111];
[0;0;0;16935;32790;12944;0;28786;28702;12516;12780;0;0;8745;0;10272];
[12816;0;12762;12779;12540;12840;12761;12921;0;11450;0;8620;0;12947;11467;0];
[0;0;0;10264;12600;10571;9983;17308;9203;10217;12792;9837;12612;11152;0;4814];
[17069;10273;12480;0;9355;0;16820;8331;0;28687;4857;10274;12624;11889;9545;0];
[9965;0;6212;5012;11181;10515;0;32894;32936;16937;0;16596;8233;0;0;10760];
[12369;0;10861;12751;12564;17169;12658;0;0;0;17230;12552;10273;0;16463;13052];
[17316;12696;12503;0;32910;12491;13054;12526;17014;0;17289;9885;32858;0;8256;11476];
[17159;6211;0;0;12815;8864;0;12803;0;12731;0;28787;0;17320;0;16934];
[0;10282;11412;9470;12816;10554;0;10263;4291;0;12684;0;12900;28784;9262;32832];
[0;0;9261;13019;0;9088;28703;8657;28786;17012;28767;0;12394;9469;12612;32828];
[9975;12960;0;10065;0;12827;0;28731;8831;0;12732;0;12464;12803;28728;28709];
[0;16505;8479;12638;13042;28676;32805;8348;0;13030;0;12708;28810;0;10280;17290];
[0;11115;13054;17150;12672;0;17170;13075;28736;0;28741;8284;32777;12637;9308;8488];
[16587;13112;32910;0;13068;0;0;17014;0;6045;13064;13078;12687;0;17162;28690];
[12676;10187;12516;17241;0;12498;11756;8954;9687;0;16587;4630;32830;6395;12420;13041];
[0;11648;11357;13136;9152;0;9685;10583;11656;10861;28775;12576;17306;11403;0;9965];
[11180;0;28735;0;6449;13090;32916;0;10580;12792;32910;16662;28701;0;9676;0];
[0;0;0;13043;9813;13043;13020;28774;11648;0;0;10225;12381;8555;12900;0];
[12684;0;8280;6380;12420;13124;32778;12733;0;28750;28699;0;28673;12875;10283;9985];
[13111;16937;9471;0;11477;16449;28811;0;0;6450;11477;0;0;12635;17297;28781];
[28681;0;17081;6387;9177;17162;0;0;16665;13079;32908;13137;8946;12935;16858;17013];
[12783;0;28785;28810;12772;12893;11711;12720;12514;16936;6175;0;12912;28779;28796;0];
[32909;32832;28692;12359;28734;32807;16691;28811;11742;17228;32792;0;11656;0;9909;12359];
[0;17091;0;0;13147;12442;9975;16413;11939;11160;12323;0;6452;32910;9883;16587];
[0;0;0;28751;28715;0;6312;16670;12298;0;0;11459;12368;12816;0;0];
[0;16872;11694;0;9907;0;32801;4205;9088;16430;13188;28796;28735;17307;17239;12845];
[11467;17316;16765;0;0;0;12510;28722;13125;9024;8831;8547;0;32794;0;11750];
[0;17160;32859;0;13054;13187;17408;11152;0;20482;17290;10870;12638;0;12828;28676];
[12780;12935;20489;16806;28779;4795;12923;12545;10563;12580;13055;12996;9975;5724;12466;10282];
[0;9449;0;0;12065;28681;12420;32790;0;17316;17298;0;0;17309;0;0]]%N.
Definition LOOKUP_18 : list (list N) := [
[0;9308;28697;12578;9320;28698;16763;9240;0;13210;32802;10321;12612;0;32909;28756];
[28757;12756;0;12366;4631;13147;11978;28717;8883;28699;0;28732;13147;8412;0;20486];
[9479;16500;9797;0;0;12528;13066;4257;17306;32817;0;11451;0;16662;17290;0];
[6397;10554;0;32918;12465;8352;8701;13078;32820;6388;11909;28704;16733;0;13042;4400];
[11978;28811;28767;12296;0;4543;0;9986;0;0;17238;0;8918;4559;16823;11169];
[12734;11779;12533;11978;8613;8778;17162;9018;32778;4568;32842;9017;11468;11179;13067;12948];
[10284;20485;0;0;10572;11160;12552;12676;13008;13183;13224;13149;0;12869;0;32841];
[11459;0;16746;17240;0;8946;11451;5122;28722;12654;11480;4507;11403;11749;12534;0];
[13150;12708;17307;13078;20484;0;0;9286;13019;11946;0;0;32922;20486;0;0];
[4880;0;11749;9452;5638;16839;11179;0;13158;8911;6450;32841;17395;32917;11181;0];
[10581;10284;28727;16858;10581;10175;8343;13197;11947;16668;8332;10285;0;12828;0;4400];
[9452;12785;12630;13185;8394;16665;13150;0;0;0;8646;0;11777;28747;9985;0];
[12911;11152;28732;8583;16516;0;11897;0;9986;10584;16832;32828;0;16448;32843;0];
[0;0;6450;8974;16438;28779;12630;32793;9474;12475;12528;12772;9770;13195;13158;12696];
[8583;6220;0;13008;9299;13149;16887;32817;13067;10326;13055;32919;20490;12750;28817;13092];
[28714;32818;13031;13052;16674;12675;12405;4756;0;12404;28686;0;16756;20485;16737;32791];
[13137;9540;12369;11978;0;13020;0;17094;12642;12402;12648;0;11766;32841;8828;10033];
[28678;0;32788;13028;16526;9986;12684;13149;4592;0;12677;17014;0;4235;0;11711];
[28745;12826;28814;11459;11993;13042;10911;32842;28723;12666;0;0;8882;8583;0;6434];
[13185;8656;4813;0;12691;12440;13157;17173;32803;12344;28722;12405;0;4598;0;12936];
[8918;11181;11451;32843;0;0;0;10611;16754;12513;10916;12772;0;13206;0;0];
[0;0;0;13148;0;12995;13114;9556;12684;10582;8790;11179;17320;10622;32871;6441];
[28712;17317;0;0;9552;13068;12609;12750;28681;17251;12919;0;16874;0;11909;0];
[0;9187;0;28746;0;0;11765;12897;28730;11160;32844;9540;12738;9515;0;6212];
[10035;32918;13104;8643;11169;28744;12966;11596;0;9751;12965;4438;17251;0;12773;4856];
[9286;13000;0;17250;16598;32896;28727;13020;9217;8955;0;13150;5357;0;16839;17249];
[16675;16596;0;9175;8693;17092;28704;0;0;0;9253;8656;0;17327;17093;9474];
[0;12523;12393;17327;12000;12418;17095;4437;10223;4849;28738;16874;11105;32831;32801;16868];
[12394;9181;9565;13139;11767;32779;5001;9557;12924;12936;0;11775;28702;0;10624;0];
[12672;13206;0;11179;12869;13032;28732;0;9751;16524;5240;0;9748;16754;32844;28692];
[0;8584;12321;5009;8649;28798;12346;11992;28815;32793;13209;9837;10263;32843;12311;16765];
[0;9474;17003;16508;32844;12804;0;16440;13044;0;8649;13138;6434;13161;17220;0];
[13207;0;13151;10883;12960;8432;16993;12348;5800;13160;12789;0;9647;28748;12924;0];
[0;5953;12405;13183;17082;12773;12995;32806;11506;0;10156;28716;12475;12453;11479;0];
[12074;12642;13173;16618;28697;13183;13171;16618;17307;0;28739;28722;9801;0;5393;12395];
[0;9560;0;10284;32780;5228;0;8357;10882;12602;10860;9210;12995;32859;16587;11946];
[28745;28681;0;12499;0;0;13187;0;16756;12572;0;0;28738;28738;9262;32921];
[28738;12846;12487;16876;10035;0;12487;13183;16765;20482;13151;0;12430;12415;0;10061];
[6030;28702;12791;13183;32781;5867;13162;16754;0;0;12396;16858;16756;12476;13150;12603];
[32805;11218;0;12604;16736;17388;12559;0;0;12784;5236;13163;9777;16777;13140;28756];
[0;0;28714;9254;9480;8450;0;0;13125;0;0;0;9563;12466;9373;28717];
[0;12678;8357;12858;28681;13173;0;8411;16763;0;28738;0;28744;32830;8994;12454];
[0;12048;10624;8775;12642;5229;13056;0;0;0;5520;0;17174;12884;17320;12678];
[12453;11481;32923;12453;0;28712;13140;11993;16449;13151;9594;0;0;28689;28804;12346];
[0;0;32918;13207;0;28784;12989;0;8702;0;32845;9773;8994;12381;12298;12056];
[16658;13127;12064;28756;10285;5511;9914;13195;4667;0;9480;0;32921;32820;16911;0];
[0;9563;0;13044;28796;11780;6434;16904;5300;32918;8403;0;13151;0;28706;5241];
[0;20482;10081;0;0;10073;32934;28761;0;0;16456;28724;11169;12453;0;0];
[32831;12562;12075;0;20487;0;0;12429;12075;0;16607;16764;5012;10194;32806;5235];
[28802;0;16609;32817;28807;13140;10923;9883;28733;0;16602;0;28747;0;16538;0];
[0;4920;10066;12861;9598;0;5241;32816;11769;13161;13163;13152;0;0;9217;28769];
[0;28744;16849;28749;0;28690;9586;32919;16538;9247;12880;16765;9044;32819;20490;9779];
[0;11767;11478;0;28713;12511;0;0;12512;17060;5240;0;16880;0;0;0];
[32922;32831;28689;13068;28757;16689;8434;9254;0;12001;32830;12689;0;16519;12489;9606];
[0;12776;12605;28690;11947;9779;8702;28768;12078;28810;10482;0;0;6070;17378;12559];
[12890;0;0;32911;16587;16766;12631;28748;0;12490;9308;12429;11758;0;16975;9601];
[12984;0;28730;13150;12066;16880;12881;0;0;0;10341;9982;16609;32829;9816;10207];
[5014;9586;16823;5737;12454;13128;4943;0;28721;5234;28678;17327;10969;0;5393;9363];
[0;4921;10189;10996;9802;16579;13218;28815;28691;11478;32921;0;5420;10582;0;12513];
[0;12815;0;9614;0;12076;11993;0;28798;0;16903;12595;13174;16880;0;12611];
[4453;8702;13020;4614;5389;11955;16911;28734;10071;10066;0;20490;9808;32794;28729;12785];
[0;9853;32919;16880;10078;0;12870;12609;0;0;16808;0;11910;8883;4611;28782];
[28746;0;0;12548;0;16816;9779;12419;0;12562;10927;12560;0;12298;17354;0];
[0;12765;0;0;32792;12785;16823;0;11777;5387;10713;0;8613;9598;0;5303];
[12478;28719;16779;11910;0;13013;28757;12512;0;0;11223;0;12876;11779;12858;28773];
[11767;0;28753;0;12372;9851;12478;0;0;16508;12009;9372;10713;0;0;5082];
[0;13044;13056;12075;12608;10114;0;28824;10113;28791;13218;12618;12048;12989;16823;9918];
[13152;13056;9293;12689;13210;0;12513;16746;16894;0;12395;0;0;5063;16438;32780];
[5515;12479;6373;0;16823;9817;13222;28687;0;12490;28792;12871;0;8919;0;0];
[13139;0;13164;9808;8445;0;12407;0;8434;13219;12360;12560;12477;0;12419;12479];
[11224;0;32845;12442;0;12895;12430;10046;5766;0;9592;0;0;0;17131;0];
[28709;0;8744;13068;13000;28703;12785;17171;9343;11750;13161;12468;12419;16459;0;0];
[11267;9001;17060;5305;0;16607;12347;8411;16832;12739;28758;0;0;0;28766;0];
[0;0;9321;28768;0;0;13068;28749;0;28711;12574;28738;9851;0;0;0];
[0;16965;12444;0;10167;16688;0;12785;12324;17060;11521;32777;10629;28765;32818;11750];
[32923;32820;9816;10048;9317;12777;0;0;0;32919;9859;12978;28703;12523;5101;28826];
[0;0;28823;13152;0;8351;12620;12700;12524;4926;12954;32891;0;9607;0;12599];
[0;12001;0;12682;11769;0;28758;32862;10147;13172;12606;12580;9899;12897;11947;5858];
[5755;0;10105;0;0;12823;13161;16815;9861;28731;11710;12454;12573;12344;28700;0];
[0;17330;28812;12056;17410;16421;17139;9003;12643;10672;32831;17394;8412;8452;17069;28749];
[28728;12690;17410;5525;12525;8665;12655;0;12049;13173;13187;12701;0;12056;28825;0];
[28750;13164;9654;28721;28773;32855;9211;9518;5246;32856;28723;0;13219;28737;8397;28681];
[0;0;12912;0;12478;32832;12465;28806;12692;11057;12621;17190;16620;0;13152;12491];
[10699;5757;32892;12502;32791;32911;0;12419;16688;8719;28737;16688;0;5799;5252;9311];
[12384;12418;0;16832;12787;28821;0;28707;12778;16517;12700;12766;28730;13208;16696;16922];
[0;16911;0;13211;13187;0;12800;32832;32807;5858;12904;9861;0;12871;10141;28752];
[10144;12068;17376;12420;16776;10403;17195;10203;10441;0;12324;12620;12611;10970;0;28792];
[0;32832;0;12811;5942;12786;13175;13187;0;13218;12751;13208;28808;12610;0;17394];
[12620;10736;9372;5956;28730;16688;12395;8995;12787;8920;28817;16775;5615;0;12526;8719];
[32819;0;5794;13000;9363;0;17332;0;8343;9939;28730;17328;10151;13020;12573;17196];
[10114;0;32833;8467;17117;16461;16921;12884;5800;32845;0;0;8945;28713;28822;11012];
[5398;10796;10375;28765;12514;10452;12478;0;0;13152;0;0;32844;9817;8657;5247];
[0;9020;16541;10414;13116;12740;12057;12787;10257;28808;28775;28745;28703;12905;17405;0];
[28819;9862;0;28753;10116;12694;12480;17376;12490;0;0;12904;0;0;13211;16913];
[16982;16766;16776;28729;12514;10010;28727;8366;10150;11057;12896;0;11057;12068;12561;0];
[13173;12609;12336;8460;9913;11035;5019;16449;32776;4268;12478;11334;9364;0;0;6085];
[28785;12610;9742;0;0;9854;4971;12717;17330;12515;9939;16460;13224;11633;0;17069];
[12512;0;0;32846;0;28753;5601;12418;0;8751;9914;28745;0;28701;28776;6080];
[28754;8467;28786;17399;16982;0;9908;12905;0;28823;28784;5101;5528;12608;16992;8359];
[17388;28769;20487;10160;11673;0;13184;10190;32882;12478;12895;12468;13122;16902;12801;13221];
[28783;17375;16767;0;12896;0;12705;16978;10750;12790;12574;13005;32880;28786;13212;11049];
[9863;11822;17384;0;9563;12502;9564;12990;17361;12814;16824;12324;0;12396;12384;10514];
[32924;12873;12491;16977;28777;17369;32846;28707;13174;0;13211;12432;16538;9364;12670;12079];
[20488;17395;5471;8397;16921;12990;0;6160;9074;0;16924;0;8467;16924;9914;5645];
[16765;16779;13164;6244;8667;10700;13199;0;28763;12491;0;10204;12919;13222;32854;17377];
[12056;12898;0;13223;12049;28749;0;9908;17332;10713;9908;9913;16620;0;10758;28821];
[28785;5645;0;12682;0;11001;12420;10153;9908;10194;13196;28763;0;13110;32904;10542];
[12647;12978;0;16912;28769;12902;12455;5652;0;28775;5954;10376;32820;12930;12908;9907];
[0;0;0;16984;12610;12702;17210;8688;12079;0;0;11348;9914;12444;16606;5863];
[12610;0;0;0;16902;12430;28731;32905;12671;32868;5309;16527;10804;0;9939;12910];
[12826;10151;0;12492;17376;12898;4970;28749;9670;0;9648;32881;8485;10196;28796;28774];
[12076;16824;9671;28773;10116;17069;16700;12561;0;17124;0;17053;28753;12767;12838;32833];
[12432;13223;16776;16697;12467;0;12908;16697;9909;16991;9900;8766;12931;6191;0;0];
[11356;12609;17148;0;32857;16922;17409;12491;12372;16974;12931;11803;16835;0;32931;28773];
[12671;28753;8666;32870;16450;13012;12930;12480;17140;0;13006;12360;10195;12801;12527;32867];
[9364;0;12611;8405;12431;0;12693;17148;5486;13223;9320;28775;0;9620;5957;12931];
[0;9364;5485;12342;5886;10162;28766;28749;0;0;9681;0;0;28823;12863;28723];
[13220;32837;11049;12717;12931;28828;10208;17132;10852;11050;12635;11050;0;28796;8704;12754];
[12716;9680;9863;17407;0;12803;12077;10162;12491;0;32816;12767;28826;12887;12492;28821];
[11380;28764;11603;12908;13013;0;0;12705;28752;12068;0;10216;0;0;12743;9955];
[10502;20488;11273;12550;12959;0;17061;10804;12730;0;16619;12432;12384;20487;0;13200];
[0;17079;32869;0;32857;0;5446;10545;12539;32870;12942;8453;28783;9610;20487;17071];
[17071;16925;16538;12849;17071;9084;28797;8785;12825;4495;11610;28778;13223;9916;17385;32935];
[20488;12920;28765;12943;17150;32845;17079;0;12813;12767;32857;13222;0;0;9917;12959];
[0;8453;0;28799;12922;16923;32880;12551;12943;10813;28695;0;5638;12647;11112;12456];
[28738;17406;16993;0;12837;11349;0;0;13039;12802;28826;32897;0;12840;12946;12909];
[12646;9907;28825;12875;13164;17227;17411;32904;10162;17158;12480;6006;6350;28776;6248;0];
[17070;10813;12862;28825;32857;0;28741;10234;12717;5354;32881;0;10508;17062;28701;12779];
[13004;28724;12909;12780;12886;11349;10488;32905;16699;13050;12908;32833;17002;0;0;16844];
[9321;12779;32857;0;9947;16922;0;10751;0;9985;28825;11610;32894;13200;17159;12897];
[16983;12384;10461;0;0;28749;32935;12919;12528;12812;11103;10553;9982;0;32935;12623];
[0;5478;12718;17081;13024;12491;11686;10460;0;0;16925;12575;0;0;0;11103];
[12706;32868;16459;16699;11749;12468;0;9919;12576;12920;9953;6037;5486;9961;5486;5638];
[17148;0;32871;12479;32895;12492;12707;0;12348;20488;0;0;28772;12694;28759;17219];
[10161;0;0;16993;11058;11112;28782;12444;9961;0;11395;0;6044;32896;12825;0];
[12419;17141;9919;8453;10797;12408;12731;0;5652;28755;28787;5485;5486;0;12824;12946];
[13025;10199;0;6044;0;12921;12432;28749;12743;0;0;11050;0;28822;10498;12355];
[0;12456;0;13015;17388;12943;16778;0;28749;17411;0;17227;28807;13016;12611;10714];
[28776;11349;16777;32883;20486;9665;12474;11105;28826;16419;0;0;0;17397;12768;0];
[28788;28798;32781;5960;12802;12468;32932;12701;17071;17072;20489;11385;12824;32924;0;11096];
[8423;11655;0;12899;0;12515;0;9975;12492;28691;0;32896;12533;12803;0;17079];
[10218;12790;32880;12791;12692;11312;12622;12908;11402;11430;0;17377;12887;0;16739;0];
[32870;11611;9917;32896;0;12432;0;6261;12943;32841;10506;28786;17083;0;13006;28691];
[0;16853;28800;10161;28826;12852;16937;8752;28707;0;28787;17001;0;0;28737;28787];
[0;17399;12706;0;0;28708;9686;13074;16586;0;0;32908;10241;0;10246;6204];
[0;0;0;17169;11435;12719;0;13028;9012;17237;0;0;28786;32909;5645;11693];
[0;32936;11693;28769;12827;11412;17090;0;28785;13074;32871;12612;11059;17151;13042;0];
[12477;0;11601;16700;0;12719;13006;17151;17397;32892;13017;5653;0;6263;28767;0];
[0;28801;0;13110;10544;12479;17003;12995;28789;6174;32884;20484;10797;28676;17004;13051];
[6330;32909;0;0;12480;9674;17002;0;12527;0;9046;13042;12515;16649;0;32881];
[8934;17062;17082;0;12480;13051;28800;17238;28782;11655;0;6030;5868;0;0;0];
[13097;12815;12768;0;13028;12944;13018;0;0;9917;0;16498;5653;17228;0;0];
[0;12767;0;12696;8940;0;10261;12984;8713;12504;32831;6335;12887;16934;12730;28828];
[11701;13039;28822;12720;9086;8468;0;11159;10452;0;11159;13052;11656;0;0;0];
[17296;10517;9979;0;12899;0;0;28773;28802;10218;0;28781;32884;11818;28712;0];
[0;28798;0;17396;0;12000;32884;12683;0;13133;0;12815;0;17090;28789;0];
[28800;17140;28759;17219;12934;0;9919;17230;9980;9666;32908;0;17253;0;16936;12946];
[0;0;10260;12825;0;10269;28782;0;16934;13063;12684;11572;0;12575;11702;28785];
[0;10262;11729;17396;13131;11096;0;28770;9972;17003;0;32909;9619;11711;16461;9964];
[16779;0;9973;13098;28801;9956;10096;12792;11395;12648;0;32937;11611;0;12911;0];
[6373;0;11466;0;9666;0;12815;12816;13055;17230;13040;0;13132;0;0;28782];
[0;12444;17228;12444;32831;5616;28820;12899;28679;8469;0;0;0;32908;17162;10252];
[8919;12904;10273;28732;13066;13007;10516;11647;12396;0;28769;28722;0;11113;8337;12510];
[6037;0;6044;0;12816;0;4368;10277;13029;16621;0;0;9956;0;0;9974];
[0;28713;11159;11711;6167;0;0;0;32833;9979;0;32845;16806;10263;28785;4182];
[12730;28827;0;11035;0;12935;16937;8277;0;16932;28736;0;17247;16569;9965;17316];
[0;12875;0;28791;0;11412;0;13136;0;12995;12612;8879;10272;0;12456;11611];
[11403;16586;12911;0;11450;11411;0;12934;0;8861;12441;0;12564;10190;0;10814];
[16935;5486;5661;9926;6219;0;0;0;11159;0;11208;28772;10852;9666;0;16525];
[9974;10263;28802;0;13041;0;13132;16779;28702;17239;17353;10860;12876;28779;11104;12528];
[28809;11776;13040;0;28801;9852;13067;16508;28732;28702;32897;12970;28802;0;12612;0];
[11395;10517;17169;12923;6006;16504;12306;11395;11702;12995;10869;11926;9879;12888;6219;8479];
[0;9982;12392;17290;9431;0;32858;32777;4429;12910;17172;0;0;0;28712;12648];
[6006;0;0;6440;28798;10517;6387;5195;13101;12911;12477;12946;16795;12684;13041;16576];
[9432;32906;28813;13063;11443;13122;28742;13052;0;13029;0;6350;28674;0;12636;8905];
[0;0;9601;11113;0;16935;9832;12417;28791;13031;9975;16576;0;0;28710;0];
[11151;9000;11113;11711;0;17094;0;16492;12947;0;13019;28777;0;0;16595;0];
[13019;10264;12612;9386;17280;10264;0;28748;0;28709;0;12321;13157;0;28822;11450];
[11656;0;0;16517;10218;0;9684;12981;12516;10282;13053;32872;32872;28800;9178;6045];
[6136;16513;13042;10263;20485;32858;12720;12321;6450;13148;10572;0;0;12540;0;11450];
[0;0;0;10806;12936;9956;5471;28810;9068;10562;32898;0;12994;0;11734;0];
[13029;6175;12761;28767;0;0;0;0;13076;9916;32846;11710;32806;8682;16778;10571];
[0;0;17171;28735;13078;11450;0;12676;0;0;9684;13098;12840;10563;13098;17228];
[9974;0;0;0;28737;13052;10272;10879;0;9686;6373;11395;17013;0;17307;0];
[12366;28753;0;8317;10280;28774;0;12936;0;0;8911;12828;0;10273;10862;28746];
[0;12502;28709;12612;8543;16669;16435;11476;13210;0;0;0;6388;16745;17093;12888];
[0;0;12552;32872;13041;0;13074;13042;0;9684;12780;0;12427;32830;5256;10280];
[28685;28709;16878;8631;11611;0;0;17160;28696;32833;11712;0;0;32859;4658;28693];
[0;10044;0;32859;10869;12824;0;17173;17173;0;28703;0;17012;32910;13064;17298];
[28700;4396;10274;9181;0;12559;0;12367;13079;10872;12466;12772;11169;28812;12606;17306];
[12720;13030;12825;10282;28803;10562;5661;0;4478;28679;0;28789;12726;6378;12912;0];
[12816;28711;11611;16737;17240;12582;0;12624;17410;11160;28693;12653;0;28810;0;4883];
[9801;17141;5409;0;13158;0;4846;28685;0;28720;13019;0;12900;11459;10263;13043];
[0;32840;0;0;10582;12513;12895;6175;6434;0;12619;12299;11702;0;12510;10027];
[9985;13148;0;17306;16937;13143;6387;12675;8320;0;12391;8306;28696;28810;9451;28764];
[0;11468;9807;10572;12394;0;0;28762;0;32779;4908;28734;0;17171;0;4569];
[28715;28803;12557;11152;13079;32816;17095;17095;32846;28726;8313;17091;0;8393;10861;28814];
[13051;9687;13075;4430;0;8284;28676;11179;28733;28740;12320;8375;13055;9479;16500;12900];
[0;0;11713;32779;4727;0;28725;32792;12673;6424;0;13079;11702;11712;0;12580];
[28810;17093;0;12516;0;13150;28788;12393;11380;8576;28812;0;32833;10563;5536;0];
[12816;11735;9203;0;10880;28796;0;17307;28815;13139;4560;0;12379;9899;32872;12900];
[9983;12297;16587;20482;12900;16675;4576;32859;10274;0;32910;12771;0;32802;12579;28738];
[28812;13075;10862;11977;4918;0;9513;0;28745;0;28720;13064;17406;0;28813;10870];
[0;28790;12534;28756;16674;13157;10583;8490;9388;28801;32779;4818;32790;28815;17307;0];
[12335;0;0;17411;12309;28685;4843;0;0;28810;0;28815;13138;28766;0;28814];
[6212;32910;13148;6451;12869;0;9985;11451;9985;28814;0;9686;0;0;10327;28699];
[4544;10573;17309;11507;28702;17172;9388;28694;12546;28721;8364;0;0;12761;28812;0];
[9311;28812;0;16429;12900;0;4814;11909;8942;0;0;12441;10052;13145;12696;28737];
[17240;0;12924;10282;0;12382;4813;12452;17316;12408;0;0;0;32853;9035;4904];
[11470;16438;32792;13052;10615;12792;17171;0;0;0;0;0;0;28732;10616;32911];
[9503;11460;28814;11169;12534;10584;0;13076;16429;9676;9503;12900;17241;28810;16674;28814];
[17095;0;12654;0;16448;28738;16537;28813;32833;32911;0;12487;0;11742;16744;0];
[4821;0;10374;16936;12948;13042;0;11750;0;12371;8491;9175;13008;16598;0;0];
[8619;28796;28813;28748;10285;28813;28730;10284;12603;9261;8619;9261;13139;0;28717;12900];
[16857;0;0;17376;32830;16450;11206;10039;10282;0;0;0;11451;0;8619;8346];
[20485;11459;28690;28799;9985;0;0;9017;0;0;11766;11459;0;16857;28738;28825];
[0;13145;12672;32820;12604;12612;0;0;28714;32921;13079;0;12696;0;0;0];
[16736;28697;10914;16745;12718;32843;13147;0;13147;17252;10584;11767;0;0;0;9181];
[8411;28729;9181;10925;28813;12606;0;12971;0;0;28812;32844;0;9665;11171;17229];
[12936;8649;0;0;17252;10626;28828;11470;0;28757;12936;6434;9064;13068;11749;12512];
[28692;0;0;6351;28718;9986;0;10583;11767;13008;28732;9546;9801;16815;0;9801];
[9552;10584;17174;17249;10582;13156;12696;12869;10675;16770;13077;5013;9779;5289;12467;12499];
[8988;17016;32853;13137;0;10144;0;0;10880;0;12707;12888;0;32828;12897;9591];
[0;8912;11902;28826;12394;0;0;13194;10406;28678;0;17174;12604;0;13020;0];
[11768;0;16904;10883;0;10273;11470;10582;28788;28734;0;17016;0;17327;0;16754];
[20490;8420;0;6451;12705;0;0;28748;28749;8709;32922;0;0;12380;0;5014];
[16904;12371;16857;10272;0;5087;20489;8689;16447;0;28700;28751;32921;20483;10882;28717];
[12453;10584;12359;12682;20485;20488;10095;13161;6071;10158;0;28711;8393;20487;16676;16606];
[11742;13171;0;9307;9077;12476;0;13032;12488;0;8912;12672;10974;13032;9299;13219];
[0;28779;0;9808;0;0;9862;11222;28773;10132;16605;10358;6388;0;0;32844];
[32802;10038;11479;0;10066;13020;13024;13184;0;17317;16676;12523;0;4864;32780;8690];
[4920;4667;13182;8357;13196;8410;9845;8963;13115;20486;13206;8920;0;12583;12603;28748];
[10085;9779;12900;10583;0;0;0;28776;9317;8987;12347;11750;0;32830;20490;32935];
[0;0;11985;9480;12716;32819;28703;16666;28738;0;32923;16500;28736;4679;13187;32794];
[12571;11297;16991;0;28729;12576;0;10077;9616;28770;0;16981;8664;32832;28704;10359];
[28715;11767;10132;32776;16940;13008;0;12740;0;28728;0;8883;16616;12064;20484;10095];
[12754;0;16939;12442;12608;16438;32919;28702;28734;11778;12503;0;10998;0;5304;9845];
[32781;8746;8994;0;28730;9814;10627;32864;12920;12791;32845;10157;9808;32831;32781;8728];
[28718;28712;0;0;9861;13186;12065;0;13173;0;28701;0;0;0;0;12689];
[16430;13173;0;11223;0;17038;13151;0;9814;13020;32918;13056;10117;0;4873;11910];
[16620;11758;13186;28740;12849;0;32911;9982;11050;0;16529;9985;0;0;12001;32923];
[16903;12785;20482;11992;9546;9518;13184;20490;10782;10406;9255;9815;8365;0;32923;28792];
[11480;16687;28780;0;16766;10372;16677;6451;17385;32831;12763;10077;9606;12989;12512;4921];
[0;28751;0;17320;28825;4716;0;0;11992;16976;12900;28820;11778;0;12526;12504];
[12966;5233;10116;16815;16456;13001;0;12370;12608;12892;16910;12608;12501;28810;8351;10498];
[5396;0;32879;12706;8713;32923;28682;0;0;13127;13150;12466;32859;17410;12681;0];
[32781;5682;12893;0;16676;28715;12693;9846;5014;10998;9001;0;0;16832;12346;16763];
[12694;13056;0;8650;12524;16880;28792;0;13080;17038;16974;0;32921;28740;32908;0];
[32805;4867;17399;12359;12523;17320;0;13206;0;0;13196;11993;0;8358;28770;32922];
[12811;28734;12312;28826;12573;0;28715;16974;0;0;12681;0;13163;13173;12371;8702];
[0;12606;12033;11223;12643;32891;8710;10498;9615;12872;0;0;0;5824;16815;28731];
[0;13032;9615;13152;16500;5251;17326;0;32883;13150;13151;10415;9907;0;32846;12000];
[13207;28719;0;12524;12621;11910;16767;13044;9018;0;9264;32867;13163;9050;6396;0];
[11179;0;9009;0;11758;9182;17253;9899;12513;11297;5394;13151;8919;9057;11481;11096];
[16766;0;0;0;10150;16914;0;28802;5849;13151;12048;17195;0;4713;0;13080];
[28763;28757;0;28692;12299;9808;28732;13080;5063;32820;12704;5486;0;13173;0;10148]]%N.
Definition LOOKUP_19 : list (list N) := [
[10998;9854;12503;16901;0;12900;9916;12892;28798;0;13056;13209;13208;20490;0;5305];
[10420;12996;5669;28813;12996;28686;13128;0;12739;17410;11758;32855;13140;0;9662;12767];
[9809;12786;17368;0;0;8405;32863;16842;32930;10116;13172;17000;16982;17410;16763;12324];
[28763;0;0;10107;9815;12716;4970;0;9916;10153;12683;28768;28759;16596;0;12041];
[0;28695;12492;28775;12372;32863;10178;16903;0;12790;28808;17132;0;13184;10442;11776];
[10782;17353;13162;12655;9317;13163;12610;9317;8744;32923;5248;5305;12683;0;8702;12432];
[28774;12538;16695;9891;28756;11049;17330;8351;13163;5759;16991;17332;0;13152;12800;13150];
[12786;9020;17410;28821;0;13211;13139;28764;32921;0;17196;12717;0;8696;32844;28776];
[12812;13151;9372;12764;8920;12573;0;28814;32921;5478;32868;0;12527;12800;28796;0];
[10159;12431;12478;16440;0;8775;0;0;13150;13116;11004;11334;10814;32857;12335;16430];
[13127;28749;13152;8322;5757;12633;8358;10516;12515;0;12056;16616;28819;0;12779;8744];
[11520;0;17411;9647;5754;9647;0;0;0;0;28756;17253;16528;5845;0;32867];
[16538;10374;13174;0;12619;9918;0;12800;13211;9863;12502;16767;5397;28804;12895;11235];
[12786;12490;16530;13218;10449;0;12812;0;12894;12906;20490;12823;16695;11268;9056;17072];
[12634;13091;12298;13186;11778;10078;28750;17331;28780;12480;11481;5354;10151;9248;0;20488];
[0;5601;10452;11955;5405;28775;12896;12966;12990;0;13218;13172;10460;9906;13019;28787];
[28813;16991;13164;0;16778;0;12490;9363;32883;9854;13163;16695;12443;10189;17053;17409];
[32870;12695;5471;0;0;12823;12468;17196;28768;17131;13188;0;10179;8447;0;11334];
[28678;16902;11334;0;10675;9083;17375;0;12009;12001;12611;0;13200;11395;5608;16887];
[0;12874;28785;28773;0;0;12431;0;0;10113;17149;13000;12797;12790;28679;8424];
[16983;16620;8366;0;20490;12443;9002;0;5526;13211;12479;9343;0;32869;12704;16609];
[28749;13056;28758;13212;11035;11735;9817;12826;13208;12788;16921;17328;13198;11596;32909;5795];
[28792;0;13211;0;17149;28678;28735;12419;13188;20481;9653;0;11380;12466;28701;16451];
[0;0;12789;12312;12702;12797;17016;16843;32933;9648;0;16541;12728;12563;9654;0];
[12490;13155;11013;0;12798;5101;8404;0;28774;5956;0;0;13026;32871;5601;28768];
[0;17328;12788;10246;16618;16606;16969;16460;12898;12056;20490;16974;32879;12430;32935;12827];
[28784;12788;13012;0;20488;12527;10405;0;9311;13016;28714;17172;28731;13188;28753;10252];
[13021;28773;16913;0;0;10514;20490;12790;17039;17080;12384;12910;12695;12706;11237;0];
[32871;12491;12906;16617;11304;12432;0;12454;0;12455;8723;12788;9956;32880;0;20486];
[17354;12360;0;28821;10284;8703;12778;0;12898;13188;12706;0;32931;0;28778;13176];
[12742;12684;10797;17080;12478;12693;12683;32935;0;12910;0;28804;16697;28747;11050;32935];
[28731;9940;17003;28719;28808;12899;32879;32879;0;12705;13200;13012;12954;13018;0;12779];
[32896;11311;9899;32931;11694;6083;12898;0;12635;28753;0;28804;10460;5403;12931;11137];
[11180;12752;12933;8367;12396;10507;0;17328;32931;13219;0;5805;28820;11104;12993;28772];
[12969;28749;0;9356;0;12526;28741;0;28821;12514;12979;12812;12068;17227;11932;17332];
[0;13054;11596;12898;0;5320;9383;17331;32932;10197;12551;10789;20490;12478;0;28707];
[10153;13128;12610;32892;11678;32870;9854;5471;13221;0;16699;12694;10515;13152;17230;16834];
[12826;12492;12946;0;16698;8658;9682;11104;32868;28788;5955;0;12971;12704;28799;0];
[0;17001;10562;11013;28777;13220;5446;13066;11978;0;12823;12904;0;10505;12899;28702];
[5653;8711;0;12720;12990;17173;12372;13221;10796;17161;17053;0;11087;0;17241;32884];
[9349;0;0;28786;9609;0;12525;0;0;10259;11394;12695;13176;17329;16914;16982];
[28801;28799;0;12825;28801;32883;32880;0;12897;32905;0;32896;16887;0;12671;0];
[17211;12492;8784;0;32885;8488;0;17411;5572;13222;9909;20488;16983;13026;0;10217];
[9083;12705;6160;17368;8713;17001;12645;0;0;28739;10216;0;17377;12660;28804;28758];
[6247;13027;9648;0;32794;12800;0;10190;9357;12827;13016;32859;0;10208;12693;10216];
[16778;8775;0;16778;12444;0;12792;12707;0;0;32833;0;0;12300;28808;17012];
[16461;12701;5573;0;32897;12623;12791;0;28765;12875;9909;9940;12611;17072;0;16925];
[12066;32931;0;0;17095;28690;17410;9969;0;9077;12658;0;0;13015;12692;11735];
[28785;12708;0;32924;11404;32908;5354;32894;0;0;12824;6030;16925;16778;32858;12695];
[0;11700;10205;12576;17332;17158;28766;0;9610;5957;32884;0;9357;0;12696;16914];
[12075;5810;12920;10571;12600;0;10301;0;11534;0;0;28828;10207;0;0;5809];
[10199;9955;0;0;28763;17159;11567;0;6160;0;32908;8460;32832;0;32859;0];
[12920;16579;0;17331;11144;12912;12980;0;17094;17160;0;12803;12372;0;28787;13029];
[17387;6086;10545;32858;12444;17377;28752;0;0;32904;0;12683;8423;0;32879;11412];
[12994;28702;12900;0;0;17385;0;12876;0;20482;0;0;13017;10759;17395;0];
[12921;13078;0;28806;0;0;0;12300;11633;32933;10804;11633;12935;12321;17001;32897];
[0;0;28825;12791;13212;0;10261;6160;9971;28822;13040;0;12079;17002;0;0];
[0;28802;10252;0;0;8775;0;0;0;11435;12491;0;0;0;32859;12814];
[28731;28755;0;9964;0;0;6006;32820;10216;10214;0;32858;28816;10249;32909;9956];
[12393;13220;0;0;0;32778;4654;9387;0;0;17396;12540;8230;0;12899;12600];
[0;28815;12947;10814;0;11411;9917;28736;0;12947;16569;17238;9965;28710;32894;16463];
[11573;32845;0;16925;0;28826;0;0;12420;0;0;13023;13223;0;0;0];
[0;12946;0;12909;4195;4798;12308;10255;28813;6204;0;10805;28727;16795;17158;0];
[12500;13176;0;12343;11679;0;0;0;16438;9773;5660;13222;0;12432;0;12982];
[28824;9066;9383;9241;12612;9383;10253;32924;0;0;28802;9970;12308;0;28827;0];
[9087;28791;32908;0;13030;8478;28808;4852;8490;12991;0;13026;28748;32829;0;16619];
[0;0;0;0;13007;12947;28819;28823;17016;28763;28738;0;28690;28776;16925;16937];
[13121;13018;0;20490;0;13017;16609;11113;32921;20485;32871;32934;12521;0;13018;9980];
[0;16461;11702;11820;0;28811;13220;16661;12297;10554;11470;0;0;0;16650;28822];
[10515;28827;0;5652;13067;28826;12827;0;28759;12463;13222;0;9217;0;0;17159];
[0;0;12899;12624;0;32885;0;0;17388;13212;13030;13053;16499;11049;28790;28724];
[32898;0;0;32867;28819;0;6285;9965;13018;0;16935;12708;9674;6098;0;10255];
[8785;28825;10551;32859;12899;9985;11710;13018;0;28778;0;6131;28815;12453;17395;13196];
[8468;12515;0;12487;11152;0;0;17239;12079;28809;11481;0;0;32805;16513;0];
[10554;13063;12708;16428;0;12995;12378;0;0;13223;0;17369;0;9796;9919;32936];
[13063;10862;28827;16787;10259;28826;12801;16993;28675;17240;0;28821;28824;9963;0;12696];
[9974;16700;28827;11648;8630;13109;0;0;0;12828;32897;28802;0;6197;12803;0];
[6197;28738;8856;16904;0;10273;32790;0;16934;9387;0;6373;6343;0;0;13065];
[13223;0;28749;0;9979;28752;17320;0;10861;0;13031;32883;12366;28779;28714;17095];
[20487;12420;17094;0;10261;0;6259;12624;12792;12959;11151;12444;28735;0;12503;0];
[4228;13067;17308;32910;12862;12947;17396;12432;17220;10043;0;12605;13007;0;8588;0];
[28773;28711;12491;0;28762;10272;0;0;11113;4663;10853;32803;12296;0;12504;8342];
[28714;0;17174;12476;32803;10060;17091;28685;10853;13100;0;28765;28751;12826;10252;28678];
[28816;16932;32820;11404;28809;28778;13109;0;12695;0;11710;10218;28716;12608;16764;28727];
[32845;9376;9776;10272;8787;17290;28747;32909;28802;28762;28778;9956;8278;5653;16854;17405];
[0;28820;0;0;4476;13019;0;12678;10563;0;17172;12487;28755;12800;0;12489];
[5485;13067;0;28751;0;0;17012;0;32859;10274;12480;0;16598;12552;12516;11151];
[10270;28740;9773;12511;0;9984;13208;12456;6373;17297;4857;32833;16800;12588;0;6350];
[4280;0;12672;9916;12780;0;9975;0;12708;32779;8622;12612;0;0;11152;17091];
[12606;12684;12474;9508;32920;11457;9254;9982;0;16904;0;16578;11152;32920;0;13019];
[10881;8285;12935;0;13067;0;10077;32934;12912;5101;32911;12823;12791;28767;0;28738];
[16932;0;11750;11712;0;12557;32910;12499;28788;28803;10562;32816;28815;13067;17093;10127];
[12720;12678;13018;12608;12923;0;8911;12519;16444;0;32838;12924;6449;28776;0;13197];
[4725;13067;10168;28686;4529;28777;17409;12475;0;28675;17410;11467;9843;32776;4279;28713];
[0;32911;28778;28730;12404;9839;28811;28803;16934;8867;0;10334;0;0;10255;28731];
[12359;10150;16642;11114;12606;12935;12888;28685;0;16578;10581;28749;17408;28725;12452;0];
[16790;28808;12440;5913;8242;10625;12343;32831;32804;4573;11750;11656;12792;0;9854;0];
[11713;0;0;12516;12622;0;12487;28810;28813;0;0;12800;28825;13147;6388;28697];
[0;28810;32878;0;12707;8598;0;12454;0;28726;8954;12488;17307;9561;9975;4527];
[9964;32856;4528;32922;32829;28686;0;28689;12417;0;17173;9152;16878;28747;0;12912];
[11611;28788;28778;0;10131;10713;5014;0;9262;32898;10162;10044;17407;16605;11451;10300];
[11703;12776;6395;16516;6441;32937;12443;16413;13080;16499;32856;12321;12430;10283;9254;12500];
[11895;0;0;12501;12678;28775;8663;9863;12606;17241;10090;0;12696;12924;9174;28764];
[32857;11476;9386;9802;0;0;12487;17411;0;10924;12948;9509;28735;12418;8480;11820];
[13126;12741;0;12996;12787;12936;28759;9806;32792;17299;32818;13114;0;28738;28802;28814];
[16428;28802;28731;12624;16736;12948;32881;12621;12803;0;12465;12394;12626;12666;12936;12513];
[32779;8633;13088;32845;0;13144;12732;28745;12789;28716;32779;4776;12933;17038;12441;32910];
[12464;12895;12936;16430;28762;12512;10283;28746;28734;32885;12430;28732;9807;20483;17290;11756];
[0;10506;11224;0;12642;6351;17316;12944;28764;4453;12559;12479;32898;17309;28816;12511];
[13031;13172;9779;12417;28734;12477;0;8625;28759;0;16936;32908;9553;28810;28714;0];
[12688;0;28763;11947;11160;28678;28751;28784;16737;0;0;11469;12605;10153;12491;0];
[9985;32857;12609;8314;16440;0;28780;11821;12888;17014;12700;12452;4666;28697;6434;16823];
[17316;20485;28677;17174;28774;16508;28749;11224;12800;0;12513;12431;8343;28748;12346;17174];
[10887;12762;8955;12405;12874;16688;0;28747;12618;6045;0;17001;6452;12666;0;6433];
[12802;10714;11932;13075;28791;12811;28815;12417;6452;0;16808;0;32911;0;16974;12948];
[12583;12572;12778;17139;0;28762;12489;32843;12738;5305;0;12907;0;12707;0;0];
[28746;12812;17411;11821;9986;6419;0;32922;10278;12308;32780;10165;0;28773;16676;17016];
[12417;9982;12935;0;9685;0;12823;32819;32844;9986;12695;0;28815;8948;28814;32911];
[28754;12419;12395;32789;11035;12716;20490;12512;16924;10047;32858;0;9986;28801;0;12689];
[12672;10880;12870;12491;28757;8710;28775;12888;10516;12540;12513;0;8920;12311;12524;0];
[6450;0;0;11451;9778;16765;12776;0;32911;0;32923;28752;28758;12068;28779;12908];
[9984;16974;28814;5739;0;17132;0;9817;11953;11348;11334;0;8368;12827;17060;10285];
[10123;13068;0;28813;0;32857;16459;12621;12467;12418;0;13145;11049;12600;12643;0];
[32918;16924;12311;0;0;17001;10805;11734;16913;13145;9984;13078;0;16911;0;13089];
[28790;12778;0;0;12335;5795;16911;28759;28751;0;28792;16587;9848;10274;0;12418];
[13020;12622;11246;13100;0;9854;10161;28776;0;12812;5087;8984;0;16762;0;12777];
[0;0;28815;12910;9903;11179;4673;8403;12815;10144;28788;10282;13028;12407;11756;12705];
[12931;28732;28778;12610;0;0;28815;28755;10460;0;16977;28813;0;12492;10581;11759];
[12898;8650;13068;0;28730;12936;32793;0;12612;13039;13007;10760;12693;12479;32905;17174];
[5485;5471;32923;10208;13020;11710;0;28814;0;10205;32868;0;10701;13163;16914;12682];
[13183;28681;12739;0;13044;12705;12623;20484;12934;0;13136;12599;11767;5446;16835;28785];
[13150;11095;9986;32896;13199;0;9908;9918;9909;0;13051;28815;28727;11999;10516;17095];
[0;10188;0;11895;28789;32885;12946;8949;12503;5327;0;32807;8729;28696;16925;32923];
[9286;12946;12636;12479;0;28678;28798;5471;12419;32895;10208;11769;16912;12948;11411;32867];
[32832;17072;4922;0;5214;12443;0;17218;0;28776;0;16920;12454;0;28809;28814];
[12895;13149;5679;20490;0;28753;17151;9909;10714;28790;10207;12909;0;4970;12882;0];
[28828;12704;13210;0;0;0;32845;10862;9892;10177;16677;12945;17069;12730;28779;10782];
[17118;0;0;0;17331;32858;0;12611;12897;11104;28780;0;0;16937;11059;5485];
[28780;28797;28786;0;0;32883;12978;10581;16451;12443;0;5250;9311;11756;32909;0];
[32858;17253;17082;20490;32923;0;9607;28753;0;28765;17062;0;12904;20484;9616;0];
[10283;28678;9895;13160;20489;0;11179;0;13159;10199;11910;11182;28790;12443;28764;28690];
[28763;12624;0;13068;12790;11655;10516;13138;28713;9620;0;28792;13032;32858;12933;0];
[12624;11610;17070;28780;11436;32933;12611;0;28801;10284;32933;9310;28765;32871;11168;13125];
[17174;32832;20487;28777;11035;32884;13211;0;17095;0;16992;9317;0;28762;0;20489];
[11057;13024;0;11081;17218;0;32924;12882;10190;13149;10489;28738;9321;13161;13018;0];
[0;11895;12695;10487;12802;10797;32934;13008;10202;28764;0;0;10487;12432;0;0];
[16687;11759;32917;32871;12909;12611;13140;0;20490;0;13149;13044;17061;12503;12824;0];
[0;12707;32857;0;0;10506;9018;32781;5663;12824;32911;11506;28782;16922;32923;0];
[0;28799;12706;11999;9356;0;0;32933;32898;0;12924;17083;13068;13020;12695;17241];
[20490;10207;12945;0;17253;0;11058;0;10759;32935;13030;12335;0;0;28798;13198];
[12954;17240;0;10153;28807;0;12076;13080;0;0;17210;13161;0;13200;0;17052];
[16842;0;28770;28788;10460;0;8696;17409;0;13175;28798;10813;12527;32918;12684;28802];
[10804;12324;28763;0;28797;0;0;9914;0;11096;32935;12683;12443;28797;28801;16895];
[0;0;28782;9941;16765;0;0;0;32895;12611;16541;16925;28801;9616;12002;0];
[9648;11105;9648;0;10255;12803;16844;0;0;28786;16991;9618;8704;32893;32909;0];
[13080;0;28758;28822;28780;0;12776;13039;13080;32814;5653;28770;5638;10505;11769;12396];
[12384;0;12791;11480;28756;0;13055;0;0;12815;0;12990;17149;32937;12319;28810];
[32859;0;0;12455;28775;20487;0;0;0;0;28702;9663;0;0;17330;28828];
[0;12707;28788;12392;16696;12432;0;0;13028;28755;0;0;10161;28738;11870;0];
[32933;32833;11647;11633;17158;0;9364;0;0;28761;11402;0;0;0;0;0];
[0;8742;13063;28766;9619;12000;10199;10208;0;11776;9933;32885;9356;13043;0;0];
[0;28770;0;10506;5941;28797;11312;0;13195;28814;11750;12730;12719;0;0;28688];
[16967;13199;8744;11523;32898;13055;13195;13162;13199;28758;0;12420;0;13187;0;0];
[9955;8284;32892;28732;0;0;16538;16938;0;0;13067;0;13219;0;13055;16974];
[13211;0;13224;28751;13150;10572;0;12573;32907;12396;11404;17080;32907;8966;32781;5693];
[12480;0;0;0;0;28811;11693;0;20481;5717;12708;0;8491;0;16458;0];
[28762;28775;8423;32859;28797;0;16745;13164;9933;11647;0;6263;0;0;9674;12012];
[28815;0;28810;12993;8461;9945;13176;0;28744;0;4614;28790;28828;0;28774;17161];
[0;13054;9515;12057;13152;5668;0;0;28756;13139;9655;0;12935;13149;0;16462];
[12815;9919;0;16421;13219;10272;0;13198;28699;28790;28800;10255;0;28700;12636;0];
[12895;28801;28757;28814;0;12840;12572;28801;13152;0;13066;28787;12049;17241;17172;11596];
[13140;32776;8541;0;17332;6087;12899;17306;12689;13018;0;28790;9341;11411;28777;28815];
[11701;0;20489;11404;8486;12456;12384;9356;0;0;13020;11151;11137;28698;12804;0];
[28789;0;0;0;11402;9941;0;13002;13207;0;13140;0;28754;32832;17016;4970];
[0;28733;16937;10869;0;13063;12636;12300;16596;12056;0;17093;17003;16974;11703;0];
[20489;0;0;13077;0;28791;4867;12057;17211;28766;17095;28802;20483;10218;13222;0];
[28756;11096;17013;12911;0;32778;4473;13079;0;32791;0;0;12480;28804;10805;0];
[17332;17004;11137;17173;12068;13024;28751;28763;28779;28811;9919;12936;28785;13152;32897;0];
[9373;11713;28723;0;12720;28791;12378;9356;0;28802;11112;28790;0;13017;13199;0];
[12624;0;17377;28762;11655;0;10974;4221;12331;0;28779;16911;20490;10272;28823;12477];
[28828;13055;13006;32898;0;0;16719;6211;6197;13188;8949;0;17159;0;10224;28756];
[0;10376;16572;9953;28736;32937;32790;0;9140;0;11151;28822;11413;0;0;28678];
[13002;0;28797;0;9450;12720;0;13176;12064;9655;0;16932;13172;32910;28825;10816];
[28788;17332;0;28699;16932;16935;16497;9974;12504;13079;20489;13162;13013;12420;32885;0];
[8277;32859;17159;28785;13188;0;0;13078;6030;0;17410;32885;12839;28707;12321;0];
[11178;0;17095;13207;8580;28820;17316;0;28788;0;13055;10255;0;12402;32828;12706];
[13041;0;8829;13044;32910;20487;10562;17217;0;28777;28779;13155;12945;16426;11694;5804];
[28688;20482;0;28718;28826;13067;28775;0;12612;0;17319;0;28733;28792;17409;9766];
[16411;0;12343;11766;12744;9570;10869;11458;0;11633;13031;28823;8906;12344;32898;28709];
[32791;12378;12893;0;0;32935;10872;11413;28716;12876;28725;28697;28715;12545;28810;20484];
[12504;17072;28826;9138;12408;0;32776;4223;28776;28721;13032;0;0;0;8357;13007];
[28736;0;28789;16853;16811;13055;32815;0;10563;16538;17319;28689;16937;9437;0;12828];
[0;32790;16574;16778;10415;9188;10872;12910;28753;16433;0;28804;6450;8271;17397;12356];
[12514;16935;0;12802;0;11458;0;0;0;12296;0;12933;17252;13029;0;28786];
[0;13188;10282;32831;0;0;0;17384;13183;8330;16686;12346;9672;9854;10838;0];
[0;8311;32935;28727;32885;32871;0;12322;28674;32801;10011;4471;0;0;28686;12612];
[6343;28720;16738;0;32910;8413;28753;16779;16585;32778;4481;28756;0;28766;8552;12519];
[0;4492;20487;32885;0;28712;13067;9743;0;10285;28801;0;17252;17004;32788;32846];
[32802;9150;12852;12792;0;10274;6307;6006;0;28791;10268;13164;16735;28685;17013;0];
[10879;0;0;9972;12454;28787;10860;17299;28803;16527;17173;0;28821;17253;12503;32790];
[0;9220;9975;0;28686;28710;0;9078;13152;32856;12813;12432;10879;28714;17173;32923];
[32830;28788;28814;12298;0;12630;12936;16765;0;12718;0;32818;13195;0;0;32833];
[0;12369;11137;12504;8405;12858;12624;10161;8912;12888;12451;9789;32911;4825;10580;8970];
[0;4666;0;12826;8326;9672;16428;9985;32894;28673;11460;8276;32868;0;8893;12406];
[9794;0;0;0;8934;0;32805;12346;9676;5013;11013;9982;10861;4741;28761;10273];
[28686;12297;28792;20490;28791;0;9905;17016;0;11469;28813;10255;32924;0;10507;12672];
[28803;17328;10018;12548;17014;28813;28738;32833;28813;0;17169;28763;32924;28693;0;16779];
[32802;4286;32867;12707;28790;12682;16586;0;13175;17095;12474;28791;0;0;28758;16800];
[28813;9592;28729;28701;9985;12555;10861;0;28690;10915;28781;28740;28745;17095;0;11480];
[12695;28803;13223;0;28733;0;28813;28733;13030;13075;12343;0;32802;12556;8872;28789];
[17091;28792;9682;4378;4862;0;12983;28824;12049;12486;28689;28723;16439;17297;9387;28691];
[6351;28788;8340;28674;12621;9980;12620;12936;28685;32779;4739;12923;12888;9766;17072;0];
[17170;28808;32898;28778;28682;9200;28734;11470;13098;16937;12936;9682;32920;28822;28725;13075];
[16657;28780;28767;9984;28814;5398;13200;9151;6175;28814;8603;9020;32909;17309;11633;8605];
[12700;20487;17252;12417;12621;6395;12358;28766;13068;28753;0;28810;28823;28809;28738;12802];
[13137;10055;8939;17095;28814;6336;8392;13079;11470;12429;17170;9832;28790;0;12428;13056];
[10279;17053;13067;28827;28814;4999;13056;28802;12622;10279;0;9086;28710;9429;10077;11467];
[28749;0;28763;9884;0;12452;28737;32780;5164;0;28788;12876;28722;9983;4565;9146];
[13183;9876;10515;28815;28720;28803;9983;17405;32911;28828;0;12608;12309;12489;28697;28755];
[28755;28726;17386;17376;32918;13187;12707;13219;32856;28824;10553;12704;28727;16498;8967;12948];
[12488;17095;32793;9152;16516;13223;12718;8987;0;9773;10157;0;28787;12623;28749;12948];
[32918;10064;32922;12695;12796;32779;8638;12568;12715;28799;8964;13026;10872;9509;32831;12573];
[9686;16499;11112;16521;8968;28738;17396;11349;32793;28786;12502;12298;0;16857;9686;28690];
[12405;16421;0;28825;28674;11013;28798;13199;13016;12815;28697;17083;32791;28679;12492;9450];
[12892;32911;0;12548;12500;12667;13122;12442;28696;16516;28765;17237;32870;12569;16937;0];
[9509;12580;28731;12792;12689;11182;9174;10095;12750;28776;6443;16879;28781;17388;28815;28764];
[11757;13110;12465;32917;16812;13161;10584;0;4779;28792;11171;13013;16753;20489;32830;16500];
[0;28782;17174;12454;9808;12936;0;11137;16808;28729;10883;17398;28776;32935;28789;8321];
[28815;13103;9811;13160;9986;4682;12903;32922;28676;13210;12812;0;17395;17174;12946;28801];
[10154;4604;16448;4545;12443;12936;11235;12528;10506;9546;0;10583;8656;8994;12574;28803];
[28734;28790;28816;28778;12790;20490;28699;8908;28673;13032;9853;16937;32868;17332;20488;28776];
[8336;17174;0;12825;16597;28813;9975;12443;17211;12622;11480;13008;28680;12705;12623;12477];
[12946;12739;6441;10342;9686;16894;12514;8788;12785;17151;28760;13134;32922;5913;0;28763];
[17385;13183;0;5395;8343;32924;16617;17410;12908;0;0;32777;4445;32935;32803;4452];
[12910;11778;16816;9844;5808;28788;8351;28768;28780;12948;12431;13207;28827;6452;28763;28828];
[12813;12784;28810;13056;12574;12947;10584;32923;16756;28727;28703;11729;12490;10195;28816;13212];
[12688;4933;0;12501;17072;28679;9899;12909;0;0;16913;32818;28779;9002;13122;4796];
[17240;32924;12707;12882;13044;11655;0;12948;28752;17174;5616;0;28769;12717;17148;32882];
[17083;0;16438;12622;28802;28777;12931;13018;12912;32909;12068;6452;28789;28753;12311;9021];
[12782;28787;0;0;9561;12694;20488;13212;9051;28690;10498;17016;12719;11182;12978;11297];
[0;0;13056;32868;28777;32896;11035;17250;32884;8711;12931;12455;16924;12910;32897;12503];
[12455;16925;28823;32895;28789;0;5162;28788;0;17253;28753;12934;0;10882;0;0];
[13068;12798;9885;12895;0;13149;0;13068;12503;12371;28718;17012;32923;9857;9919;17296];
[0;10760;28673;16447;12784;0;28822;12791;12947;0;17072;17092;32934;12467;28820;0];
[0;32871;10132;0;17327;12611;12079;0;12466;28791;0;32894;0;12708;12828;0];
[11013;32882;16777;28789;11115;12622;32780;8684;28779;28825;12547;10442;17230;17079;12455;9845];
[11985;0;12372;0;0;13068;0;13086;28827;9974;16921;0;12814;17014;10554;0];
[0;17004;28762;13127;0;12000;10782;13078;12430;10190;12011;13224;28827;10273;12943;0];
[9970;0;11334;28814;17082;0;28828;12683;28776;12551;0;28787;12996;0;0;32935];
[13056;11466;28768;12707;16642;12716;12611;28746;32859;0;32897;32923;0;10159;11519;8680];
[12716;11414;10166;28788;12492;8489;0;32872;11713;28776;28757;0;0;0;11159;11356];
[11954;13160;12803;9859;32859;12515;12815;16454;0;32801;8532;13175;11657;0;12516;13160];
[10182;12804;8261;8688;32935;28789;12503;13151;0;17397;32937;0;0;12515;0;32909];
[32922;11769;12431;28766;32819;16527;0;11458;0;9328;28756;9956;28828;32895;0;0];
[10207;16652;16418;28691;17253;9043;0;11822;0;13043;9908;13090;10515;32885;12468;32858];
[28803;10218;28822;12802;12996;12791;20488;11414;0;5471;9714;0;12814;16582;32923;13183]]%N.
Definition LOOKUP_20 : list (list N) := [
[28792;28780;17411;28724;13068;28792;0;13164;13210;32933;28763;32780;5210;0;9919;16774];
[11972;12299;12011;13162;12812;0;12621;13068;13156;28777;10161;12300;28699;12065;28788;28677];
[13195;32896;0;9309;8869;13064;13224;12515;0;9309;17094;32923;28826;12920;12683;28776];
[13150;28780;12324;0;17332;12743;0;28788;13020;13143;12622;32869;0;16609;9451;8758];
[16925;8428;13065;12933;9890;0;13187;17162;28801;32820;12624;9553;12885;28801;13199;12935];
[12934;28763;12569;9074;12502;13054;0;0;13019;13012;11956;0;0;9917;12324;32935];
[16506;12828;8427;0;12936;13053;0;16454;28733;0;28802;16937;0;12408;8581;8876];
[6219;10264;9034;0;32807;9325;32794;5956;32779;8923;28711;13018;28709;0;12324;28780];
[17141;11171;0;0;32839;0;28780;0;0;12899;9130;17398;28791;32897;9965;0];
[28685;12384;32896;0;13055;9607;28804;4204;17092;16648;28801;12905;0;28816;0;13022];
[17082;28789;10758;8870;10498;28700;8909;16779;8263;28789;32776;4242;32885;12443;13067;28804];
[28757;12909;0;12791;12946;0;17250;17250;12896;13162;13207;16429;28802;13200;0;12815];
[9050;28802;17241;28768;28790;28800;28779;13175;20489;12921;17004;32909;28776;16912;13055;17015];
[0;12904;9216;12887;16750;12011;0;4181;12432;13066;12895;0;16856;28792;12419;8600];
[8441;28763;0;32804;12297;13187;0;28721;5680;32789;28739;12456;12875;32817;20482;16485];
[12920;28827;0;28752;10516;9654;12935;28803;13187;13068;8231;28676;32856;0;11477;28827];
[5486;8861;0;0;13219;0;12708;12945;16569;9086;28679;17411;20487;10199;12633;28814];
[32910;17083;12503;32857;17161;0;16653;12296;8549;12011;32907;0;10042;32906;32896;12695];
[9039;17004;13080;12696;32794;11780;12012;16720;11115;17319;28759;28753;28776;16732;12294;12443];
[17332;32937;12444;13067;9051;13029;12624;28702;11115;13055;28737;17161;20489;16504;12933;28755];
[12623;10571;11947;17083;12307;0;16721;0;12503;13127;32832;0;32924;32867;32907;8892];
[10581;17332;28800;13080;0;28709;0;8565;16936;12392;13055;8637;16583;32868;12888;16591];
[0;0;32907;16779;28800;17396;13030;28787;28768;32805;4744;32804;4505;10872;17320;20488];
[10087;28826;8743;13025;32816;12612;8566;17229;10259;28687;12383;9935;32827;0;20489;28754];
[16700;13164;17120;32781;5719;11522;17230;17016;10113;17332;12348;17252;12720;9803;12683;12936];
[13016;12923;20489;32791;13065;12381;0;16491;16993;8442;0;11480;28777;17082;32833;12502];
[0;16935;32911;16880;32935;9817;13018;28673;32923;0;28709;28804;12380;32922;9969;32881];
[12816;11703;32791;28756;0;12552;13077;8744;28673;0;17094;10714;4284;13200;9964;11712];
[28799;32897;32816;17093;32780;5119;28816;28753;12058;28678;17331;4737;0;12464;12384;28679];
[28802;16935;12519;13164;32907;12520;13030;16578;8925;0;13210;13043;32792;10335;12924;13092];
[12791;12456;12406;13161;12331;20488;11414;12331;32791;0;11765;32792;10203;0;16856;17369];
[10883;28736;28821;10016;10265;9907;12826;28710;12430;13077;32872;13164;32858;20483;13199;16933];
[17290;16571;16499;28722;0;16499;5145;28828;11655;10289;5864;28804;12358;12569;28824;16587];
[12308;12382;12945;12321;28778;12332;28691;16801;9955;16429;32896;12904;28739;28725;28776;9254];
[28764;0;12934;28755;17196;32816;16650;12624;32936;4415;12079;28711;13211;12657;11171;17132];
[12480;28791;10162;17399;12718;28767;8875;17172;17173;32778;4526;12812;17332;8902;12441;28825];
[13040;9687;12706;9793;12360;13176;9795;12719;13030;32923;28811;12718;12504;12428;16775;32806];
[8394;5198;9516;0;8453;16586;0;12067;32908;17395;0;12067;32894;12391;9065;28733];
[9591;12358;12576;28749;28763;16508;16914;28678;28703;12444;10232;16937;28814;10065;28799;12580];
[28812;17320;8605;16990;10021;12720;32870;28755;10208;10571;0;12309;32856;0;11480;12792];
[12324;32872;16571;4562;10112;16983;13068;12359;28800;10338;4409;8943;28776;28686;16617;32792];
[17161;16803;12503;12488;13019;9909;28711;12556;9833;17082;13212;28777;12514;13031;0;17411];
[28789;32924;9663;12335;20487;17249;12687;13041;32883;12489;0;17241;28799;32831;12909;12547];
[12825;8904;0;0;9307;16437;12802;32885;16437;9844;0;10274;0;32857;12336;16699];
[12795;0;9829;16944;0;0;17014;32805;8641;0;17229;12504;8941;28822;12491;12790];
[28812;28780;12924;0;0;32792;5447;32934;16428;6388;32924;9957;17251;17331;13127;32934];
[12803;17408;17002;5114;20489;10632;11180;28811;12444;28800;17317;13139;17162;13054;8642;13224];
[10234;12525;28789;12946;28755;13056;12825;4787;0;16445;32883;17240;0;12791;0;28798];
[10146;28813;28798;17001;9812;28825;16444;0;13224;32858;17230;32934;8476;9947;17361;32895];
[11778;32897;10872;13066;17397;12311;10190;13149;0;12503;12783;12945;28766;12804;28815;17016];
[6397;8620;12900;28808;32894;12707;9951;12706;10460;9953;13024;13161;16983;28802;13145;20488];
[28820;28749;16463;32859;0;17162;32896;12813;0;5120;12792;0;28808;12359;12934;12008];
[12310;28749;28799;12947;12694;0;32910;17230;12514;12912;0;10282;28752;10883;17061;28789];
[0;6443;13160;28815;13028;11358;28687;32806;5128;10930;12801;28736;32936;6219;17151;12923];
[13065;12491;13006;11470;9986;9844;28778;13187;12450;28824;10204;28779;32924;28785;28785;28812];
[0;12707;12933;28776;0;16982;13076;16649;12933;28775;8865;28786;13223;28815;17239;0];
[0;28724;13144;28816;28780;12876;8832;9908;28802;20490;12824;9592;32870;28766;9568;17411];
[9561;28810;13041;32907;20489;9441;28828;12705;10815;12684;0;28754;0;28825;13080;12827];
[32832;10517;13198;28753;0;0;5182;11035;13030;13077;0;16722;0;12876;0;10178];
[0;12344;0;13223;28779;17082;20482;13008;12899;16448;32924;0;0;9147;17348;32832];
[0;12009;13031;8995;32906;13018;17387;12480;12516;0;13137;32817;9891;16936;0;28824];
[11712;32882;0;12801;0;0;13042;32898;28811;0;12792;16498;17015;32884;10285;5398];
[16764;0;28816;17173;12420;9973;13067;12299;13056;9193;20488;28825;28773;32884;16491;13218];
[10284;0;28814;17240;17094;12911;28812;0;28826;12720;32937;13080;0;32933;12934;8388];
[28787;28712;28752;12504;13224;13019;8869;32910;28789;28726;11404;8394;11114;28802;20489;12946];
[0;13219;16427;17141;17253;17330;17092;12815;32897;0;12359;0;17230;16766;0;12696];
[12935;0;16726;32835;12947;17250;8687;9023;9685;12295;0;32794;0;6221;28701;28703];
[17388;0;8632;12480;16924;9663;28701;10797;0;12320;11171;12780;13044;32803;9462;17309];
[10218;10871;8599;11701;28827;0;6433;32805;4772;0;32794;11095;11105;11170;12009;28828];
[0;12515;0;13223;0;13127;17320;0;16720;12516;32909;8389;13068;28827;17318;16419];
[12779;28742;17095;0;13224;13209;16722;0;12995;11171;12331;28792;6452;12816;9890;8692];
[0;28824;13056;12922;0;12947;9986;13211;17171;28828;9445;10572;13056;11679;12707;10268];
[12335;12804;32814;16935;0;16429;0;0;16497;16457;0;0;11159;17003;8338;28824];
[12346;0;28768;28803;32830;28828;8571;28779;12623;28711;12912;10274;0;0;12792;28713];
[20487;12948;13122;12693;17220;28679;12798;16936;10290;12520;28742;12012;0;12512;0;17230];
[0;17354;0;0;17230;11170;12852;12900;0;11413;0;0;0;16436;16937;9043];
[8893;28803;28803;17299;9974;0;28799;12936;0;0;12440;28799;32936;0;4519;17016];
[17319;0;12455;10883;17409;0;11181;10040;10584;12320;12827;12612;12058;0;28816;28703];
[12924;28812;9766;13077;0;0;28767;12477;0;0;28812;8903;32907;0;12624;0];
[9724;0;28702;16672;0;0;0;28791;0;0;32897;12828;20489;0;0;9147];
[20489;0;10816;28723;17320;13031;28802;17162;32781;5708;13042;12923;13139;16610;17003;12935];
[0;32794;0;28801;0;32791;8936;28786;5685;13044;0;10815;0;28791;32936;0];
[0;17004;17174;13068;0;11469;12816;12348;13210;0;11480;0;11703;16937;12501;0];
[32885;0;17252;13029;0;28792;0;28816;17319;32871;17406;16435;16801;13187;0;10563];
[6397;12719;10285;17399;12804;0;28811;28726;0;0;0;32898;13066;17240;32897;0];
[28804;0;32910;16664;8301;13186;17406;13198;28814;28827;17299;8875;17318;28800;28711;11759];
[32897;17151;12923;11713;17092;32807;16455;4788;13055;13079;0;13200;0;12544;11780;32832];
[9833;0;28780;28751;0;28767;28690;12296;0;28678;12360;10584;28768;32936;0;28800];
[0;0;28765;0;0;28778;28779;32911;0;32807;16534;28821;32828;0;10061;0];
[13054;0;16603;13152;20490;0;0;9984;0;16536;17252;28755;6397;0;13188;11171];
[11713;0;0;28756;12828;28780;9941;32778;4564;17405;28812;9777;12480;20483;13043;4540];
[0;0;9073;9839;0;28708;0;12923;0;28827;12360;17162;11469;13164;32781;9623];
[13150;0;11993;0;13055;13044;17308;12078;0;0;12489;0;12863;0;17012;0];
[4766;17253;11436;0;0;0;13007;17318;10872;28711;13152;28818;0;9383;0;32898];
[32884;13067;12720;12816;0;16759;28792;12429;32911;16506;0;28747;11114;0;0;0];
[17319;13042;0;12804;0;0;0;32921;0;28790;0;0;0;0;13187;13066];
[0;0;32920;11182;28780;0;13080;11181;12012;0;12816;0;10264;13210;0;12360];
[0;0;0;16516;0;32909;0;32911;0;0;0;5179;12804;0;13172;17331];
[0;12520;28710;0;12467;0;10882;0;13004;13077;0;4789;10264;17094;12912;0];
[17409;13122;28765;28824;28811;0;12924;0;11956;13188;28779;0;16458;16538;17229;0];
[0;12828;0;0;0;16525;9935;0;9620;6336;12516;0;17319;0;12515;0];
[32919;12296;17252;0;12827;0;28813;0;0;11481;12912;0;0;32831;0;11480];
[28815;0;28711;0;17330;0;13080;9946;12504;17408;12299;9908;13185;0;12456;10882];
[28789;28812;11479;0;0;32807;5728;16604;32884;0;9043;0;28800;28814;0;12075];
[13164;12708;0;16537;0;13160;28801;28810;11114;8901;28810;28714;28820;0;11480;0];
[0;0;10882;28813;28756;32910;0;0;0;28821;17174;32781;5734;4265;0;0];
[10573;11171;0;0;0;28827;12504;0;12451;16764;0;12791;12058;13044;17252;0];
[28713;13149;13067;17014;11436;0;0;0;11470;28786;0;5165;13031;13139;0;0];
[11611;12440;12936;0;12419;0;13211;0;17162;0;17015;0;13042;0;0;13111];
[11769;12504;0;0;17309;28708;0;0;28763;13019;0;0;32898;9074;13144;11992];
[28773;8784;16936;17174;0;0;0;0;0;0;16775;0;0;0;12720;0];
[28754;0;6045;28824;0;11470;12516;28678;13200;0;28752;13188;12359;9607;6450;0];
[0;9665;0;0;12348;4778;0;17171;0;13028;0;0;0;20489;0;11750];
[0;0;0;9946;0;0;0;0;0;28804;0;0;0;0;0;0];
[13043;0;0;0;17092;0;13039;0;6443;0;0;17332;11479;0;0;10882];
[20481;0;0;0;0;0;12948;32910;0;0;0;0;0;8389;0;11170];
[0;13134;13043;0;0;0;0;28779;32898;0;0;0;17331;0;32910;0];
[0;17388;0;0;0;0;0;11778;13080;17309;0;0;10573;32832;10883;0];
[13163;0;0;0;0;0;0;16937;0;0;32921;28814;10882;0;0;17385];
[13032;0;0;0;0;0;0;0;0;12430;0;28713;0;0;0;0];
[0;0;28812;17330;0;0;0;0;0;0;17015;0;13164;13080;12012;5155];
[13224;32898;0;12936;11956;17253;0;12492;11161;0;0;0;0;0;0;0];
[0;11480;28756;11759;0;0;0;13174;28821;13176;0;0;13056;11181;13211;0];
[0;11443;11459;0;0;17253;28792;11182;0;0;0;12948;0;0;0;0];
[0;0;11749;11956;0;0;13077;0;0;0;0;28804;11481;32872;0;0];
[0;0;11182;0;0;0;32937;0;0;28812;0;11956;28822;0;28792;32781];
[5686;0;0;0;0;13211;0;6397;28826;0;13221;0;0;0;0;0];
[0;11757;0;0;6452;0;5714;0;0;0;0;0;10573;0;0;0];
[28813;11480;0;0;13200;0;0;0;0;0;17016;0;8785;0;0;0];
[0;0;0;32922;32820;17320;0;0;13056;0;0;13163;0;32911;0;0];
[0;10573;0;0;0;0;0;0;13080;0;0;0;11779;0;0;12924];
[12011;17330;0;16447;0;0;0;16762;0;0;0;0;0;0;9336;0];
[12034;0;0;13079;0;0;0;0;12077;13162;0;11181;10883;12444;28718;0];
[0;0;0;28768;0;0;0;10273;0;32924;0;0;0;0;0;32924];
[0;9682;11470;0;11993;0;0;0;0;0;0;16457;0;0;0;0];
[0;0;0;0;0;0;0;0;0;0;0;20490;0;0;0;0];
[0;13188;0;0;0;0;0;13032;0;0;0;0;13209;13221;0;0];
[0;0;0;13211;0;0;0;0;28812;0;0;0;28699;0;0;0];
[0;13185;0;0;0;0;0;32872;28792;28797;11769;13209;11460;13077;20490;17396];
[0;12012;0;0;0;0;0;0;0;0;0;0;13163;0;17308;0];
[0;0;0;28824;9038;0;0;0;13221;0;11954;17251;0;0;0;0];
[0;0;0;0;0;0;0;0;12078;10882;13200;13077;0;17320;0;0];
[0;0;13127;0;0;0;0;0;0;0;0;20481;13068;0;0;12720];
[0;0;0;0;17399;0;0;0;0;16694;0;0;0;0;0;17320];
[0;0;0;28731;0;6397;0;0;13068;0;17329;0;0;11735;0;0];
[0;0;0;0;0;5729;0;0;11978;0;0;0;28809;0;32924;13223];
[0;12078;17331;0;28801;0;10881;0;12924;13176;28780;0;13164;0;28798;0];
[0;0;0;13079;0;0;10285;0;0;0;28815;13032;12058;0;28673;13199];
[0;0;0;0;0;0;0;0;0;0;0;0;0;0;0;0];
[28767;0;28799;0;0;0;0;28678;0;0;0;0;0;12067;0;13164];
[0;9941;32885;0;28768;0;0;0;0;0;0;0;0;13080;0;0];
[17369;13176;13212;0;0;0;0;11769;0;0;0;6388;0;0;5707;32920];
[0;0;28708;13198;0;0;0;0;0;0;0;0;0;0;0;0];
[0;13197;0;0;0;0;0;11180;12924;0;11180;0;0;0;0;0];
[0;0;0;11779;0;0;0;0;0;0;0;0;28825;0;11769;0];
[0;0;28825;0;13224;0;11182;0;0;0;0;0;0;0;0;0];
[13212;8744;0;0;0;0;0;0;0;0;0;0;0;13187;0;0];
[28823;0;0;28804;0;0;0;0;0;0;12336;0;13163;0;0;0];
[0;0;10583;12067;0;0;32924;0;16937;13187;0;0;0;0;17332;17253];
[0;0;0;32923;0;0;28824;0;0;0;0;12396;0;0;0;0];
[0;0;10882;0;0;0;0;0;0;0;0;0;0;0;0;0];
[0;0;13068;0;0;0;0;0;0;0;0;13175;0;0;0;0];
[0;0;0;0;13224;0;0;9356;0;0;0;28792;0;17406;0;0];
[0;0;0;0;0;0;0;0;0;0;0;0;0;0;0;0];
[0;0;0;0;0;0;0;0;0;12079;0;0;11769;0;0;13186];
[0;0;0;0;0;0;28824;0;0;0;0;0;0;0;0;0];
[0;0;11978;0;0;0;0;12068;28815;0;0;0;0;0;0;0];
[0;0;0;0;17399;0;17174;0;12079;13185;0;0;0;0;0;28824];
[13174;0;0;0;0;0;0;0;0;0;0;0;0;17399;0;0];
[28756;0;28756;0;0;0;0;0;0;0;0;0;0;0;0;0];
[0;13185;0;13212;0;0;0;0;0;0;0;0;0;0;0;0];
[0;0;0;0;0;0;0;0;0;0;0;0;0;0;0;0];
[0;0;0;0;0;0;0;0;0;0;0;0;0;0;0;0];
[0;0;0;0;0;0;0;0;0;0;0;0;0;0;0;0];
[0;0;0;28827;0;0;0;0;0;0;28768;0;0;13197;0;0];
[13044;0;0;13187;0;0;0;0;0;0;0;0;0;13195;0;13224];
[0;0;0;0;0;0;0;0;17399;0;13174;0;0;0;28823;0];
[0;0;0;0;0;0;0;0;0;0;0;0;0;0;0;28768];
[0;0;0;0;0;0;12077;9923;0;0;0;0;0;0;0;0];
[0;0;0;0;0;0;0;12011;0;0;0;13224;0;0;0;0];
[0;0;0;13212;0;0;0;0;0;0;0;0;0;0;0;0];
[0;0;0;0;0;13223;0;0;0;0;0;0;0;0;0;13175];
[0;0;0;0;0;0;0;0;0;0;0;0;0;6263;0;0];
[0;0;0;0;0;0;0;0;0;28827;0;0;0;0;0;0];
[0;0;0;0;0;0;0;0;0;0;0;0;17398;0;0;0];
[0;0;0;17331;0;0;0;0;0;0;0;28825;0;11780;0;0];
[0;0;12067;0;0;0;0;0;0;0;0;0;0;0;0;0];
[0;0;0;0;0;0;13212;0;0;0;13222;0;0;0;0;0];
[13197;0;0;0;0;0;0;0;0;13197;0;28816;0;0;0;0];
[0;0;0;12066;0;12058;0;0;28768;0;0;0;17399;0;0;0];
[0;13224;0;0;0;17329;0;0;0;0;0;0;0;28824;0;0];
[17409;13163;0;0;0;17331;0;0;0;0;0;0;0;0;28804;0];
[0;0;0;0;0;0;0;0;0;0;0;0;0;0;0;0];
[0;0;17369;0;17399;0;13223;0;0;12079;0;0;0;0;0;0];
[0;0;13198;0;0;0;0;0;0;0;0;0;0;0;0;0];
[0;0;0;0;0;0;0;17332;0;0;0;0;0;0;0;0];
[0;0;13209;0;0;0;0;0;0;0;0;0;0;0;0;0];
[0;0;0;0;0;0;0;0;0;13212;0;0;0;0;12079;17388];
[0;0;0;0;0;0;0;0;0;13200;0;0;0;0;0;0];
[0;0;0;0;0;0;0;0;0;0;0;28756;28823;0;0;0];
[0;0;0;0;0;0;0;0;0;0;0;0;0;11778;12012;0];
[0;0;0;0;17332;0;0;0;0;0;0;0;0;0;0;0];
[0;0;0;0;0;0;0;0;0;0;0;0;0;0;0;0];
[0;0;0;0;0;0;0;0;0;0;0;0;0;0;17398;0];
[0;0;0;0;0;0;17354;0;0;0;0;0;28823;0;0;17409];
[0;0;0;0;0;0;0;0;0;0;0;0;0;0;0;0];
[17378;0;0;0;13164;0;0;0;0;0;0;0;17396;0;28822;0];
[0;0;0;0;0;0;0;0;0;0;0;12067;0;0;0;0];
[0;12049;0;0;0;28816;0;0;13176;0;0;0;0;0;0;0];
[0;0;0;0;0;0;0;0;13140;0;0;0;0;0;0;0];
[0;0;12075;0;0;0;0;0;0;0;0;0;0;0;0;0];
[0;0;0;0;0;0;0;0;0;0;0;0;0;0;0;0];
[0;0;0;0;0;0;0;0;0;0;0;0;0;32924;0;0];
[0;13222;0;0;0;0;0;0;0;0;0;0;13188;0;0;0];
[0;13223;0;0;0;0;0;0;0;0;0;0;0;0;0;0];
[0;0;0;0;0;28824;0;0;0;0;0;0;0;0;0;0];
[0;0;0;0;0;0;0;0;0;0;28823;0;0;0;0;0];
[0;0;0;0;28816;0;0;0;0;0;0;0;0;0;0;0];
[0;0;0;0;0;0;0;0;0;0;0;0;0;0;0;0];
[0;0;0;0;0;0;0;17388;0;0;0;0;0;0;0;0];
[0;0;0;0;0;0;0;0;0;0;0;0;0;0;0;0];
[0;0;0;0;0;0;0;0;0;0;0;0;0;0;0;0];
[0;0;0;0;0;0;0;0;0;0;0;0;0;0;0;0];
[0;0;0;0;0;0;13221;0;0;0;0;0;0;0;0;0];
[0;0;0;0;0;0;0;0;0;0;0;0;0;0;0;0];
[0;0;0;0;0;0;0;0;0;0;0;0;0;0;0;0];
[0;0;0;0;13200;0;0;0;0;0;17388;0;0;0;0;0];
[0;0;0;0;0;0;0;0;0;0;0;0;0;0;0;0];
[0;0;0;0;0;0;0;0;0;0;0;0;0;0;0;0];
[0;0;0;0;0;0;0;0;0;0;0;13224;0;0;0;0];
[0;0;0;0;0;0;0;0;17388;0;0;0;0;0;0;0];
[0;13188;0;0;0;0;0;0;0;0;0;0;0;0;0;0];
[0;0;0;0;0;0;0;0;0;0;13224;0;0;0;0;0];
[0;28824;0;0;0;0;0;0;0;0;0;0;0;0;0;0];
[32924;17395;0;0;13223;0;0;0;0;0;0;0;0;0;0;0];
[0;0;0;0;0;0;0;0;0;0;0;0;0;0;0;0];
[0;0;0;0;0;0;0;0;0;0;0;0;0;0;0;0];
[0;0;0;0;0;0;0;0;0;0;0;0;0;0;0;0];
[0;0;0;0;0;0;0;0;0;0;0;0;0;0;0;0];
[0;0;0;0;0;0;0;0;0;0;0;0;0;0;0;0];
[0;0;0;0;0;0;0;0;0;0;0;0;0;0;0;0];
[0;0;0;0;0;0;0;0;0;0;0;0;0;0;0;0];
[0;0;0;0;0;0;0;0;0;0;0;0;0;0;0;28823];
[0;0;0;0;0;0;0;0;0;0;0;0;0;0;0;0];
[0;0;0;0;0;0;13223;0;0;0;0;0;0;0;0;0];
[28804;0;0;0;0;0;0;0;0;0;0;0;0;13223;0;0];
[0;0;0;0;0;0;0;0;0;0;0;0;0;0;0;0];
[0;0;0;28824;0;0;0;17388;0;0;0;0;0;0;0;0];
[0;0;0;0;0;28825;28816;0;0;0;0;0;0;0;0;0];
[0;0;0;0;0;0;0;0;0;0;0;0;0;0;0;0];
[0;0;0;0;0;0;0;0;0;0;0;0;0;0;0;0];
[0;0;0;0;0;32924;0;0;0;0;0;0;0;0;0;0];
[0;0;17408;0;0;0;0;0;0;0;0;0;0;0;0;0];
[0;0;28821;0;0;0;0;0;0;0;0;0;0;0;0;0];
[0;0;0;0;0;0;0;0;17378;0;0;0;0;0;0;17394];
[0;0;0;0;0;0;0;0;0;0;0;0;0;0;0;0]]%N.
Definition LOOKUP_21 : list (list N) := [
[0;0;0;0;0;0;0;0;0;0;0;0;0;0;0;0];
[0;0;0;0;0;0;0;0;0;0;0;0;0;0;0;0];
[0;0;0;0;0;0;0;0;0;17398;0;0;0;0;0;0];
[0;0;0;0;0;0;0;0;0;0;0;0;0;0;0;0];
[0;0;0;0;0;0;0;0;0;0;0;0;0;28824;0;0];
[0;0;0;0;0;0;0;0;0;0;0;0;0;0;17409;0];
[0;0;0;0;0;0;0;0;0;0;0;0;0;0;0;0];
[0;0;13221;0;0;17409;0;0;0;0;0;0;0;0;0;0];
[0;0;0;0;0;0;0;0;0;0;0;0;0;0;0;0];
[0;0;0;0;0;0;0;0;0;0;0;0;0;0;0;0];
[0;0;0;0;0;0;0;0;0;0;0;0;0;0;0;0];
[0;0;0;0;0;0;0;0;0;0;0;0;0;0;0;0];
[0;0;0;0;0;0;0;0;0;0;0;0;0;0;0;0];
[0;0;0;0;0;0;0;0;0;0;0;0;0;0;0;0];
[0;0;0;0;0;0;0;0;0;0;0;0;0;0;0;0];
[0;0;0;0;0;0;0;0;0;0;0;0;0;0;0;0];
[0;0;0;0;0;0;0;0;0;0;0;0;0;0;0;0];
[0;0;0;0;0;0;0;0;0;0;0;0;28827;0;0;0];
[0;0;0;0;0;0;0;0;0;0;0;0;0;0;0;0];
[0;0;0;0;0;0;0;0;0;0;0;0;0;0;0;0];
[0;0;0;0;0;0;0;0;0;0;0;0;0;0;0;0];
[0;0;0;0;0;0;0;0;0;28823]]%N.
(* src/lookup.rs:1-5788 LOOKUP : [u16; 86362] *)
Definition LOOKUP : list N := List.concat (LOOKUP_0 ++ LOOKUP_1 ++ LOOKUP_2 ++ LOOKUP_3 ++ LOOKUP_4 ++ LOOKUP_5 ++ LOOKUP_6 ++ LOOKUP_7 ++ LOOKUP_8 ++ LOOKUP_9 ++ LOOKUP_10 ++ LOOKUP_11 ++ LOOKUP_12 ++ LOOKUP_13 ++ LOOKUP_14 ++ LOOKUP_15 ++ LOOKUP_16 ++ LOOKUP_17 ++ LOOKUP_18 ++ LOOKUP_19 ++ LOOKUP_20 ++ LOOKUP_21).
