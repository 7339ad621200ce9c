(* Basis spectra of /repo/src/uplifting.rs *)
From Coq Require Import List QArith.
Import ListNotations.
Open Scope Q_scope.

(* uplifting.rs 53-138, shape (380, 780, 5) *)
Definition data_basis_red : list Q := [
  0.327457413827055;
  0.323750578270541;
  0.313439461251577;
  0.288879382755265;
  0.239205681158886;
  0.189702036890535;
  0.121746067959218;
  0.074578270669466;
  0.0444331586340337;
  0.0289286321285029;
  0.0223166534847512;
  0.0169113072926318;
  0.0141811071179667;
  0.0130531426774873;
  0.011986163627845;
  0.0112887147124048;
  0.0109060664656517;
  0.0104007134810042;
  0.0106373602541465;
  0.0109076625337741;
  0.0110327124480988;
  0.0113106565912268;
  0.0111546420569403;
  0.0101487704062122;
  0.00891858211883843;
  0.00768557633847106;
  0.00670570828469526;
  0.00599580598764424;
  0.00553725664234189;
  0.00519378424120663;
  0.00502536226522334;
  0.00513636276967508;
  0.00543320026053983;
  0.00581998590243535;
  0.00640057277462412;
  0.00744952868340878;
  0.00858363581937657;
  0.0103957624651674;
  0.0135654335386492;
  0.0193845158399742;
  0.0320840712020024;
  0.0743560378459411;
  0.624393724178075;
  0.91831003276872;
  0.949253030175051;
  0.958187833329246;
  0.958187751332698;
  0.958187625087782;
  0.955679060771746;
  0.958006154893429;
  0.954101573456564;
  0.947607606237237;
  0.938681328447549;
  0.924466682751434;
  0.904606025333056;
  0.880412198927933;
  0.8477878731517;
  0.805779126623019;
  0.752531853871421;
  0.686439396844578;
  0.61869457086061;
  0.540264443959111;
  0.472964416293838;
  0.432701596704049;
  0.405358045528392;
  0.385491834974902;
  0.370983584551061;
  0.357608701523081;
  0.348712800108393;
  0.344880119344691;
  0.341917877323291;
  0.339531092987129;
  0.337169503774367;
  0.336172018527717;
  0.335167443433363;
  0.334421625306463;
  0.334008760376402;
  0.333915792790082;
  0.333818454946367;
  0.333672774928456;
  0.333569513405591].

(* uplifting.rs 139-224, shape (380, 780, 5) *)
Definition data_basis_green : list Q := [
  0.331861713085874;
  0.329688187759399;
  0.327860021624697;
  0.319173580231756;
  0.294322583694842;
  0.258697064768736;
  0.188894319254765;
  0.125388381991689;
  0.0786870603106217;
  0.0531432708659453;
  0.0422881460313421;
  0.0333183455029171;
  0.0297559481859724;
  0.0303312505369047;
  0.0309885718973007;
  0.0316863551888381;
  0.0346699615029974;
  0.034551957443675;
  0.0406848061948297;
  0.0544600373694056;
  0.0809052874204737;
  0.146348302857044;
  0.379679643296617;
  0.766744268654033;
  0.87621474761337;
  0.918491655613843;
  0.940655562534437;
  0.95373188453302;
  0.961643279840238;
  0.967200019685078;
  0.970989746390046;
  0.972852303563554;
  0.973116594076444;
  0.973351069154143;
  0.973351115544369;
  0.972261079731725;
  0.973351021746917;
  0.973148495185693;
  0.971061306300914;
  0.966371305955183;
  0.954941967502548;
  0.913578989551261;
  0.364348803907687;
  0.0715072425408851;
  0.0412304344713751;
  0.0324238741836685;
  0.0319246297982003;
  0.0312760331730969;
  0.0326303704290574;
  0.0295308721490739;
  0.0315617611702464;
  0.0356742182708204;
  0.0414030053955673;
  0.0506042604489561;
  0.0634343003817003;
  0.0789182452939229;
  0.0995427426653747;
  0.125595760093287;
  0.15759091044168;
  0.19539823904421;
  0.231474474772178;
  0.268852136095262;
  0.296029164217928;
  0.309754994441945;
  0.317815883383822;
  0.322990347389898;
  0.326353847938009;
  0.32914390227898;
  0.330808726803682;
  0.331482689922243;
  0.331984550352389;
  0.332341172522545;
  0.332912009415539;
  0.332919279695214;
  0.333027672578856;
  0.33317970467326;
  0.333247030974549;
  0.333259349210601;
  0.333275050279383;
  0.333294328448732;
  0.333309424957775].

(* uplifting.rs 225-310, shape (380, 780, 5) *)
Definition data_basis_blue : list Q := [
  0.340680791548052;
  0.346561186624852;
  0.358700493140351;
  0.391947026588195;
  0.466471730587333;
  0.551600895598602;
  0.689359610948928;
  0.800033346878607;
  0.876879780935314;
  0.917928097443955;
  0.935395200669632;
  0.949770347115183;
  0.95606294480524;
  0.956615606890316;
  0.957025264931328;
  0.957024930534713;
  0.954423972737066;
  0.955047329020204;
  0.948677833093334;
  0.934632299842328;
  0.908061999852269;
  0.842341039463727;
  0.609165715365647;
  0.223106960959533;
  0.114866670291336;
  0.0738227678957437;
  0.0526387287910555;
  0.0402723090168887;
  0.0328194626509591;
  0.0276061959270456;
  0.0239848911270394;
  0.0220113333527922;
  0.0214502052559966;
  0.0208289445095685;
  0.0202483113888087;
  0.0202893914512066;
  0.018065342335913;
  0.0164557422344685;
  0.0153732601340955;
  0.0142441784845517;
  0.0129739615543347;
  0.0120649741345218;
  0.0112574781603901;
  0.0101827246716942;
  0.00951653538723741;
  0.00938829272866817;
  0.00988761909067028;
  0.0105363420064589;
  0.0116905688374448;
  0.0124629728871037;
  0.0143366651774203;
  0.0167181753275443;
  0.0199156660750025;
  0.024929056163281;
  0.0319596735860402;
  0.0406695540952484;
  0.0526693824219396;
  0.0686251105141947;
  0.0898772323000136;
  0.118162358926434;
  0.149830947442133;
  0.190883409341834;
  0.231006403025217;
  0.257543385422202;
  0.276826038721536;
  0.291517772810795;
  0.302662506083233;
  0.313247301302886;
  0.320478325124633;
  0.323636994707961;
  0.3260973088469;
  0.328127369340184;
  0.329917975958888;
  0.330907901216649;
  0.331803633095995;
  0.332396627255361;
  0.332740780726824;
  0.332820857081489;
  0.332901731283444;
  0.333025967488632;
  0.333111083081497].

(* uplifting.rs 315-400, shape (380.0, 780.0, 5.0) *)
Definition data_MY_RED : list Q := [
  0.327457413827055;
  0.323750578270541;
  0.313439461251577;
  0.288879382755265;
  0.239205681158886;
  0.189702036890535;
  0.121746067959218;
  0.074578270669466;
  0.0444331586340337;
  0.0289286321285029;
  0.0223166534847512;
  0.0169113072926318;
  0.0141811071179667;
  0.0130531426774873;
  0.011986163627845;
  0.0112887147124048;
  0.0109060664656517;
  0.0104007134810042;
  0.0106373602541465;
  0.0109076625337741;
  0.0110327124480988;
  0.0113106565912268;
  0.0111546420569403;
  0.0101487704062122;
  0.00891858211883843;
  0.00768557633847106;
  0.00670570828469526;
  0.00599580598764424;
  0.00553725664234189;
  0.00519378424120663;
  0.00502536226522334;
  0.00513636276967508;
  0.00543320026053983;
  0.00581998590243535;
  0.00640057277462412;
  0.00744952868340878;
  0.00858363581937657;
  0.0103957624651674;
  0.0135654335386492;
  0.0193845158399742;
  0.0320840712020024;
  0.0743560378459411;
  0.624393724178075;
  0.91831003276872;
  0.949253030175051;
  0.958187833329246;
  0.958187751332698;
  0.958187625087782;
  0.955679060771746;
  0.958006154893429;
  0.954101573456564;
  0.947607606237237;
  0.938681328447549;
  0.924466682751434;
  0.904606025333056;
  0.880412198927933;
  0.8477878731517;
  0.805779126623019;
  0.752531853871421;
  0.686439396844578;
  0.61869457086061;
  0.540264443959111;
  0.472964416293838;
  0.432701596704049;
  0.405358045528392;
  0.385491834974902;
  0.370983584551061;
  0.357608701523081;
  0.348712800108393;
  0.344880119344691;
  0.341917877323291;
  0.339531092987129;
  0.337169503774367;
  0.336172018527717;
  0.335167443433363;
  0.334421625306463;
  0.334008760376402;
  0.333915792790082;
  0.333818454946367;
  0.333672774928456;
  0.333569513405591].

(* uplifting.rs 401-486, shape (380.0, 780.0, 5.0) *)
Definition data_MY_GREEN : list Q := [
  0.331861713085874;
  0.329688187759399;
  0.327860021624697;
  0.319173580231756;
  0.294322583694842;
  0.258697064768736;
  0.188894319254765;
  0.125388381991689;
  0.0786870603106217;
  0.0531432708659453;
  0.0422881460313421;
  0.0333183455029171;
  0.0297559481859724;
  0.0303312505369047;
  0.0309885718973007;
  0.0316863551888381;
  0.0346699615029974;
  0.034551957443675;
  0.0406848061948297;
  0.0544600373694056;
  0.0809052874204737;
  0.146348302857044;
  0.379679643296617;
  0.766744268654033;
  0.87621474761337;
  0.918491655613843;
  0.940655562534437;
  0.95373188453302;
  0.961643279840238;
  0.967200019685078;
  0.970989746390046;
  0.972852303563554;
  0.973116594076444;
  0.973351069154143;
  0.973351115544369;
  0.972261079731725;
  0.973351021746917;
  0.973148495185693;
  0.971061306300914;
  0.966371305955183;
  0.954941967502548;
  0.913578989551261;
  0.364348803907687;
  0.0715072425408851;
  0.0412304344713751;
  0.0324238741836685;
  0.0319246297982003;
  0.0312760331730969;
  0.0326303704290574;
  0.0295308721490739;
  0.0315617611702464;
  0.0356742182708204;
  0.0414030053955673;
  0.0506042604489561;
  0.0634343003817003;
  0.0789182452939229;
  0.0995427426653747;
  0.125595760093287;
  0.15759091044168;
  0.19539823904421;
  0.231474474772178;
  0.268852136095262;
  0.296029164217928;
  0.309754994441945;
  0.317815883383822;
  0.322990347389898;
  0.326353847938009;
  0.32914390227898;
  0.330808726803682;
  0.331482689922243;
  0.331984550352389;
  0.332341172522545;
  0.332912009415539;
  0.332919279695214;
  0.333027672578856;
  0.33317970467326;
  0.333247030974549;
  0.333259349210601;
  0.333275050279383;
  0.333294328448732;
  0.333309424957775].

(* uplifting.rs 487-572, shape (380.0, 780.0, 5.0) *)
Definition data_MY_BLUE : list Q := [
  0.340680791548052;
  0.346561186624852;
  0.358700493140351;
  0.391947026588195;
  0.466471730587333;
  0.551600895598602;
  0.689359610948928;
  0.800033346878607;
  0.876879780935314;
  0.917928097443955;
  0.935395200669632;
  0.949770347115183;
  0.95606294480524;
  0.956615606890316;
  0.957025264931328;
  0.957024930534713;
  0.954423972737066;
  0.955047329020204;
  0.948677833093334;
  0.934632299842328;
  0.908061999852269;
  0.842341039463727;
  0.609165715365647;
  0.223106960959533;
  0.114866670291336;
  0.0738227678957437;
  0.0526387287910555;
  0.0402723090168887;
  0.0328194626509591;
  0.0276061959270456;
  0.0239848911270394;
  0.0220113333527922;
  0.0214502052559966;
  0.0208289445095685;
  0.0202483113888087;
  0.0202893914512066;
  0.018065342335913;
  0.0164557422344685;
  0.0153732601340955;
  0.0142441784845517;
  0.0129739615543347;
  0.0120649741345218;
  0.0112574781603901;
  0.0101827246716942;
  0.00951653538723741;
  0.00938829272866817;
  0.00988761909067028;
  0.0105363420064589;
  0.0116905688374448;
  0.0124629728871037;
  0.0143366651774203;
  0.0167181753275443;
  0.0199156660750025;
  0.024929056163281;
  0.0319596735860402;
  0.0406695540952484;
  0.0526693824219396;
  0.0686251105141947;
  0.0898772323000136;
  0.118162358926434;
  0.149830947442133;
  0.190883409341834;
  0.231006403025217;
  0.257543385422202;
  0.276826038721536;
  0.291517772810795;
  0.302662506083233;
  0.313247301302886;
  0.320478325124633;
  0.323636994707961;
  0.3260973088469;
  0.328127369340184;
  0.329917975958888;
  0.330907901216649;
  0.331803633095995;
  0.332396627255361;
  0.332740780726824;
  0.332820857081489;
  0.332901731283444;
  0.333025967488632;
  0.333111083081497].

(* uplifting.rs 573-609, shape (380.0, 720.0, 10.9375) *)
Definition data_SMITS_WHITE : list Q := [
  1.0618958571272863;
  1.0615019980348779;
  1.0614335379927147;
  1.0622711654692485;
  1.0622036218416742;
  1.0625059965187085;
  1.0623938486985884;
  1.0624706448043137;
  1.0625048144827762;
  1.0624366131308856;
  1.0620694238892607;
  1.0613167586932164;
  1.0610334029377020;
  1.0613868564828413;
  1.0614215366116762;
  1.0620336151299086;
  1.0625497454805051;
  1.0624317487992085;
  1.0625249140554480;
  1.0624277664486914;
  1.0624749854090769;
  1.0625538581025402;
  1.0625326910104864;
  1.0623922312225325;
  1.0623650980354129;
  1.0625256476715284;
  1.0612277619533155;
  1.0594262608698046;
  1.0599810758292072;
  1.0602547314449409;
  1.0601263046243634;
  1.0606565756823634].

(* uplifting.rs 610-646, shape (380.0, 720.0, 10.9375) *)
Definition data_SMITS_CYAN : list Q := [
  1.0414628021426751;
  1.0328661533771188;
  1.0126146228964314;
  1.0350460524836209;
  1.0078661447098567;
  1.0422280385081280;
  1.0442596738499825;
  1.0535238290294409;
  1.0180776226938120;
  1.0442729908727713;
  1.0529362541920750;
  1.0537034271160244;
  1.0533901869215969;
  1.0537782700979574;
  1.0527093770467102;
  1.0530449040446797;
  1.0550554640191208;
  1.0553673610724821;
  1.0454306634683976;
  0.62348950639230805;
  0.18038071613188977;
  (-0.0076303759201984539);
  (-0.00015217847035781367);
  (-0.0075102257347258311);
  (-0.0021708639328491472);
  0.00065919466602369636;
  0.012278815318539780;
  (-0.0044669775637208031);
  0.017119799082865147;
  0.0049211089759759801;
  0.0058762925143334985;
  0.025259399415550079].

(* uplifting.rs 647-683, shape (380.0, 720.0, 10.9375) *)
Definition data_SMITS_MAGENTA : list Q := [
  0.99422138151236850;
  0.98986937122975682;
  0.98293658286116958;
  0.99627868399859310;
  1.0198955019000133;
  1.0166395501210359;
  1.0220913178757398;
  0.99651666040682441;
  1.0097766178917882;
  1.0215422470827016;
  0.64031953387790963;
  0.0025012379477078184;
  0.0065339939555769944;
  0.0028334080462675826;
  (-0.000000000051209675389074505);
  (-0.0090592291646646381);
  0.0033936718323331200;
  (-0.0030638741121828406);
  0.22203936168286292;
  0.63141140024811970;
  0.97480985576500956;
  0.97209562333590571;
  1.0173770302868150;
  0.99875194322734129;
  0.94701725739602238;
  0.85258623154354796;
  0.94897798581660842;
  0.94751876096521492;
  0.99598944191059791;
  0.86301351503809076;
  0.89150987853523145;
  0.84866492652845082].

(* uplifting.rs 684-720, shape (380.0, 720.0, 10.9375) *)
Definition data_SMITS_YELLOW : list Q := [
  0.0055740622924920873;
  (-0.0047982831631446787);
  (-0.0052536564298613798);
  (-0.0064571480044499710);
  (-0.0059693514658007013);
  (-0.0021836716037686721);
  0.016781120601055327;
  0.096096355429062641;
  0.21217357081986446;
  0.36169133290685068;
  0.53961011543232529;
  0.74408810492171507;
  0.92209571148394054;
  1.0460304298411225;
  1.0513824989063714;
  1.0511991822135085;
  1.0510530911991052;
  1.0517397230360510;
  1.0516043086790485;
  1.0511944032061460;
  1.0511590325868068;
  1.0516612465483031;
  1.0514038526836869;
  1.0515941029228475;
  1.0511460436960840;
  1.0515123758830476;
  1.0508871369510702;
  1.0508923708102380;
  1.0477492815668303;
  1.0493272144017338;
  1.0435963333422726;
  1.0392280772051465].

(* uplifting.rs 721-757, shape (380.0, 720.0, 10.9375) *)
Definition data_SMITS_RED : list Q := [
  0.16575604867086180;
  0.11846442802747797;
  0.12408293329637447;
  0.11371272058349924;
  0.078992434518899132;
  0.032205603593106549;
  (-0.010798365407877875);
  0.018051975516730392;
  0.0053407196598730527;
  0.013654918729501336;
  (-0.0059564213545642841);
  (-0.0018444365067353252);
  (-0.010571884361529504);
  (-0.0029375521078000011);
  (-0.010790476271835936);
  (-0.0080224306697503633);
  (-0.0022669167702495940);
  0.0070200240494706634;
  (-0.0081528469000299308);
  0.60772866969252792;
  0.98831560865432400;
  0.99391691044078823;
  1.0039338994753197;
  0.99234499861167125;
  0.99926530858855522;
  1.0084621557617270;
  0.98358296827441216;
  1.0085023660099048;
  0.97451138326568698;
  0.98543269570059944;
  0.93495763980962043;
  0.98713907792319400].

(* uplifting.rs 758-794, shape (380.0, 720.0, 10.9375) *)
Definition data_SMITS_GREEN : list Q := [
  0.0026494153587602255;
  (-0.0050175013429732242);
  (-0.012547236272489583);
  (-0.0094554964308388671);
  (-0.012526086181600525);
  (-0.0079170697760437767);
  (-0.0079955735204175690);
  (-0.0093559433444469070);
  0.065468611982999303;
  0.39572875517634137;
  0.75244022299886659;
  0.96376478690218559;
  0.99854433855162328;
  0.99992977025287921;
  0.99939086751140449;
  0.99994372267071396;
  0.99939121813418674;
  0.99911237310424483;
  0.96019584878271580;
  0.63186279338432438;
  0.25797401028763473;
  0.0094014888527335638;
  (-0.0030798345608649747);
  (-0.0045230367033685034);
  (-0.0068933410388274038);
  (-0.0090352195539015398);
  (-0.0085913667165340209);
  (-0.0083690869120289398);
  (-0.0078685832338754313);
  (-0.0000083657578711085132);
  0.0054301225442817177;
  (-0.0027745589759259194)].

(* uplifting.rs 795-831, shape (380.0, 720.0, 10.9375) *)
Definition data_SMITS_BLUE : list Q := [
  0.99209771469720676;
  0.98876426059369127;
  0.99539040744505636;
  0.99529317353008218;
  0.99181447411633950;
  1.0002584039673432;
  0.99968478437342512;
  0.99988120766657174;
  0.98504012146370434;
  0.79029849053031276;
  0.56082198617463974;
  0.33133458513996528;
  0.13692410840839175;
  0.018914906559664151;
  (-0.0000051129770932550889);
  (-0.00042395493167891873);
  (-0.00041934593101534273);
  0.0017473028136486615;
  0.0037999160177631316;
  (-0.00055101474906588642);
  (-0.000043716662898480967);
  0.0075874501748732798;
  0.025795650780554021;
  0.038168376532500548;
  0.049489586408030833;
  0.049595992290102905;
  0.049814819505812249;
  0.039840911064978023;
  0.030501024937233868;
  0.021243054765241080;
  0.0069596532104356399;
  0.0041733649330980525].

