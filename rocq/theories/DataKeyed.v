(* The tables of /repo/src/colorchecker.rs with their keys, as written there. *)
From Coq Require Import List QArith String.
From Verif Require Import DataChecker.
Import ListNotations.
Open Scope Q_scope.

(* colorchecker.rs 13-38 *)
Definition NAMES : list string := [
  "dark_skin";
  "light_skin";
  "blue_sky";
  "foliage";
  "blue_flower";
  "bluish_green";
  "orange";
  "purplish_blue";
  "moderate_red";
  "purple";
  "yellow_green";
  "orange_yellow";
  "blue";
  "green";
  "red";
  "yellow";
  "magenta";
  "cyan";
  "white_95";
  "neutral_80";
  "neutral_65";
  "neutral_50";
  "neutral_35";
  "black_20"
]%string.

(* colorchecker.rs 77-102 *)
Definition keyed_XYZ_D65 : list (string * (Q * Q * Q)) := [
  ("dark_skin"%string, (11.147246585760028025902102, 10.072588850988735131863905, 6.804851374386516660308644));
  ("light_skin"%string, (37.194721800912041942410724, 34.567866642655026510055905, 25.242625347936321844599661));
  ("blue_sky"%string, (17.645512685337042313449274, 18.840745669460680744577985, 34.487464479138445483386022));
  ("foliage"%string, (10.594739901308340535024399, 13.327734791878315334656691, 6.945293240773439791269084));
  ("blue_flower"%string, (24.805343199506264539877520, 23.448877508726543084094374, 43.924710655835980332994950));
  ("bluish_green"%string, (30.939729382054277806446407, 42.658530611772086160726758, 44.871428726929195818229346));
  ("orange"%string, (37.166769794284888916990894, 29.668428952186939540069943, 6.336517033236169105236968));
  ("purplish_blue"%string, (13.562804494926156806400286, 11.813584921599741051068122, 38.700511062732488198889769));
  ("moderate_red"%string, (27.669109819076627587719486, 18.702493655780408232658374, 13.532572766805648356580605));
  ("purple"%string, (8.383799018583362183676400, 6.356965302783169846634337, 13.991893682157272138510962));
  ("yellow_green"%string, (33.656220304027733902785258, 44.207355950053695892165706, 11.323870868734163153135341));
  ("orange_yellow"%string, (45.233538104391215028954321, 42.068383776537778828696901, 7.771898302018611204289300));
  ("blue"%string, (7.985733783316090850235014, 6.118583084127553917141995, 28.349897691332994753565799));
  ("green"%string, (14.650730683595259762341811, 23.442655669347171709659960, 9.856457483347925929706435));
  ("red"%string, (19.573640762043474694564793, 11.700774873453577029636108, 5.028973177539572958494318));
  ("yellow"%string, (56.049678312643010258398135, 59.420045497203417994569463, 9.259158982980897789616392));
  ("magenta"%string, (29.443853393777558835608943, 19.261353401754348624308477, 31.073900904962080460336438));
  ("cyan"%string, (14.637434350390281068143850, 19.962492706402244380115008, 39.321383653972105776119861));
  ("white_95"%string, (86.236736258404803834309860, 91.236914549892304648892605, 95.431166160775632079094066));
  ("neutral_80"%string, (55.675520233910646084041218, 58.862428191470570482124458, 63.679052737888120816478477));
  ("neutral_65"%string, (34.035295367046018100154470, 35.957858109436315885432123, 39.110894619665202753822086));
  ("neutral_50"%string, (18.074449247287745379253465, 19.128897801135334333366700, 20.882198295119568598465776));
  ("neutral_35"%string, (8.450692858420268294139532, 8.948097881616423165951346, 9.876477785169473833093434));
  ("black_20"%string, (3.052587003119916264637368, 3.200794039291807280278590, 3.540580710399631403362264))
].

(* colorchecker.rs 103-128 *)
Definition keyed_SRGB_LINEAR : list (string * (Q * Q * Q)) := [
  ("dark_skin"%string, (0.172472848088049357517804, 0.083759962817788274902497, 0.057588214119516790978626));
  ("light_skin"%string, (0.548095178664651738742464, 0.298520072473280051461586, 0.217013562019778644129886));
  ("blue_sky"%string, (0.110246043757098066695477, 0.196759632618355467803539, 0.335925928944526275277127));
  ("foliage"%string, (0.103829969922548198679735, 0.150231511017197977286841, 0.052124440704572234939196));
  ("blue_flower"%string, (0.224377199329057197552117, 0.217743828970848346537892, 0.430265057676509132811304));
  ("bluish_green"%string, (0.123156994158220900459355, 0.519035322154572931196981, 0.404501028461430711669067));
  ("orange"%string, (0.716769378172862459130954, 0.199041212317089544203697, 0.027155280754261622300216));
  ("purplish_blue"%string, (0.064957066888961412232106, 0.106249925299062492056734, 0.392519170796692795644134));
  ("moderate_red"%string, (0.541677032505047506560913, 0.088351388656319862491273, 0.120297901256569333972024));
  ("purple"%string, (0.104202538462593308210558, 0.043819962336647824696634, 0.139595883056075620309855));
  ("yellow_green"%string, (0.354647179356588515553028, 0.507845870795907483596920, 0.048256823653753971870017));
  ("orange_yellow"%string, (0.780412155464097700985349, 0.354076329982187187894738, 0.021524542872345529820333));
  ("blue"%string, (0.023378239923946081413320, 0.049163814407418293672691, 0.291624562823076582951387));
  ("green"%string, (0.065266778571410277720588, 0.301876835307849256118118, 0.064520195024281884466077));
  ("red"%string, (0.429364630916839962182507, 0.031921153601482038508763, 0.040189183649206192128212));
  ("yellow"%string, (0.856774769327355079084896, 0.575378431243281140972101, 0.007872088455955224273186));
  ("magenta"%string, (0.503137518674846573318860, 0.088918640453356734276724, 0.305558197966204425632952));
  ("cyan"%string, ((-0.028579159222773042881016), 0.248952710982160430042143, 0.383056591034591942257492));
  ("white_95"%string, (0.916274030251293281068570, 0.915478239475917998646537, 0.870617982733549289342534));
  ("neutral_80"%string, (0.581883905589711813988174, 0.591128119355468828466371, 0.584019498699165695576596));
  ("neutral_65"%string, (0.355196666232587165978885, 0.360960546872658660788602, 0.359005785106055741451314));
  ("neutral_50"%string, (0.187552544609087989968543, 0.192362638489200349356523, 0.191769352695837003164314));
  ("neutral_35"%string, (0.087058873896904476197278, 0.090068395238972281946488, 0.090847286432883908591229));
  ("black_20"%string, (0.032066193029057762919898, 0.031933320110622720466864, 0.032594609229506611713933))
].

(* colorchecker.rs 129-154 *)
Definition keyed_SRGB_ENCODED : list (string * (Q * Q * Q)) := [
  ("dark_skin"%string, (0.452246936219735384820950, 0.320420218319113270233345, 0.266162475996208403028476));
  ("light_skin"%string, (0.766187730821718981921720, 0.582516506513112930498721, 0.503198490520271768389193));
  ("blue_sky"%string, (0.365956333997268901114808, 0.480869609162119904244292, 0.614659337914013947923308));
  ("foliage"%string, (0.355569732510694236360393, 0.423890502831751170287333, 0.253096226815998526227247));
  ("blue_flower"%string, (0.511013679614789051441903, 0.503980382003520466227542, 0.687407741927910209689401));
  ("bluish_green"%string, (0.385836023860504695459639, 0.747757750263048914796116, 0.668550706970759023306528));
  ("orange"%string, (0.863319685762475974577512, 0.483449998047262463618523, 0.179796571015514633495869));
  ("purplish_blue"%string, (0.282686316071752985479293, 0.359530086358149369996084, 0.659542102062758539560150));
  ("moderate_red"%string, (0.762167279620770132808616, 0.328861628345550882634996, 0.381542616746955054463086));
  ("purple"%string, (0.356182936878738642949571, 0.231604140077007469855630, 0.409461136578770257266058));
  ("yellow_green"%string, (0.629963882521570095462948, 0.740501058722563332281652, 0.243356335820451685769683));
  ("orange_yellow"%string, (0.896453285511323971768149, 0.629504276758887537646103, 0.158128535146370680086747));
  ("blue"%string, (0.165592485644282999546206, 0.245680165554016449735997, 0.576338830757840758778343));
  ("green"%string, (0.283356247800201133113518, 0.585493713543917215780255, 0.281738150881347404475008));
  ("red"%string, (0.686759989779952784161310, 0.196160805443987840135378, 0.221459352518039609414302));
  ("yellow"%string, (0.934191186590817124191233, 0.782978964946976607741647, 0.085159738509608035039733));
  ("magenta"%string, (0.737419679935916061452872, 0.329886606665286907791312, 0.588736698017782611458415));
  ("cyan"%string, ((-0.369242737158227696259161), 0.536063967421520293221704, 0.652313614783015305320646));
  ("white_95"%string, (0.962254688805857738564953, 0.961886473335449854182855, 0.940819531800798358744942));
  ("neutral_80"%string, (0.786913752015429235342481, 0.792461155347229495582440, 0.788199850671958190950761));
  ("neutral_65"%string, (0.630405881331986273075074, 0.635018417755186859174898, 0.633458969622580303493464));
  ("neutral_50"%string, (0.470275357040106423145431, 0.475847074765247624039688, 0.475164276285760578399930));
  ("neutral_35"%string, (0.326511729828716679158163, 0.331952482017977279493692, 0.333343263685585089461938));
  ("black_20"%string, (0.196635674178738062423122, 0.196200687704149889789562, 0.198355226266496709186526))
].

(* colorchecker.rs 155-180 *)
Definition keyed_ITUR_BT709_LINEAR : list (string * (Q * Q * Q)) := [
  ("dark_skin"%string, (0.172494903478921379758049, 0.083742275147121236766878, 0.057580802353872279075730));
  ("light_skin"%string, (0.548166740768265214889254, 0.298464057547432659589504, 0.216988329625176945558707));
  ("blue_sky"%string, (0.110273098930456669997113, 0.196749542671626420631270, 0.335908108250348169665500));
  ("foliage"%string, (0.103844003550475294517241, 0.150221251702132713168325, 0.052118125269136880706178));
  ("blue_flower"%string, (0.224421285176510387771032, 0.217722049842185322310328, 0.430240604300889062372448));
  ("bluish_green"%string, (0.123188484025332667393116, 0.519025160746376057474549, 0.404476442342092679105292));
  ("orange"%string, (0.716851845893850314617168, 0.198966677599440922019625, 0.027134324567005527195640));
  ("purplish_blue"%string, (0.064981437260032082203765, 0.106244414012927529400443, 0.392501385490325371829812));
  ("moderate_red"%string, (0.541743677218970431930245, 0.088295085198929423864200, 0.120279009337661432765820));
  ("purple"%string, (0.104220403545023709845907, 0.043809504148107525356437, 0.139587500096980537955815));
  ("yellow_green"%string, (0.354689491376854459936396, 0.507810498429601908654263, 0.048240251298149502967583));
  ("orange_yellow"%string, (0.780501597154235060571636, 0.353995635316927736990777, 0.021500394584380130152956));
  ("blue"%string, (0.023393524095718709610026, 0.049162229966367182454334, 0.291612313280338930621127));
  ("green"%string, (0.065276975492802036260542, 0.301871183593432124148137, 0.064512544950775421725986));
  ("red"%string, (0.429415067688915130794669, 0.031876259266901685318629, 0.040176761147720146949425));
  ("yellow"%string, (0.856872280066656610841846, 0.575290451538240987794381, 0.007843951848158753348272));
  ("magenta"%string, (0.503207817704942828029857, 0.088866832232108616818067, 0.305533197128576683443413));
  ("cyan"%string, ((-0.028565807124527942129077), 0.248957498257709852751418, 0.383039755082404953512309));
  ("white_95"%string, (0.916415661839609096972481, 0.915387263895882208331045, 0.870551523454819897729351));
  ("neutral_80"%string, (0.581975197851302139540053, 0.591070453558429576013111, 0.583975993303848417426138));
  ("neutral_65"%string, (0.355252501874878001686398, 0.360925352648451103210192, 0.358979131579965304865709));
  ("neutral_50"%string, (0.187582122734965328625378, 0.192344066513187333944401, 0.191755174044448584158573));
  ("neutral_35"%string, (0.087072682904792975122632, 0.090059781523777859835178, 0.090840626034524529774927));
  ("black_20"%string, (0.032071241713950954244083, 0.031930141044387530535609, 0.032592203788710867595757))
].

(* colorchecker.rs 181-206 *)
Definition keyed_ITUR_BT709_ENCODED : list (string * (Q * Q * Q)) := [
  ("dark_skin"%string, (0.399364401721517880972101, 0.261016854025742595091231, 0.205174402005976003193766));
  ("light_skin"%string, (0.739510295218352764479164, 0.538821434392025677695415, 0.453578600192821257408582));
  ("blue_sky"%string, (0.308482538632948055656868, 0.429760338114109630147652, 0.573662026937474700538644));
  ("foliage"%string, (0.297615180559450354103035, 0.369302861827300543673402, 0.191832305355082138875744));
  ("blue_flower"%string, (0.462017634545860866879252, 0.454418635151685901263363, 0.652913392335445097458546));
  ("bluish_green"%string, (0.329306082781160580630342, 0.719149138945576194004161, 0.632306859418109268311525));
  ("orange"%string, (0.847108460125044704369657, 0.432433403892202528062683, 0.117810968477395916487183));
  ("purplish_blue"%string, (0.222183246199042089275011, 0.301714852545919454129830, 0.622483211507415590268977));
  ("moderate_red"%string, (0.735074656929566971896861, 0.269696598474792548216783, 0.324724056687833551038125));
  ("purple"%string, (0.298261456112456802003408, 0.169969753147391350323048, 0.354083900577594423708661));
  ("yellow_green"%string, (0.590333583181095966629925, 0.711146287644402907979213, 0.181887229883310880262925));
  ("orange_yellow"%string, (0.884028028224794204525949, 0.589726432028825464648492, 0.096253391447573000139215));
  ("blue"%string, (0.103810639846817098774778, 0.184290428107921816502923, 0.532190318075471235914620));
  ("green"%string, (0.222839765522818950005401, 0.542087690845776459802607, 0.221138253274817092597360));
  ("red"%string, (0.652263809401795180420436, 0.134108441151345098019121, 0.159694030844691997605977));
  ("yellow"%string, (0.926203156186145459827230, 0.757933097590480331362528, 0.035297783316714390067226));
  ("magenta"%string, (0.707833669549199684389862, 0.270769049729344568611111, 0.545575767625020247031387));
  ("cyan"%string, ((-0.128546132060375739580849), 0.488833100744794801784110, 0.614604245882647060028603));
  ("white_95"%string, (0.957669856885714709804347, 0.957136086332364799389438, 0.933536013853776047710653));
  ("neutral_80"%string, (0.762399681620651747948614, 0.768431831507482732135372, 0.763731071874368394603039));
  ("neutral_65"%string, (0.590825759438441511228746, 0.595761137731991907706686, 0.594072765732311158792811));
  ("neutral_50"%string, (0.418527990039832431534705, 0.424399314548215111919660, 0.423677594195949747124530));
  ("neutral_35"%string, (0.267390799285208036195627, 0.272994563120933730893114, 0.274442503452094421767526));
  ("black_20"%string, (0.134749015917235231976079, 0.134285673636640373596052, 0.136450094805407012854559))
].

(* colorchecker.rs 207-232 *)
Definition keyed_ALEXA_WIDE_GAMUT_LINEAR : list (string * (Q * Q * Q)) := [
  ("dark_skin"%string, (0.137213058279945870898686, 0.082558893532934288228553, 0.063469252755507021834802));
  ("light_skin"%string, (0.448131976818098742842977, 0.293795375618616849688891, 0.234863097684776228613046));
  ("blue_sky"%string, (0.155775724839095436324854, 0.217242203002425360303107, 0.311283282936990757239215));
  ("foliage"%string, (0.111340172657689029378503, 0.131822023876567079314626, 0.067613142864402342446795));
  ("blue_flower"%string, (0.242752350675949690739230, 0.254127078545603679593512, 0.395044704205923580264681));
  ("bluish_green"%string, (0.257913305024443706425785, 0.484960588711348228319054, 0.416633640996035892190008));
  ("orange"%string, (0.509099934908257334420512, 0.188798953825366405689934, 0.064681018666482778534110));
  ("purplish_blue"%string, (0.108212525485730737262458, 0.153429608581970855496479, 0.344220218749182182982338));
  ("moderate_red"%string, (0.377697315249863829755839, 0.110432750805009693984005, 0.122840615085597376632265));
  ("purple"%string, (0.091322757592163850137723, 0.062329728029740794070790, 0.124722324140150442328689));
  ("yellow_green"%string, (0.366160123505095913554186, 0.423979758040928855766794, 0.121941902531434484546757));
  ("orange_yellow"%string, (0.590713892603681900439483, 0.313127627136588426726149, 0.084155337905881547055920));
  ("blue"%string, (0.056624462963746347021754, 0.089464529510759588371016, 0.250879279269294042098437));
  ("green"%string, (0.129272051429859369253705, 0.252774797409109630574875, 0.099842019832596468065233));
  ("red"%string, (0.283663366433296038060519, 0.047925808781932033308948, 0.045702544496744608448768));
  ("yellow"%string, (0.697518460534604978207085, 0.489110977130075175178803, 0.107020727433860110555663));
  ("magenta"%string, (0.371655973159687069706791, 0.140986944408081960045109, 0.276728785537252885973203));
  ("cyan"%string, (0.086874895119720990654955, 0.261552123501663402738160, 0.355939957227403791506504));
  ("white_95"%string, (0.911648134646781072021327, 0.907796105182375190345567, 0.878018053705698742206209));
  ("neutral_80"%string, (0.584634072022727657724772, 0.589528143623551104113290, 0.584996040404322070749288));
  ("neutral_65"%string, (0.357153492842366526716091, 0.360385128213985994616309, 0.359203500928521990420705));
  ("neutral_50"%string, (0.189280123393807092613272, 0.192068421919942611264531, 0.191770056255532700406619));
  ("neutral_35"%string, (0.088250396368890440812471, 0.090082598358478982447650, 0.090658877413833022229639));
  ("black_20"%string, (0.032084024421541845750738, 0.032047962437922267175949, 0.032484604215990184328255))
].

(* colorchecker.rs 233-258 *)
Definition keyed_ALEXA_WIDE_GAMUT_ENCODED : list (string * (Q * Q * Q)) := [
  ("dark_skin"%string, (0.363518976106640467893527, 0.313447392487750664535895, 0.288471725763217889948464));
  ("light_skin"%string, (0.485687878962457519893547, 0.441516373072294299184648, 0.418314720070651957506414));
  ("blue_sky"%string, (0.376316147251576360588388, 0.410277129818338137656752, 0.447536203022192657918765));
  ("foliage"%string, (0.342677108259875851103970, 0.359497390375041359078523, 0.294408650707382257838418));
  ("blue_flower"%string, (0.421727094572193927923820, 0.426463640649455189013395, 0.472448090176936452699863));
  ("bluish_green"%string, (0.427995012090144455463303, 0.493998840580603726380104, 0.478030691703853483076614));
  ("orange"%string, (0.499116785697253872999823, 0.395881535291465025405699, 0.290242040284021007856552));
  ("purplish_blue"%string, (0.339859794842281182081223, 0.374780478633934988064169, 0.458031800795150489946650));
  ("moderate_red"%string, (0.467741947843008654128738, 0.341867308943827774569968, 0.352443650832155230823162));
  ("purple"%string, (0.323218859926489743283895, 0.286779887276093214953931, 0.353960358526902774123357));
  ("yellow_green"%string, (0.464493777989795852967347, 0.479865972203110946470161, 0.351711633150909974698806));
  ("orange_yellow"%string, (0.514809384293810623489662, 0.448151837406924602458247, 0.315294918392686751573706));
  ("blue"%string, (0.277883613098220794146442, 0.321219988283784396720932, 0.425132406871337242826314));
  ("green"%string, (0.357541379797264025075521, 0.425911361276844258050289, 0.331934557277378472495144));
  ("red"%string, (0.437867701505738782241650, 0.262719558237701933389729, 0.258473872578539043409762));
  ("yellow"%string, (0.532393161558567751256987, 0.494896342870777328215581, 0.338766491161558658262720));
  ("magenta"%string, (0.466053337044106286146672, 0.366247166746927199643125, 0.435297009357390740635907));
  ("cyan"%string, (0.318370779638559420199329, 0.429446459374782318896280, 0.461531944988240572236293));
  ("white_95"%string, (0.560798190790710804343178, 0.560348278359034446260978, 0.556805106407804339951895));
  ("neutral_80"%string, (0.513716246119833686023526, 0.514597061213167394910784, 0.513781639781872190297918));
  ("neutral_65"%string, (0.461887936494457806979597, 0.462830221320669976670104, 0.462486639207018379593706));
  ("neutral_50"%string, (0.396141830250974880112125, 0.397637896456272454948078, 0.397478800359552353338444));
  ("neutral_35"%string, (0.319893565711201921519802, 0.321888976266371973355973, 0.322508998224383780506486));
  ("black_20"%string, (0.228003355520057876537621, 0.227910013123151955483081, 0.229034789877255673395950))
].

(* colorchecker.rs 259-284 *)
Definition keyed_ACES_CC_LINEAR : list (string * (Q * Q * Q)) := [
  ("dark_skin"%string, (0.136958104436062544362329, 0.089643073115727486821491, 0.062728584827155445258207));
  ("light_skin"%string, (0.447824981857304127430552, 0.314971831410518821048328, 0.232473106477556035187604));
  ("blue_sky"%string, (0.150098826259045081688015, 0.192356550046498847583720, 0.316427548033242189706726));
  ("foliage"%string, (0.117299930985775860414755, 0.145803954290654375069991, 0.063651909722611255126878));
  ("blue_flower"%string, (0.231551971660423655530181, 0.220727135722761091951583, 0.403333878046831906249992));
  ("bluish_green"%string, (0.271103856135971432728127, 0.489948207379747091572142, 0.410942311229957446538918));
  ("orange"%string, (0.508611875064928109502205, 0.233169895804646809533978, 0.059612680274470669639086));
  ("purplish_blue"%string, (0.094043060653694221517895, 0.106771941023048849706001, 0.355228311242934413627381));
  ("moderate_red"%string, (0.367759925709379043023972, 0.120419780285278554821105, 0.125500416933984448863981));
  ("purple"%string, (0.085228241514191227512498, 0.049181459740360887467059, 0.128637160007779804971051));
  ("yellow_green"%string, (0.392909265156374920557880, 0.491607147792077481263107, 0.103585186757195524265285));
  ("orange_yellow"%string, (0.600267468885434807290835, 0.379884694876196471469143, 0.072551437360750231642115));
  ("blue"%string, (0.044455981533757613077817, 0.050251636192610173170525, 0.260231363972776741366744));
  ("green"%string, (0.145960151783498526256722, 0.282476201416323513537776, 0.089869563477841432619364));
  ("red"%string, (0.275980250109460201191069, 0.059804442076006103512498, 0.047266362133347110396908));
  ("yellow"%string, (0.721962745629650237688679, 0.588230488320747424424439, 0.085824053751429069114565));
  ("magenta"%string, (0.352804699764549756224596, 0.120457786064671945602811, 0.286451538769856239863287));
  ("cyan"%string, (0.084946977963370834396883, 0.231129968399615637331124, 0.360290480546477331902366));
  ("white_95"%string, (0.913966519556086209874479, 0.914924202723351731592061, 0.876278157761282150417514));
  ("neutral_80"%string, (0.585169735947568048217704, 0.590349090781268626138001, 0.584692428315315426701204));
  ("neutral_65"%string, (0.357358385170980008549435, 0.360505007494525742117730, 0.359110556360598354164182));
  ("neutral_50"%string, (0.189397658387073564156822, 0.192003685925913519794150, 0.191732537485383575104336));
  ("neutral_35"%string, (0.088264166141273359134090, 0.089859992318327447380355, 0.090680051875290587637402));
  ("black_20"%string, (0.032046936856974447827007, 0.031947919397201728075597, 0.032510844411955473753917))
].

(* colorchecker.rs 285-310 *)
Definition keyed_ACES_CC_ENCODED : list (string * (Q * Q * Q)) := [
  ("dark_skin"%string, (0.391084848432156628739165, 0.356183556960070202279667, 0.326784636168585829185673));
  ("light_skin"%string, (0.488641947265971543501450, 0.459662940425805466304610, 0.434653866073645978040929));
  ("blue_sky"%string, (0.398629258022055787957783, 0.419055642787930615611458, 0.460042643307164711430346));
  ("foliage"%string, (0.378326145528523005712174, 0.396238684478454228354849, 0.327987877260245808130890));
  ("blue_flower"%string, (0.434326937598519757788296, 0.430384469605087582877445, 0.480025484884667397178504));
  ("bluish_green"%string, (0.447312644925086544400727, 0.496044586445950064224064, 0.481564371306352434487508));
  ("orange"%string, (0.499123119381458424381748, 0.434900310593953398630163, 0.322589215222595537824191));
  ("purplish_blue"%string, (0.360129298106863671158351, 0.370582446974940582506974, 0.469567264402733108852317));
  ("moderate_red"%string, (0.472422156674851656532610, 0.380487688090550557618030, 0.383890642818371596867166));
  ("purple"%string, (0.352024850236106745526854, 0.306749906735135580149176, 0.385923479790769297093078));
  ("yellow_green"%string, (0.477869183411314735199227, 0.496322933632736384979012, 0.368087306488701082596293));
  ("orange_yellow"%string, (0.512766974272473641249803, 0.475093235943969682821830, 0.338764155645622011547857));
  ("blue"%string, (0.298431584266894034396245, 0.308522510354626633422015, 0.443942166448692721036906));
  ("green"%string, (0.396326852819774255731744, 0.450696417288156070402039, 0.356391347304850891752892));
  ("red"%string, (0.448780646841581254413711, 0.322853679066261278762795, 0.303479317456179786827164));
  ("yellow"%string, (0.527967825279575642127838, 0.511098942179222248682890, 0.352598507770407132433377));
  ("magenta"%string, (0.469003520804454177017817, 0.380513673150600861827542, 0.451847202786560098175528));
  ("cyan"%string, (0.351752650334378802465807, 0.434176725880943970015124, 0.470732445151789746784488));
  ("white_95"%string, (0.547386599459126266253861, 0.547472838629472491334127, 0.543918995640382374467947));
  ("neutral_80"%string, (0.510669352888965200065741, 0.511394989722150472566398, 0.510602158324929389365820));
  ("neutral_65"%string, (0.470059563107254774205757, 0.470781461419638502796658, 0.470462326939941666292810));
  ("neutral_50"%string, (0.417779132380554862891131, 0.418904447030576776445088, 0.418788076016463228778974));
  ("neutral_35"%string, (0.354907057964579608633215, 0.356382576983903520684294, 0.357130652204681542372100));
  ("black_20"%string, (0.271480038613549246040435, 0.271225216277882763549201, 0.272663518162347184858874))
].

(* colorchecker.rs 311-336 *)
Definition keyed_ACES_CCT_LINEAR : list (string * (Q * Q * Q)) := [
  ("dark_skin"%string, (0.136958104436062544362329, 0.089643073115727486821491, 0.062728584827155445258207));
  ("light_skin"%string, (0.447824981857304127430552, 0.314971831410518821048328, 0.232473106477556035187604));
  ("blue_sky"%string, (0.150098826259045081688015, 0.192356550046498847583720, 0.316427548033242189706726));
  ("foliage"%string, (0.117299930985775860414755, 0.145803954290654375069991, 0.063651909722611255126878));
  ("blue_flower"%string, (0.231551971660423655530181, 0.220727135722761091951583, 0.403333878046831906249992));
  ("bluish_green"%string, (0.271103856135971432728127, 0.489948207379747091572142, 0.410942311229957446538918));
  ("orange"%string, (0.508611875064928109502205, 0.233169895804646809533978, 0.059612680274470669639086));
  ("purplish_blue"%string, (0.094043060653694221517895, 0.106771941023048849706001, 0.355228311242934413627381));
  ("moderate_red"%string, (0.367759925709379043023972, 0.120419780285278554821105, 0.125500416933984448863981));
  ("purple"%string, (0.085228241514191227512498, 0.049181459740360887467059, 0.128637160007779804971051));
  ("yellow_green"%string, (0.392909265156374920557880, 0.491607147792077481263107, 0.103585186757195524265285));
  ("orange_yellow"%string, (0.600267468885434807290835, 0.379884694876196471469143, 0.072551437360750231642115));
  ("blue"%string, (0.044455981533757613077817, 0.050251636192610173170525, 0.260231363972776741366744));
  ("green"%string, (0.145960151783498526256722, 0.282476201416323513537776, 0.089869563477841432619364));
  ("red"%string, (0.275980250109460201191069, 0.059804442076006103512498, 0.047266362133347110396908));
  ("yellow"%string, (0.721962745629650237688679, 0.588230488320747424424439, 0.085824053751429069114565));
  ("magenta"%string, (0.352804699764549756224596, 0.120457786064671945602811, 0.286451538769856239863287));
  ("cyan"%string, (0.084946977963370834396883, 0.231129968399615637331124, 0.360290480546477331902366));
  ("white_95"%string, (0.913966519556086209874479, 0.914924202723351731592061, 0.876278157761282150417514));
  ("neutral_80"%string, (0.585169735947568048217704, 0.590349090781268626138001, 0.584692428315315426701204));
  ("neutral_65"%string, (0.357358385170980008549435, 0.360505007494525742117730, 0.359110556360598354164182));
  ("neutral_50"%string, (0.189397658387073564156822, 0.192003685925913519794150, 0.191732537485383575104336));
  ("neutral_35"%string, (0.088264166141273359134090, 0.089859992318327447380355, 0.090680051875290587637402));
  ("black_20"%string, (0.032046936856974447827007, 0.031947919397201728075597, 0.032510844411955473753917))
].

(* colorchecker.rs 337-362 *)
Definition keyed_ACES_CCT_ENCODED : list (string * (Q * Q * Q)) := [
  ("dark_skin"%string, (0.391084848432156628739165, 0.356183556960070202279667, 0.326784636168585829185673));
  ("light_skin"%string, (0.488641947265971543501450, 0.459662940425805466304610, 0.434653866073645978040929));
  ("blue_sky"%string, (0.398629258022055787957783, 0.419055642787930615611458, 0.460042643307164711430346));
  ("foliage"%string, (0.378326145528523005712174, 0.396238684478454228354849, 0.327987877260245808130890));
  ("blue_flower"%string, (0.434326937598519757788296, 0.430384469605087582877445, 0.480025484884667397178504));
  ("bluish_green"%string, (0.447312644925086544400727, 0.496044586445950064224064, 0.481564371306352434487508));
  ("orange"%string, (0.499123119381458424381748, 0.434900310593953398630163, 0.322589215222595537824191));
  ("purplish_blue"%string, (0.360129298106863671158351, 0.370582446974940582506974, 0.469567264402733108852317));
  ("moderate_red"%string, (0.472422156674851656532610, 0.380487688090550557618030, 0.383890642818371596867166));
  ("purple"%string, (0.352024850236106745526854, 0.306749906735135580149176, 0.385923479790769297093078));
  ("yellow_green"%string, (0.477869183411314735199227, 0.496322933632736384979012, 0.368087306488701082596293));
  ("orange_yellow"%string, (0.512766974272473641249803, 0.475093235943969682821830, 0.338764155645622011547857));
  ("blue"%string, (0.298431584266894034396245, 0.308522510354626633422015, 0.443942166448692721036906));
  ("green"%string, (0.396326852819774255731744, 0.450696417288156070402039, 0.356391347304850891752892));
  ("red"%string, (0.448780646841581254413711, 0.322853679066261278762795, 0.303479317456179786827164));
  ("yellow"%string, (0.527967825279575642127838, 0.511098942179222248682890, 0.352598507770407132433377));
  ("magenta"%string, (0.469003520804454177017817, 0.380513673150600861827542, 0.451847202786560098175528));
  ("cyan"%string, (0.351752650334378802465807, 0.434176725880943970015124, 0.470732445151789746784488));
  ("white_95"%string, (0.547386599459126266253861, 0.547472838629472491334127, 0.543918995640382374467947));
  ("neutral_80"%string, (0.510669352888965200065741, 0.511394989722150472566398, 0.510602158324929389365820));
  ("neutral_65"%string, (0.470059563107254774205757, 0.470781461419638502796658, 0.470462326939941666292810));
  ("neutral_50"%string, (0.417779132380554862891131, 0.418904447030576776445088, 0.418788076016463228778974));
  ("neutral_35"%string, (0.354907057964579608633215, 0.356382576983903520684294, 0.357130652204681542372100));
  ("black_20"%string, (0.271480038613549246040435, 0.271225216277882763549201, 0.272663518162347184858874))
].

(* colorchecker.rs 363-388 *)
Definition keyed_ACES_CG_LINEAR : list (string * (Q * Q * Q)) := [
  ("dark_skin"%string, (0.136958104436062544362329, 0.089643073115727486821491, 0.062728584827155445258207));
  ("light_skin"%string, (0.447824981857304127430552, 0.314971831410518821048328, 0.232473106477556035187604));
  ("blue_sky"%string, (0.150098826259045081688015, 0.192356550046498847583720, 0.316427548033242189706726));
  ("foliage"%string, (0.117299930985775860414755, 0.145803954290654375069991, 0.063651909722611255126878));
  ("blue_flower"%string, (0.231551971660423655530181, 0.220727135722761091951583, 0.403333878046831906249992));
  ("bluish_green"%string, (0.271103856135971432728127, 0.489948207379747091572142, 0.410942311229957446538918));
  ("orange"%string, (0.508611875064928109502205, 0.233169895804646809533978, 0.059612680274470669639086));
  ("purplish_blue"%string, (0.094043060653694221517895, 0.106771941023048849706001, 0.355228311242934413627381));
  ("moderate_red"%string, (0.367759925709379043023972, 0.120419780285278554821105, 0.125500416933984448863981));
  ("purple"%string, (0.085228241514191227512498, 0.049181459740360887467059, 0.128637160007779804971051));
  ("yellow_green"%string, (0.392909265156374920557880, 0.491607147792077481263107, 0.103585186757195524265285));
  ("orange_yellow"%string, (0.600267468885434807290835, 0.379884694876196471469143, 0.072551437360750231642115));
  ("blue"%string, (0.044455981533757613077817, 0.050251636192610173170525, 0.260231363972776741366744));
  ("green"%string, (0.145960151783498526256722, 0.282476201416323513537776, 0.089869563477841432619364));
  ("red"%string, (0.275980250109460201191069, 0.059804442076006103512498, 0.047266362133347110396908));
  ("yellow"%string, (0.721962745629650237688679, 0.588230488320747424424439, 0.085824053751429069114565));
  ("magenta"%string, (0.352804699764549756224596, 0.120457786064671945602811, 0.286451538769856239863287));
  ("cyan"%string, (0.084946977963370834396883, 0.231129968399615637331124, 0.360290480546477331902366));
  ("white_95"%string, (0.913966519556086209874479, 0.914924202723351731592061, 0.876278157761282150417514));
  ("neutral_80"%string, (0.585169735947568048217704, 0.590349090781268626138001, 0.584692428315315426701204));
  ("neutral_65"%string, (0.357358385170980008549435, 0.360505007494525742117730, 0.359110556360598354164182));
  ("neutral_50"%string, (0.189397658387073564156822, 0.192003685925913519794150, 0.191732537485383575104336));
  ("neutral_35"%string, (0.088264166141273359134090, 0.089859992318327447380355, 0.090680051875290587637402));
  ("black_20"%string, (0.032046936856974447827007, 0.031947919397201728075597, 0.032510844411955473753917))
].

(* colorchecker.rs 389-414 *)
Definition keyed_ACES_CG_ENCODED : list (string * (Q * Q * Q)) := [
  ("dark_skin"%string, (0.136958104436062544362329, 0.089643073115727486821491, 0.062728584827155445258207));
  ("light_skin"%string, (0.447824981857304127430552, 0.314971831410518821048328, 0.232473106477556035187604));
  ("blue_sky"%string, (0.150098826259045081688015, 0.192356550046498847583720, 0.316427548033242189706726));
  ("foliage"%string, (0.117299930985775860414755, 0.145803954290654375069991, 0.063651909722611255126878));
  ("blue_flower"%string, (0.231551971660423655530181, 0.220727135722761091951583, 0.403333878046831906249992));
  ("bluish_green"%string, (0.271103856135971432728127, 0.489948207379747091572142, 0.410942311229957446538918));
  ("orange"%string, (0.508611875064928109502205, 0.233169895804646809533978, 0.059612680274470669639086));
  ("purplish_blue"%string, (0.094043060653694221517895, 0.106771941023048849706001, 0.355228311242934413627381));
  ("moderate_red"%string, (0.367759925709379043023972, 0.120419780285278554821105, 0.125500416933984448863981));
  ("purple"%string, (0.085228241514191227512498, 0.049181459740360887467059, 0.128637160007779804971051));
  ("yellow_green"%string, (0.392909265156374920557880, 0.491607147792077481263107, 0.103585186757195524265285));
  ("orange_yellow"%string, (0.600267468885434807290835, 0.379884694876196471469143, 0.072551437360750231642115));
  ("blue"%string, (0.044455981533757613077817, 0.050251636192610173170525, 0.260231363972776741366744));
  ("green"%string, (0.145960151783498526256722, 0.282476201416323513537776, 0.089869563477841432619364));
  ("red"%string, (0.275980250109460201191069, 0.059804442076006103512498, 0.047266362133347110396908));
  ("yellow"%string, (0.721962745629650237688679, 0.588230488320747424424439, 0.085824053751429069114565));
  ("magenta"%string, (0.352804699764549756224596, 0.120457786064671945602811, 0.286451538769856239863287));
  ("cyan"%string, (0.084946977963370834396883, 0.231129968399615637331124, 0.360290480546477331902366));
  ("white_95"%string, (0.913966519556086209874479, 0.914924202723351731592061, 0.876278157761282150417514));
  ("neutral_80"%string, (0.585169735947568048217704, 0.590349090781268626138001, 0.584692428315315426701204));
  ("neutral_65"%string, (0.357358385170980008549435, 0.360505007494525742117730, 0.359110556360598354164182));
  ("neutral_50"%string, (0.189397658387073564156822, 0.192003685925913519794150, 0.191732537485383575104336));
  ("neutral_35"%string, (0.088264166141273359134090, 0.089859992318327447380355, 0.090680051875290587637402));
  ("black_20"%string, (0.032046936856974447827007, 0.031947919397201728075597, 0.032510844411955473753917))
].

(* colorchecker.rs 415-440 *)
Definition keyed_ACES_LINEAR : list (string * (Q * Q * Q)) := [
  ("dark_skin"%string, (0.118137965745441650411429, 0.089191271995620102774893, 0.062426737695059311694656));
  ("light_skin"%string, (0.393845863985204713841881, 0.313041470836910362685046, 0.231615172023251714161773));
  ("blue_sky"%string, (0.183299719420037893202746, 0.202316671964609506861876, 0.316847249155878751825099));
  ("foliage"%string, (0.112518588899497368194247, 0.136678789446372794813556, 0.063686136314056271401363));
  ("blue_flower"%string, (0.258178887765929565567546, 0.238657240151752714218958, 0.403548094145784852493364));
  ("bluish_green"%string, (0.324805790708195651905754, 0.472597395803177611206536, 0.412033057457122597888599));
  ("orange"%string, (0.396285979506116492476764, 0.228927528739749946984361, 0.057830167747970964708948));
  ("purplish_blue"%string, (0.138633925033693122808032, 0.129937866319510986201635, 0.355671501121427868774560));
  ("moderate_red"%string, (0.293265597966656521577988, 0.131984649258096109480931, 0.124141268708843552359689));
  ("purple"%string, (0.087270606011186996342488, 0.058386905743434171223161, 0.128557206689700248558594));
  ("yellow_green"%string, (0.359382689243750830243584, 0.450116605740338127095157, 0.103548285875178752712955));
  ("orange_yellow"%string, (0.482787976337926860725958, 0.360395771790454344518650, 0.070872421541996563632004));
  ("blue"%string, (0.080630216247321528921788, 0.070052292504573843157090, 0.260578500830628279061330));
  ("green"%string, (0.155973539594779331274310, 0.257960480745810072367163, 0.090334895698233289018653));
  ("red"%string, (0.208089788900772482138635, 0.068290126085594524130151, 0.046052984457560758313477));
  ("yellow"%string, (0.598906015150443060690577, 0.546223910205388074601274, 0.084331117607613997888549));
  ("magenta"%string, (0.309245208564270901430149, 0.146723764602708584003921, 0.285416719230579263300029));
  ("cyan"%string, (0.150632092062669559195953, 0.236921026642433224518314, 0.361292098180090281989152));
  ("white_95"%string, (0.907925288711187827850324, 0.911189280172333360141579, 0.876225454758221888873493));
  ("neutral_80"%string, (0.585820144905132345058973, 0.589576678454411862162488, 0.584712560025156480314479));
  ("neutral_65"%string, (0.358088174562741390349885, 0.360230837985224372488346, 0.359125851611708568622561));
  ("neutral_50"%string, (0.190146885400545417876828, 0.191861046079931651942019, 0.191746531182468954446207));
  ("neutral_35"%string, (0.088884553821087355918174, 0.089866851812723164139030, 0.090690100863904721251174));
  ("black_20"%string, (0.032109027307168060139109, 0.032006133498748361165820, 0.032511142019034870720429))
].

(* colorchecker.rs 441-466 *)
Definition keyed_ACES_ENCODED : list (string * (Q * Q * Q)) := [
  ("dark_skin"%string, (0.118137965745441650411429, 0.089191271995620102774893, 0.062426737695059311694656));
  ("light_skin"%string, (0.393845863985204713841881, 0.313041470836910362685046, 0.231615172023251714161773));
  ("blue_sky"%string, (0.183299719420037893202746, 0.202316671964609506861876, 0.316847249155878751825099));
  ("foliage"%string, (0.112518588899497368194247, 0.136678789446372794813556, 0.063686136314056271401363));
  ("blue_flower"%string, (0.258178887765929565567546, 0.238657240151752714218958, 0.403548094145784852493364));
  ("bluish_green"%string, (0.324805790708195651905754, 0.472597395803177611206536, 0.412033057457122597888599));
  ("orange"%string, (0.396285979506116492476764, 0.228927528739749946984361, 0.057830167747970964708948));
  ("purplish_blue"%string, (0.138633925033693122808032, 0.129937866319510986201635, 0.355671501121427868774560));
  ("moderate_red"%string, (0.293265597966656521577988, 0.131984649258096109480931, 0.124141268708843552359689));
  ("purple"%string, (0.087270606011186996342488, 0.058386905743434171223161, 0.128557206689700248558594));
  ("yellow_green"%string, (0.359382689243750830243584, 0.450116605740338127095157, 0.103548285875178752712955));
  ("orange_yellow"%string, (0.482787976337926860725958, 0.360395771790454344518650, 0.070872421541996563632004));
  ("blue"%string, (0.080630216247321528921788, 0.070052292504573843157090, 0.260578500830628279061330));
  ("green"%string, (0.155973539594779331274310, 0.257960480745810072367163, 0.090334895698233289018653));
  ("red"%string, (0.208089788900772482138635, 0.068290126085594524130151, 0.046052984457560758313477));
  ("yellow"%string, (0.598906015150443060690577, 0.546223910205388074601274, 0.084331117607613997888549));
  ("magenta"%string, (0.309245208564270901430149, 0.146723764602708584003921, 0.285416719230579263300029));
  ("cyan"%string, (0.150632092062669559195953, 0.236921026642433224518314, 0.361292098180090281989152));
  ("white_95"%string, (0.907925288711187827850324, 0.911189280172333360141579, 0.876225454758221888873493));
  ("neutral_80"%string, (0.585820144905132345058973, 0.589576678454411862162488, 0.584712560025156480314479));
  ("neutral_65"%string, (0.358088174562741390349885, 0.360230837985224372488346, 0.359125851611708568622561));
  ("neutral_50"%string, (0.190146885400545417876828, 0.191861046079931651942019, 0.191746531182468954446207));
  ("neutral_35"%string, (0.088884553821087355918174, 0.089866851812723164139030, 0.090690100863904721251174));
  ("black_20"%string, (0.032109027307168060139109, 0.032006133498748361165820, 0.032511142019034870720429))
].

(* colorchecker.rs 467-492 *)
Definition keyed_ACES_PROXY_LINEAR : list (string * (Q * Q * Q)) := [
  ("dark_skin"%string, (0.136958104436062544362329, 0.089643073115727486821491, 0.062728584827155445258207));
  ("light_skin"%string, (0.447824981857304127430552, 0.314971831410518821048328, 0.232473106477556035187604));
  ("blue_sky"%string, (0.150098826259045081688015, 0.192356550046498847583720, 0.316427548033242189706726));
  ("foliage"%string, (0.117299930985775860414755, 0.145803954290654375069991, 0.063651909722611255126878));
  ("blue_flower"%string, (0.231551971660423655530181, 0.220727135722761091951583, 0.403333878046831906249992));
  ("bluish_green"%string, (0.271103856135971432728127, 0.489948207379747091572142, 0.410942311229957446538918));
  ("orange"%string, (0.508611875064928109502205, 0.233169895804646809533978, 0.059612680274470669639086));
  ("purplish_blue"%string, (0.094043060653694221517895, 0.106771941023048849706001, 0.355228311242934413627381));
  ("moderate_red"%string, (0.367759925709379043023972, 0.120419780285278554821105, 0.125500416933984448863981));
  ("purple"%string, (0.085228241514191227512498, 0.049181459740360887467059, 0.128637160007779804971051));
  ("yellow_green"%string, (0.392909265156374920557880, 0.491607147792077481263107, 0.103585186757195524265285));
  ("orange_yellow"%string, (0.600267468885434807290835, 0.379884694876196471469143, 0.072551437360750231642115));
  ("blue"%string, (0.044455981533757613077817, 0.050251636192610173170525, 0.260231363972776741366744));
  ("green"%string, (0.145960151783498526256722, 0.282476201416323513537776, 0.089869563477841432619364));
  ("red"%string, (0.275980250109460201191069, 0.059804442076006103512498, 0.047266362133347110396908));
  ("yellow"%string, (0.721962745629650237688679, 0.588230488320747424424439, 0.085824053751429069114565));
  ("magenta"%string, (0.352804699764549756224596, 0.120457786064671945602811, 0.286451538769856239863287));
  ("cyan"%string, (0.084946977963370834396883, 0.231129968399615637331124, 0.360290480546477331902366));
  ("white_95"%string, (0.913966519556086209874479, 0.914924202723351731592061, 0.876278157761282150417514));
  ("neutral_80"%string, (0.585169735947568048217704, 0.590349090781268626138001, 0.584692428315315426701204));
  ("neutral_65"%string, (0.357358385170980008549435, 0.360505007494525742117730, 0.359110556360598354164182));
  ("neutral_50"%string, (0.189397658387073564156822, 0.192003685925913519794150, 0.191732537485383575104336));
  ("neutral_35"%string, (0.088264166141273359134090, 0.089859992318327447380355, 0.090680051875290587637402));
  ("black_20"%string, (0.032046936856974447827007, 0.031947919397201728075597, 0.032510844411955473753917))
].

(* colorchecker.rs 493-518 *)
Definition keyed_ACES_PROXY_ENCODED : list (string * (Q * Q * Q)) := [
  ("dark_skin"%string, (0.397849462365591377555063, 0.367546432062561101439258, 0.342130987292277588540657));
  ("light_skin"%string, (0.480938416422287406959413, 0.456500488758553257806483, 0.434995112414467255401718));
  ("blue_sky"%string, (0.403714565004887560029090, 0.421309872922776162962322, 0.456500488758553257806483));
  ("foliage"%string, (0.386119257086999012607009, 0.401759530791788832537748, 0.343108504398826952286328));
  ("blue_flower"%string, (0.434017595307917891656047, 0.431085043988269800419033, 0.474095796676441860739715));
  ("bluish_green"%string, (0.445747800586510256604100, 0.487781036168132953179111, 0.475073313782991224485386));
  ("orange"%string, (0.489736070381231680670453, 0.434995112414467255401718, 0.339198435972629497303643));
  ("purplish_blue"%string, (0.370478983382209192676271, 0.380254154447702830132982, 0.464320625610948167771852));
  ("moderate_red"%string, (0.467253176930596259008865, 0.388074291300097740098352, 0.391006842619745831335365));
  ("purple"%string, (0.363636363636363646456573, 0.325513196480938404864247, 0.392961876832844558826707));
  ("yellow_green"%string, (0.472140762463343133248372, 0.487781036168132953179111, 0.377321603128054738895969));
  ("orange_yellow"%string, (0.501466275659824045618507, 0.469208211143695042011359, 0.352883675464320645254190));
  ("blue"%string, (0.317693059628543494898878, 0.326490713587487768609918, 0.442815249266862165367087));
  ("green"%string, (0.401759530791788832537748, 0.448680351906158347841114, 0.367546432062561101439258));
  ("red"%string, (0.446725317693059620349771, 0.339198435972629497303643, 0.322580645161290313627234));
  ("yellow"%string, (0.514173998044965774312232, 0.500488758553274681872836, 0.364613880742913010202244));
  ("magenta"%string, (0.464320625610948167771852, 0.388074291300097740098352, 0.449657869012707711586785));
  ("cyan"%string, (0.363636363636363646456573, 0.434017595307917891656047, 0.465298142717497531517523));
  ("white_95"%string, (0.531769305962854321734312, 0.531769305962854321734312, 0.527859237536656866751628));
  ("neutral_80"%string, (0.499511241446725318127164, 0.500488758553274681872836, 0.499511241446725318127164));
  ("neutral_65"%string, (0.465298142717497531517523, 0.465298142717497531517523, 0.465298142717497531517523));
  ("neutral_50"%string, (0.420332355816226799216651, 0.421309872922776162962322, 0.421309872922776162962322));
  ("neutral_35"%string, (0.366568914956011737693586, 0.367546432062561101439258, 0.368523949169110465184929));
  ("black_20"%string, (0.295210166177908128748442, 0.295210166177908128748442, 0.296187683284457492494113))
].

(* colorchecker.rs 519-544 *)
Definition keyed_DCI_P3_P_LINEAR : list (string * (Q * Q * Q)) := [
  ("dark_skin"%string, (0.141698868167383085214794, 0.087549999163414146674533, 0.063023701356006836538093));
  ("light_skin"%string, (0.460816781187901480798530, 0.308099811244631871520738, 0.233338099415231092770284));
  ("blue_sky"%string, (0.150478909076742745076771, 0.208594570966872672190817, 0.315639016438188979574164));
  ("foliage"%string, (0.109906721769337439864600, 0.132935684013764071620400, 0.063990332497591340121801));
  ("blue_flower"%string, (0.241343498048246452025722, 0.247362165366046687919876, 0.402410790316638899977164));
  ("bluish_green"%string, (0.239790316256341951017816, 0.470399801744528667235556, 0.410645216350687070061554));
  ("orange"%string, (0.535431565527400121773383, 0.218561136010762990800060, 0.061419247914587402070730));
  ("purplish_blue"%string, (0.103893975058557880286614, 0.141982979038333595456223, 0.353883055884226804810311));
  ("moderate_red"%string, (0.399266427402913737232382, 0.130417382528719122403160, 0.126278131244633357033180));
  ("purple"%string, (0.093450738970815599993003, 0.061945057067703486464172, 0.128337417080285703940845));
  ("yellow_green"%string, (0.362532653232156998335256, 0.432173911669668120438814, 0.105300488441743750334112));
  ("orange_yellow"%string, (0.613955274134845074840428, 0.343997431289660093867155, 0.074880982036335710927411));
  ("blue"%string, (0.053408719992977873869400, 0.080195721016517229617904, 0.259110575532496834050278));
  ("green"%string, (0.119815754271951235843119, 0.249695153434732475261626, 0.090436367765394723439165));
  ("red"%string, (0.302733847167942382583306, 0.066103585550805893378268, 0.048035186909346862249581));
  ("yellow"%string, (0.715697070482382846634550, 0.521076345432452736616824, 0.088895514783686332971335));
  ("magenta"%string, (0.389837813472398486691617, 0.153006968334725740321645, 0.286336046938851618293143));
  ("cyan"%string, (0.072422153586829685067983, 0.244204965701642767728075, 0.359137263871317280461426));
  ("white_95"%string, (0.912062852226696030299991, 0.909337244705790470611362, 0.876477851595124812789095));
  ("neutral_80"%string, (0.584253971793246340560302, 0.589342504039204406751651, 0.584705269766345958615261));
  ("neutral_65"%string, (0.356896225454624849149354, 0.360186806316324992227607, 0.359107641065903093746670));
  ("neutral_50"%string, (0.189055661473558178631293, 0.191867090726034250636189, 0.191725485348323454459774));
  ("neutral_35"%string, (0.088100225774412246892986, 0.089917989191145533678373, 0.090670558534712814013901));
  ("black_20"%string, (0.032085421435958813574096, 0.032032487482323783456462, 0.032508212286049636974283))
].

(* colorchecker.rs 545-570 *)
Definition keyed_DCI_P3_P_ENCODED : list (string * (Q * Q * Q)) := [
  ("dark_skin"%string, (0.471631120638268952482974, 0.391900160078104742300553, 0.345358964023872394566439));
  ("light_skin"%string, (0.742314257971917745848600, 0.635832698883340485807025, 0.571370166035966797757339));
  ("blue_sky"%string, (0.482663518686571313409672, 0.547259692284506327197846, 0.641772393165662147218598));
  ("foliage"%string, (0.427723561803283025550826, 0.460192002682745349151361, 0.347386724723123707647687));
  ("blue_flower"%string, (0.578831496886165974835592, 0.584341382665722552935961, 0.704611704137635963540731));
  ("bluish_green"%string, (0.577395916190915237109493, 0.748213981259934213241536, 0.710122661846095182269778));
  ("orange"%string, (0.786421491292963681374317, 0.557172396029741667788926, 0.341950518808899872613694));
  ("purplish_blue"%string, (0.418567519329482828904787, 0.471994602590775191863770, 0.670632392267116572703856));
  ("moderate_red"%string, (0.702489012752186559040979, 0.456819269792691051712552, 0.451187417069505602995605));
  ("purple"%string, (0.401855840435893396644929, 0.343073502163941723708263, 0.454003247505416263063438));
  ("yellow_green"%string, (0.676890044580344407698647, 0.724216928053093011996566, 0.420737950230649804250760));
  ("orange_yellow"%string, (0.828922882700758978380406, 0.663364153792799005060488, 0.369033654157319090938216));
  ("blue"%string, (0.324055998729935013091819, 0.378895712486278957165098, 0.594863553564677349783096));
  ("green"%string, (0.442162878915848434058233, 0.586454953313113036550419, 0.396819955740319252335269));
  ("red"%string, (0.631550479519419782903356, 0.351755090469642150985408, 0.311105360440812439559721));
  ("yellow"%string, (0.879278857582616923949104, 0.778244225852896764905609, 0.394205808272484081733467));
  ("magenta"%string, (0.696061603876393708567605, 0.485766306887852994389476, 0.618167492929777795396262));
  ("cyan"%string, (0.364325033494789840560202, 0.581461491508560746055423, 0.674444681779869381621495));
  ("white_95"%string, (0.965216884923650431105102, 0.964106458185354453505056, 0.950555079508335620808168));
  ("neutral_80"%string, (0.813263746529087727665797, 0.815980742321446905762627, 0.813505301837172956069821));
  ("neutral_65"%string, (0.672822880345278373503959, 0.675202076798385064648755, 0.674423284935630307224130));
  ("neutral_50"%string, (0.526944971306941734034979, 0.529945193876907305607915, 0.529794728867130970684229));
  ("neutral_35"%string, (0.392845634403033105996883, 0.395943577189060924581554, 0.397214868459431269531734));
  ("black_20"%string, (0.266380837506393575164765, 0.266211724575828201366789, 0.267725444873443130244794))
].

(* colorchecker.rs 571-596 *)
Definition keyed_DCI_P3_LINEAR : list (string * (Q * Q * Q)) := [
  ("dark_skin"%string, (0.161428201361069834085527, 0.086874768666696647323455, 0.061131565968838605384938));
  ("light_skin"%string, (0.517014989518822520864205, 0.307276232445176489260774, 0.227609161943648358183978));
  ("blue_sky"%string, (0.121286146851254661438446, 0.193711762260066810981129, 0.323338047552597096512272));
  ("foliage"%string, (0.109400523289900075685210, 0.148570246296172131517110, 0.059221221445429510221725));
  ("blue_flower"%string, (0.224020275298980831024664, 0.217985624691665325070034, 0.413317236428881407128699));
  ("bluish_green"%string, (0.172077753710151992727617, 0.505024997015967036517736, 0.407172764015884758315167));
  ("orange"%string, (0.652237115620557084127995, 0.217242831388609114462440, 0.049390520243757736473800));
  ("purplish_blue"%string, (0.070681595169633071318316, 0.104822716952273409241059, 0.368882248744346330493471));
  ("moderate_red"%string, (0.485537890501885005534177, 0.104320347242497141193596, 0.125143962554192106351181));
  ("purple"%string, (0.096917674393336594729220, 0.045956051564526548269818, 0.132900660715596391492355));
  ("yellow_green"%string, (0.372760406200442040436371, 0.502342313409118945699561, 0.082565833268425092850151));
  ("orange_yellow"%string, (0.726901212098610582934555, 0.369022865229260033093084, 0.055136553288661030447493));
  ("blue"%string, (0.027082220947711344027908, 0.048282435108141411039817, 0.271758075988784819632116));
  ("green"%string, (0.094156426208207133488060, 0.293481832521945706915290, 0.079660660666405258556466));
  ("red"%string, (0.380099430194843490582457, 0.045923125060195801871998, 0.046023995030122485938584));
  ("yellow"%string, (0.820780453226664152843739, 0.585167516124971642810237, 0.057937023367669565621085));
  ("magenta"%string, (0.452229040368868573374073, 0.103533704167815820973431, 0.294955403654097114696242));
  ("cyan"%string, (0.006144858033733435753732, 0.239169020213060357082924, 0.367746811151287045227321));
  ("white_95"%string, (0.916197255110247077425356, 0.915417928669595037938223, 0.874161903248938498833809));
  ("neutral_80"%string, (0.583089504965461191687837, 0.590748203301063257164571, 0.584395606914952736588020));
  ("neutral_65"%string, (0.355952531481381839739697, 0.360724673699477693666893, 0.359042185886434273012213));
  ("neutral_50"%string, (0.188171862102078590872622, 0.192175743338107996027730, 0.191724362584806795606340));
  ("neutral_35"%string, (0.087444947041361575923446, 0.089954340300412063968771, 0.090729107388934998601471));
  ("black_20"%string, (0.032055072486571266343613, 0.031935210137468972302344, 0.032541451750316266466889))
].

(* colorchecker.rs 597-622 *)
Definition keyed_DCI_P3_ENCODED : list (string * (Q * Q * Q)) := [
  ("dark_skin"%string, (0.495880117379474072425438, 0.390734876349898008207617, 0.341333604180008742812191));
  ("light_skin"%string, (0.775905620635894521797127, 0.635178453288273936472308, 0.565933346338020171195637));
  ("blue_sky"%string, (0.444242078039073617912180, 0.531899066005904974652196, 0.647748574603840832075718));
  ("foliage"%string, (0.426964804370216777229530, 0.480299624858860962905993, 0.337190948435730886156847));
  ("blue_flower"%string, (0.562484436327863601690069, 0.556607654922397498964415, 0.711896302492679655671282));
  ("bluish_green"%string, (0.508215577192005385498419, 0.768934889973331148205204, 0.707807063549614423614287));
  ("orange"%string, (0.848432904674958465740531, 0.555877404368063876560768, 0.314452629741611255909106));
  ("purplish_blue"%string, (0.360932106561589360893549, 0.420002699358165865195502, 0.681425478756686353598582));
  ("moderate_red"%string, (0.757384804124431765259828, 0.419227366165174697432150, 0.449624494374150807107782));
  ("purple"%string, (0.407525692422479490772957, 0.305855592708108914301590, 0.460145367208704858530410));
  ("yellow_green"%string, (0.684172003210275492257608, 0.767361327138231241740129, 0.383164051727551080439582));
  ("orange_yellow"%string, (0.884547796606649838757619, 0.681525373484810681468105, 0.328048693933394086563737));
  ("blue"%string, (0.249566483896737301151347, 0.311720284288229954050564, 0.605867796084387455479714));
  ("green"%string, (0.403020288938643667098205, 0.624055976882369689562324, 0.377921414563734348046609));
  ("red"%string, (0.689321790059775341141801, 0.305771289953643887749024, 0.306029433068807532603017));
  ("yellow"%string, (0.926851989790132613222795, 0.813752598308968622120574, 0.334359690747933757659638));
  ("magenta"%string, (0.736962783757402539741577, 0.418008669672832178232369, 0.625259267201761281818051));
  ("cyan"%string, (0.141067716397365539027220, 0.576820060205347817650079, 0.680617997710531996702343));
  ("white_95"%string, (0.966897370926785515443669, 0.966580960228243468712606, 0.949588260202515410668411));
  ("neutral_80"%string, (0.812639939806089950380397, 0.816728761570863159846567, 0.813339568480946351058947));
  ("neutral_65"%string, (0.672138069975136254186054, 0.675589698778722991256984, 0.674376002162647147919472));
  ("neutral_50"%string, (0.525996155886863103745554, 0.530272920892169485895806, 0.529793535583965247148797));
  ("neutral_35"%string, (0.391719229824002812545558, 0.396005134128991909125972, 0.397313500493816140757275));
  ("black_20"%string, (0.266283899967721893187189, 0.265900494786960428506006, 0.267830699367499924790081))
].

(* colorchecker.rs 623-648 *)
Definition keyed_PRO_PHOTO_RGB_LINEAR : list (string * (Q * Q * Q)) := [
  ("dark_skin"%string, (0.127096798970946139872851, 0.091788387159786377633708, 0.062268851972542872685867));
  ("light_skin"%string, (0.419370899986078793375555, 0.320914806839096566903891, 0.231161224588307484539840));
  ("blue_sky"%string, (0.170167153993000974665506, 0.191557959180960579725905, 0.317467104202680650004709));
  ("foliage"%string, (0.112251080108164952298111, 0.143393681930529093282445, 0.063438677434830892387652));
  ("blue_flower"%string, (0.250489441462144135641665, 0.223339331084130870985760, 0.404329471543765583962937));
  ("bluish_green"%string, (0.294068504715922218739621, 0.477692974819976357014895, 0.412189376329156531575393));
  ("orange"%string, (0.449261545072916435028532, 0.245480115659083925061523, 0.056763679861522191305578));
  ("purplish_blue"%string, (0.123756161808093775866801, 0.108910745675814824018346, 0.356724352263784516559042));
  ("moderate_red"%string, (0.332486813760688337815452, 0.133293229747771163617998, 0.123809319906639778152702));
  ("purple"%string, (0.088916106024498134385858, 0.051944345456467949651014, 0.128835502957699160608840));
  ("yellow_green"%string, (0.363816912460641517235160, 0.482093545390112176995956, 0.102269424149138282720273));
  ("orange_yellow"%string, (0.533932645009564721405582, 0.387825701608518091934030, 0.069391561181268171520919));
  ("blue"%string, (0.068840980727912393088985, 0.052318058670927487796565, 0.261449602370293521236277));
  ("green"%string, (0.144217120544320176467323, 0.273215382072138690539020, 0.089847057059331048023409));
  ("red"%string, (0.243240288552765776541875, 0.070866172936829258111047, 0.045681804491086275277212));
  ("yellow"%string, (0.646364681128065110549130, 0.589470685943882743984545, 0.082254398745096643508212));
  ("magenta"%string, (0.337741590486071774357413, 0.134369396519089023822602, 0.285758212176615122857015));
  ("cyan"%string, (0.120661801751123121118070, 0.225000177689550995285828, 0.362105128591646563407380));
  ("white_95"%string, (0.909937626320546755209762, 0.914401262345669652020774, 0.876321796199308278296769));
  ("neutral_80"%string, (0.585392462664681256789834, 0.589992724561563042229295, 0.584859719045652370894572));
  ("neutral_65"%string, (0.357722924959498422836646, 0.360311466894053356035954, 0.359224012596564390431553));
  ("neutral_50"%string, (0.189779533447704873427853, 0.191857711655400053896159, 0.191802166018269576452937));
  ("neutral_35"%string, (0.088603573499733440099746, 0.089782858540842030992124, 0.090720550497240051712744));
  ("black_20"%string, (0.032101397988576224618029, 0.031958099822486041308167, 0.032522025436830366562635))
].

(* colorchecker.rs 649-674 *)
Definition keyed_PRO_PHOTO_RGB_ENCODED : list (string * (Q * Q * Q)) := [
  ("dark_skin"%string, (0.317904742695658215634325, 0.265320597103264110838694, 0.213870299273195230149724));
  ("light_skin"%string, (0.617067089148111036500666, 0.531829087295067837182216, 0.443220089337490186220947));
  ("blue_sky"%string, (0.373859776416108957608486, 0.399280306033245546704080, 0.528647230591663741527952));
  ("foliage"%string, (0.296707190607022330830489, 0.339942578777656267963181, 0.216093238393873454672445));
  ("blue_flower"%string, (0.463440650039812718219423, 0.434824499906364569934425, 0.604671731375470256075744));
  ("bluish_green"%string, (0.506633167905765402494467, 0.663360126985149678446874, 0.611174021183104709820100));
  ("orange"%string, (0.641126939331510881103782, 0.458268680627752333922587, 0.203150066017670188900368));
  ("purplish_blue"%string, (0.313235129154934621720230, 0.291769099692968547632432, 0.564021912301393535393856));
  ("moderate_red"%string, (0.542399306543700276961317, 0.326424143237423747265780, 0.313309870191218420298895));
  ("purple"%string, (0.260675515877696495348204, 0.193379376009492814914026, 0.320313549162950239601599));
  ("yellow_green"%string, (0.570224727853053225956614, 0.666748185874514898152654, 0.281746664732124840746508));
  ("orange_yellow"%string, (0.705673156010866775567081, 0.590833035845899190441344, 0.227133648378528535394238));
  ("blue"%string, (0.226130671062885313382651, 0.194151070374871254076155, 0.474598825037506943935739));
  ("green"%string, (0.341025710408039917087564, 0.486348189665002539339156, 0.262188267330343116601199));
  ("red"%string, (0.455940967679892728003921, 0.229802626837086076960759, 0.180058205310742236449073));
  ("yellow"%string, (0.784711084888113918900387, 0.745553832583299103120567, 0.249637962317129535882998));
  ("magenta"%string, (0.547145113037657115917511, 0.327885661964955055225346, 0.498628464366405343977107));
  ("cyan"%string, (0.308859527945641143542588, 0.436617953291414284677785, 0.568732639754928603892381));
  ("white_95"%string, (0.948917989036670905811377, 0.951501205264862703891993, 0.929279704161033559550731));
  ("neutral_80"%string, (0.742683814026355526571876, 0.745920575283790521226024, 0.742308244415714080233215));
  ("neutral_65"%string, (0.564898510394295505498974, 0.567165814941791301961871, 0.566214198200563401108809));
  ("neutral_50"%string, (0.397216637166528663271947, 0.399627296088006067620313, 0.399563015287583644941094));
  ("neutral_35"%string, (0.260166088608804968451693, 0.262084172089198652599862, 0.263601330671824896079158));
  ("black_20"%string, (0.148010007657953190918221, 0.147642584277017152594169, 0.149084327890939449812180))
].

(* colorchecker.rs 675-700 *)
Definition keyed_BETA_RGB_LINEAR : list (string * (Q * Q * Q)) := [
  ("dark_skin"%string, (0.139005981367126441039517, 0.087054161316802824988059, 0.060964920412699359630881));
  ("light_skin"%string, (0.453623464783987073722926, 0.307621936922990668605848, 0.227127429898741989289235));
  ("blue_sky"%string, (0.147571371647284677042222, 0.195833231595345047537648, 0.323686419399306923860848));
  ("foliage"%string, (0.116753053502457293522099, 0.146218513296132168743924, 0.059125400946402277557734));
  ("blue_flower"%string, (0.230702472279423642653740, 0.222332244587982119643499, 0.413655642708385506978175));
  ("bluish_green"%string, (0.263052745532179332865752, 0.499553743328343180518658, 0.407537632861784571147723));
  ("orange"%string, (0.520651317009732217400142, 0.217902228468935310612409, 0.048386739111916959865667));
  ("purplish_blue"%string, (0.091807881543754299435989, 0.110276413487698635162992, 0.369408238100051244945377));
  ("moderate_red"%string, (0.377447375626766778999865, 0.108583184749970085292148, 0.124563603421670748838679));
  ("purple"%string, (0.086090451132804585165914, 0.048372746208063852058068, 0.132973095374372018984133));
  ("yellow_green"%string, (0.391738760489712622980818, 0.491837023722606070386121, 0.082027467138540352542542));
  ("orange_yellow"%string, (0.611076607382653236300030, 0.365707793783585810576398, 0.053997373433372068685099));
  ("blue"%string, (0.042762004191502986372164, 0.052974750842428294794750, 0.272190763031198212917872));
  ("green"%string, (0.141938560617608844349746, 0.286799759438041979020539, 0.079602379409988016645272));
  ("red"%string, (0.284565651924241103110091, 0.049261585099116295127786, 0.045482892448275358265875));
  ("yellow"%string, (0.730727725966951902059066, 0.575950166601544077948915, 0.056615594496434835936061));
  ("magenta"%string, (0.360779216124030854828675, 0.111215474913225531583549, 0.294731815501752425490167));
  ("cyan"%string, (0.078298691296437933351271, 0.239664146960642032713196, 0.368353443691200488352422));
  ("white_95"%string, (0.914198713047157163202883, 0.914520383442293582909599, 0.874087101580455438920580));
  ("neutral_80"%string, (0.585005632612728865282747, 0.590532340846484204988087, 0.584396688520499196783931));
  ("neutral_65"%string, (0.357244428193232432811044, 0.360640110403377622816379, 0.359046916513823088923374));
  ("neutral_50"%string, (0.189297108869336566661090, 0.192125865484463892451927, 0.191730043283658529995606));
  ("neutral_35"%string, (0.088195708383044010836294, 0.089946289345284965999205, 0.090734553012528529336578));
  ("black_20"%string, (0.032046898691033748329815, 0.031949710198284159146098, 0.032542338236016148111940))
].

(* colorchecker.rs 701-726 *)
Definition keyed_BETA_RGB_ENCODED : list (string * (Q * Q * Q)) := [
  ("dark_skin"%string, (0.407821171021791217814467, 0.329675104608609159662080, 0.280390723626474214213999));
  ("light_skin"%string, (0.698156048963942343910105, 0.585168031434645463662036, 0.509794641954552041340776));
  ("blue_sky"%string, (0.419057567940745612222742, 0.476573815958554802829639, 0.598865519095088671974736));
  ("foliage"%string, (0.376730707925794383594820, 0.417306952142248666071112, 0.276512965236249408373936));
  ("blue_flower"%string, (0.513426516806499866341085, 0.504873915108460247225253, 0.669491362987118643346207));
  ("bluish_green"%string, (0.544983192445140485205002, 0.729443934048623066068728, 0.664972229071636555808311));
  ("orange"%string, (0.743289014611139942090290, 0.500276209712329889001126, 0.252434287220540898299959));
  ("purplish_blue"%string, (0.337739458567490657969756, 0.367083474101470130790403, 0.635934051446996995160532));
  ("moderate_red"%string, (0.642187731702108743903068, 0.364510683410720903729896, 0.387984311699225148384329));
  ("purple"%string, (0.328011166687066424429986, 0.252401102251729569925232, 0.399678519889002936693601));
  ("yellow_green"%string, (0.653128190745624559454541, 0.724300417182258460258026, 0.320881838333018032383137));
  ("orange_yellow"%string, (0.799412167183149113824925, 0.633030512183896609812450, 0.265341844187171160829308));
  ("blue"%string, (0.238645725486087895150789, 0.263045773732525578481045, 0.553508462375418175405173));
  ("green"%string, (0.411709690734202493622718, 0.566819654782035331486156, 0.316534412294756262173934));
  ("red"%string, (0.564808373120626372454467, 0.254498735137444476173130, 0.245431862671221107108366));
  ("yellow"%string, (0.867103064180983373887557, 0.778187139362227719985299, 0.271114509027713668221082));
  ("magenta"%string, (0.629138324184356667601037, 0.368501055957834999787792, 0.573892386586358105304839));
  ("cyan"%string, (0.314167414417126256154233, 0.522397867397139781253657, 0.635108034022190959255738));
  ("white_95"%string, (0.960044103030090467676416, 0.960197634469043048710546, 0.940662779065762122421290));
  ("neutral_80"%string, (0.783724923279045415647204, 0.787081777475579058567234, 0.783354002049836073418021));
  ("neutral_65"%string, (0.626328946580377188269040, 0.629028050314556108624231, 0.627763412796223496670223));
  ("neutral_50"%string, (0.469276797948792179226984, 0.472451463464020560145684, 0.472008780262954230622086));
  ("neutral_35"%string, (0.331633147736149269668715, 0.334609172286371270299554, 0.335938918733328595322973));
  ("black_20"%string, (0.209320528005045969344167, 0.209031741032430717908142, 0.210785311067475722435205))
].

(* colorchecker.rs 727-752 *)
Definition keyed_RED_COLOR_LINEAR : list (string * (Q * Q * Q)) := [
  ("dark_skin"%string, (0.165703556467291540643672, 0.085828654088006356426277, 0.062282154882967954989681));
  ("light_skin"%string, (0.528797122938586938722949, 0.304071594860259697412630, 0.230740009731725703723271));
  ("blue_sky"%string, (0.120679275279015452149167, 0.198506296913176866203443, 0.323751995880150023054966));
  ("foliage"%string, (0.103666932197312322561089, 0.145404556596335388096719, 0.057110540528130630810733));
  ("blue_flower"%string, (0.231058564620558515301241, 0.225030612872530094703549, 0.416300707393746804996226));
  ("bluish_green"%string, (0.145770120338617914512724, 0.502010878134880655920824, 0.398918510288675420838445));
  ("orange"%string, (0.676584080090708805954591, 0.210501696334145727007581, 0.055845418451635715773040));
  ("purplish_blue"%string, (0.077275507753031102975427, 0.114412542058463739813590, 0.372048814280848461066853));
  ("moderate_red"%string, (0.512567453111120840958392, 0.104477211430434757666319, 0.133259437275536102296414));
  ("purple"%string, (0.103384006536236056073008, 0.049016495403653645435149, 0.135217737876664190199705));
  ("yellow_green"%string, (0.349582484713875096815627, 0.487384378803268236701740, 0.073764983167292991206310));
  ("orange_yellow"%string, (0.740972765006426281608753, 0.357128104136932300605167, 0.057873388510266077222610));
  ("blue"%string, (0.033193961276687805606045, 0.056386366997888626162450, 0.274595597586580031368442));
  ("green"%string, (0.073144331020629560491386, 0.286070871144533611651894, 0.072446236822646892239419));
  ("red"%string, (0.403178238156921220358697, 0.045405030214537345223391, 0.052872262997254518279711));
  ("yellow"%string, (0.819177192011612320676761, 0.565758709132345938286335, 0.055045266652394550521699));
  ("magenta"%string, (0.482796034840056509374051, 0.109902501557975817991775, 0.304902253878330142811137));
  ("cyan"%string, ((-0.005587133668883748072176), 0.244176425335966673646482, 0.364854975687662008709822));
  ("white_95"%string, (0.914852522115489952270195, 0.913926748736420990759655, 0.873573845378572522157867));
  ("neutral_80"%string, (0.582345312048434093910032, 0.590530736256913102444344, 0.584145683519491587532002));
  ("neutral_65"%string, (0.355565972703067889604256, 0.360671361155692371536219, 0.358919778438410053134078));
  ("neutral_50"%string, (0.187880086485046060573723, 0.192165692821710060167462, 0.191635720207194715225540));
  ("neutral_35"%string, (0.087297933564533136685526, 0.089986238876235774553081, 0.090689036819404184042170));
  ("black_20"%string, (0.032083900278365821978621, 0.031956917443464724626345, 0.032552783477147559376697))
].

(* colorchecker.rs 753-778 *)
Definition keyed_RED_COLOR_ENCODED : list (string * (Q * Q * Q)) := [
  ("dark_skin"%string, (0.447406531690908659815165, 0.370745946993865205243424, 0.335224716153132318297025));
  ("light_skin"%string, (0.589671875906643716547251, 0.521088372038634783933730, 0.487335876130203959899490));
  ("blue_sky"%string, (0.409928872979655578578928, 0.469102800531251640236974, 0.528807071106972226282039));
  ("foliage"%string, (0.392298212140863689079140, 0.431857317677537877464999, 0.325892774332745549514812));
  ("blue_flower"%string, (0.487503652659836306249019, 0.484290753094468007233786, 0.559902130804977637978936));
  ("bluish_green"%string, (0.432154806535518631882553, 0.583188727308343257682566, 0.554611890466937373922462));
  ("orange"%string, (0.620495876390705580760709, 0.476196481644482028094956, 0.323501901399377511658884));
  ("purplish_blue"%string, (0.358956980451520357711104, 0.403714687425007989762804, 0.545975620652298432311511));
  ("moderate_red"%string, (0.585783304362184953362203, 0.393195672133681395354898, 0.421556758912692564056357));
  ("purple"%string, (0.391983349940718206472212, 0.309758945547188579983100, 0.423275008548171627342782));
  ("yellow_green"%string, (0.538276072960211737772340, 0.579504196641385860289120, 0.353783680063858962938639));
  ("orange_yellow"%string, (0.631897889053734340691904, 0.540914322482507592404488, 0.327313035478477454276458));
  ("blue"%string, (0.270718862532044635127448, 0.324529702916937334844505, 0.508575248611829011657903));
  ("green"%string, (0.352846785542891117071207, 0.513593875999259097397953, 0.351784687842900123389001));
  ("red"%string, (0.555928801394051208539793, 0.301843417963432281148073, 0.317699879186546962905879));
  ("yellow"%string, (0.644500023200871297035519, 0.598108224043704339578653, 0.321966241897181648656812));
  ("magenta"%string, (0.578326042208003321398735, 0.399047065092684949405566, 0.521423791132291203354043));
  ("cyan"%string, (0.001531359595376467243322, 0.494227371515664370971166, 0.543560474032972695823673));
  ("white_95"%string, (0.658393154760891885501906, 0.658265731231498674169700, 0.652583897566037296478214));
  ("neutral_80"%string, (0.601719699338299718327505, 0.603464904164030979671907, 0.602105611230751014417706));
  ("neutral_65"%string, (0.540372606822859369302137, 0.542134578559270607911458, 0.541532815254142541050442));
  ("neutral_50"%string, (0.462470797433087554839659, 0.465187208578845989848105, 0.464854410580942956077166));
  ("neutral_35"%string, (0.372665640539333542502476, 0.376104861265632139932791, 0.376988863108514649091774));
  ("black_20"%string, (0.267472725937313693389541, 0.267096062525132738052491, 0.268853980952670879034372))
].

(* colorchecker.rs 779-804 *)
Definition keyed_RED_COLOR2_LINEAR : list (string * (Q * Q * Q)) := [
  ("dark_skin"%string, (0.153483414894936304184725, 0.089583752781120573605023, 0.070746364655532245624414));
  ("light_skin"%string, (0.493943832227349721719634, 0.314164151912610045691565, 0.255498335329559955741985));
  ("blue_sky"%string, (0.139406635950584778527173, 0.201667837842016028915282, 0.301864832288730344789229));
  ("foliage"%string, (0.103345556168132429730733, 0.136735679519851716090528, 0.066100318138062358341855));
  ("blue_flower"%string, (0.243006776756933717820175, 0.238184128726320054614263, 0.391200664401315734153286));
  ("bluish_green"%string, (0.186397116149956243447150, 0.471388893861246716099345, 0.388915330147387938719561));
  ("orange"%string, (0.604127023632865078894838, 0.231262659918414964499433, 0.107536493755853085341201));
  ("purplish_blue"%string, (0.099403847564227543198712, 0.129112962890675031513155, 0.335222674528145525574274));
  ("moderate_red"%string, (0.460072739244675787961825, 0.133601636698092690602735, 0.156626819258465277417969));
  ("purple"%string, (0.101881823390682135777041, 0.058387829143872978232555, 0.127348945808196861717576));
  ("yellow_green"%string, (0.340380634264964232471584, 0.450622421923508154062432, 0.119726115028190166489352));
  ("orange_yellow"%string, (0.669840692016544281273127, 0.362766506976739289136447, 0.123361370132406861221952));
  ("blue"%string, (0.050834365089790667369130, 0.069387878926675014557013, 0.243955837533390756943774));
  ("green"%string, (0.087293028217181212191633, 0.257634006235812784701977, 0.086734122889180892412853));
  ("red"%string, (0.355971589268220700574830, 0.069754007401365059060083, 0.075727225608498274778135));
  ("yellow"%string, (0.751337847293678473548084, 0.548604576878043648235916, 0.140032152771064344332075));
  ("magenta"%string, (0.446076062336120404694384, 0.147761964814960733427540, 0.303761634625491494521299));
  ("cyan"%string, (0.035761277284700465628475, 0.235571237506078390300246, 0.332114783631481502723659));
  ("white_95"%string, (0.912038757085751328190781, 0.911298204973929104610875, 0.879015781626074299559548));
  ("neutral_80"%string, (0.583011042867398687761238, 0.589559369568128932570517, 0.584451325105901586809409));
  ("neutral_65"%string, (0.356129933175024948610599, 0.360214232498157704842612, 0.358812970388192375992276));
  ("neutral_50"%string, (0.188416184131812325386335, 0.191844658107233223542920, 0.191420685737326873310238));
  ("neutral_35"%string, (0.087703240234725893254009, 0.089853875882777212158459, 0.090416120369984240290329));
  ("black_20"%string, (0.032106695081582127537789, 0.032005108222040438981093, 0.032481802304872339770547))
].

(* colorchecker.rs 805-830 *)
Definition keyed_RED_COLOR2_ENCODED : list (string * (Q * Q * Q)) := [
  ("dark_skin"%string, (0.438274979632318151256953, 0.375595824344331474797798, 0.349160802328042585429557));
  ("light_skin"%string, (0.581169770150878006731432, 0.525105093490038643544437, 0.499758179338160912763556));
  ("blue_sky"%string, (0.426874399000205184684376, 0.471011110364725149590726, 0.520192969362005652733671));
  ("foliage"%string, (0.391940499164085132122182, 0.424591111215880223639374, 0.341700590625241606979046));
  ("blue_flower"%string, (0.493642061450284885815165, 0.491199914999648545865796, 0.552190640616346706259776));
  ("bluish_green"%string, (0.461517166497581177164733, 0.575348900520410322378950, 0.551464760260806041713977));
  ("orange"%string, (0.606311921849350454749583, 0.487611029547955987517582, 0.396528219213782950891556));
  ("purplish_blue"%string, (0.387469374916998010593971, 0.417840207803736207736733, 0.533099141437160195522438));
  ("moderate_red"%string, (0.572325101941458247445382, 0.421858687472210336366629, 0.440687170422342788800307));
  ("purple"%string, (0.390298436353108457730343, 0.328261950385946410513327, 0.416225603782353070769773));
  ("yellow_green"%string, (0.534982974183568771309183, 0.569743673710756071137951, 0.409003036216265714042351));
  ("orange_yellow"%string, (0.619240499194586568876275, 0.542850659660906509351719, 0.412498537286830557757611));
  ("blue"%string, (0.313564590962002731622249, 0.347024303082389351526871, 0.494117191618885398529670));
  ("green"%string, (0.372659279338054649777234, 0.500775065543055064587463, 0.371932408587932139543142));
  ("red"%string, (0.540513488083619653146172, 0.347603652837163157318656, 0.356701206484816901731705));
  ("yellow"%string, (0.633641593619536869219644, 0.594262226570775764500354, 0.427403262540710981998160));
  ("magenta"%string, (0.568482908994229818588906, 0.433763635788419366079438, 0.520962983811379953813514));
  ("cyan"%string, (0.277923861656254322927140, 0.489856946801501380583943, 0.531950450755312664874452));
  ("white_95"%string, (0.658005472114164047248153, 0.657903241818630357684583, 0.653365090138331994218390));
  ("neutral_80"%string, (0.601862535867624393048914, 0.603259046432140566551539, 0.602171009937723322735792));
  ("neutral_65"%string, (0.540568442806342752682269, 0.541977804151558384404552, 0.541496028779766214178437));
  ("neutral_50"%string, (0.462813787791681530148225, 0.464985717662269204542014, 0.464719130599535401593414));
  ("neutral_35"%string, (0.373190143197246526618471, 0.375937682015322627293585, 0.376646308373708105232680));
  ("black_20"%string, (0.267540223349757355641998, 0.267239139833184258243648, 0.268645841560333109576675))
].

(* colorchecker.rs 831-856 *)
Definition keyed_RED_COLOR3_LINEAR : list (string * (Q * Q * Q)) := [
  ("dark_skin"%string, (0.155054340730736234243992, 0.084764738646003687239094, 0.064043778661599604085097));
  ("light_skin"%string, (0.498496937122042182988224, 0.300739364539842513046608, 0.236207445414149813656124));
  ("blue_sky"%string, (0.135950229406069045268168, 0.204437497942738244383065, 0.314653893466220857533244));
  ("foliage"%string, (0.104418351484591248601319, 0.141147500969822814465005, 0.063448649643443641443774));
  ("blue_flower"%string, (0.239491398343491757039203, 0.234186434698594458936327, 0.402504380482894663639826));
  ("bluish_green"%string, (0.183308278191135376467003, 0.496799173552033512812898, 0.406077784892204918243408));
  ("orange"%string, (0.613618499619728807736863, 0.203467857370670301975224, 0.067370071684820759250201));
  ("purplish_blue"%string, (0.094029778289632659493691, 0.126709725487923252629230, 0.353430003457829877699936));
  ("moderate_red"%string, (0.465292414748791405276762, 0.106174295243967653501471, 0.131502651301460909971652));
  ("purple"%string, (0.101026733071582136558320, 0.053183329305054663493912, 0.129040535678499768135197));
  ("yellow_green"%string, (0.346221129094202995091223, 0.467487174467131949562315, 0.103501551357363399952227));
  ("orange_yellow"%string, (0.680893055796925716904866, 0.343111629245427429690807, 0.079767027868569914672570));
  ("blue"%string, (0.046399345436231281825101, 0.066808145234831708969558, 0.258832570861359356761966));
  ("green"%string, (0.088308187345401745194096, 0.275683268799237990442919, 0.087693318669741282533892));
  ("red"%string, (0.360882116913838590921415, 0.046042863511798676201536, 0.052614001555364560414052));
  ("yellow"%string, (0.764529350467761714682524, 0.541522955496089419824557, 0.092094396992034532889448));
  ("magenta"%string, (0.447669935326820700449701, 0.119524467169956460921298, 0.291124478926144847346080));
  ("cyan"%string, (0.029963419383602973855574, 0.249754280708355813622745, 0.355951596985532359163074));
  ("white_95"%string, (0.912811433205021893755315, 0.911996837146607730595349, 0.876486226561132952816990));
  ("neutral_80"%string, (0.583015672609333623910288, 0.590218831697020718252134, 0.584599977349217092559286));
  ("neutral_65"%string, (0.356090826516199832063592, 0.360583554984994170133916, 0.359042160312369962316126));
  ("neutral_50"%string, (0.188365655594198655453653, 0.192136976049670143984471, 0.191670599863722257438781));
  ("neutral_35"%string, (0.087652056852042775636491, 0.090017755206266536482929, 0.090636218642094201758397));
  ("black_20"%string, (0.032097271218108042178940, 0.031985525541143602912264, 0.032509888457668056904737))
].

(* colorchecker.rs 857-882 *)
Definition keyed_RED_COLOR3_ENCODED : list (string * (Q * Q * Q)) := [
  ("dark_skin"%string, (0.439486190089430517335956, 0.369337596278117297199373, 0.338253518271770359238104));
  ("light_skin"%string, (0.582313217215885026156741, 0.519733870816042164975102, 0.490185250184120846483893));
  ("blue_sky"%string, (0.423911799680341760954150, 0.472659701909551477339022, 0.525296819049256402678338));
  ("foliage"%string, (0.393130691826005407296662, 0.428340855051105584561100, 0.337238334355110191964400));
  ("blue_flower"%string, (0.491866544791366155919832, 0.489139405439175056766743, 0.555721380294937672417177));
  ("bluish_green"%string, (0.459507649566093190340865, 0.581888047607911906844436, 0.556817480933286534927618));
  ("orange"%string, (0.608262344561716794544282, 0.472084964966056730428789, 0.343783225086920274371494));
  ("purplish_blue"%string, (0.381109035365673864959035, 0.415635436035354355333027, 0.539628146677722853041814));
  ("moderate_red"%string, (0.573728780922518777352082, 0.395055103794764217450819, 0.419995344587269447966804));
  ("purple"%string, (0.389329279554724128065146, 0.318319445729636218977987, 0.417774316612312346386204));
  ("yellow_green"%string, (0.537082980646777174982276, 0.574314408232210360516490, 0.392114257709197056023243));
  ("orange_yellow"%string, (0.621291621568671570408071, 0.535969241518120087519605, 0.362505161414139798203848));
  ("blue"%string, (0.304072267047946154239213, 0.342865758240131934808659, 0.501342217571460357916635));
  ("green"%string, (0.373969002027226327111720, 0.509059508471936705831240, 0.373177329572524529854860));
  ("red"%string, (0.542206793284749632988451, 0.303277657923671728479320, 0.317183186866493160849245));
  ("yellow"%string, (0.635826806228563246037311, 0.592640006310554912083433, 0.378738377991509334030695));
  ("magenta"%string, (0.568926332891775854427863, 0.408806303310323748689825, 0.515742822827069180569026));
  ("cyan"%string, (0.261031983737846140503081, 0.496982201625446651238605, 0.540506547890057698069199));
  ("white_95"%string, (0.658112049598077009093799, 0.657999687422609391695971, 0.653002567196222294398922));
  ("neutral_80"%string, (0.601863528645760648139174, 0.603398839779079709799703, 0.602202805204410940298487));
  ("neutral_65"%string, (0.540554872682227238733788, 0.542104479993448906682829, 0.541574952555030297851602));
  ("neutral_50"%string, (0.462781499495853287928782, 0.465169198056545107888837, 0.464876340126380849238075));
  ("neutral_35"%string, (0.373124026419280663269262, 0.376144635204953781126846, 0.376922639528664282781989));
  ("black_20"%string, (0.267512322800425639268695, 0.267181018691924676566885, 0.268728239774336685741218))
].

(* colorchecker.rs 883-908 *)
Definition keyed_RED_COLOR4_LINEAR : list (string * (Q * Q * Q)) := [
  ("dark_skin"%string, (0.162335157827065729163607, 0.086422398868494107460059, 0.064043724899646908843565));
  ("light_skin"%string, (0.519480014507119558508919, 0.305901860553821403065911, 0.236207290873530068031627));
  ("blue_sky"%string, (0.121654014591813075529814, 0.195620359558728640347880, 0.314653993260044839708200));
  ("foliage"%string, (0.107695891891253586747368, 0.147363263249352449690832, 0.063448631115950754333355));
  ("blue_flower"%string, (0.226450454201031159406909, 0.220721294247366139895661, 0.402504465889469309480830));
  ("bluish_green"%string, (0.165486737887531765167637, 0.504056638981041804647987, 0.406077928225468842704515));
  ("orange"%string, (0.657318202603271561912379, 0.214355556996114471335346, 0.067369749977270132479390));
  ("purplish_blue"%string, (0.073277896588652302600764, 0.108572489797014878898374, 0.353430142776839650853304));
  ("moderate_red"%string, (0.491995527986044567381185, 0.104148171017734797461074, 0.131502445715391907965497));
  ("purple"%string, (0.098785661012236708478085, 0.047114898504541702362047, 0.129040546460692767682943));
  ("yellow_green"%string, (0.365638516252853817967150, 0.496605355333536724327104, 0.103501433599029191157115));
  ("orange_yellow"%string, (0.728982911045504611280421, 0.364178831902845168144722, 0.079766683267092741704829));
  ("blue"%string, (0.029404801189600510147315, 0.051446520602281275991174, 0.258832684427933945592315));
  ("green"%string, (0.088357312922950348443862, 0.290722084539834113581236, 0.087693333896483732781135));
  ("red"%string, (0.385543497784533006900176, 0.045517271656269453483645, 0.052613813084425482824447));
  ("yellow"%string, (0.818323840302707328220322, 0.577476518007932648757219, 0.092094024362795193217046));
  ("magenta"%string, (0.460193594208504253018077, 0.105796857118449133539073, 0.291124369251968606597814));
  ("cyan"%string, (0.003884475847743817933377, 0.241258619494067017008376, 0.355951786900100208832498));
  ("white_95"%string, (0.915717429371788460557013, 0.914837624250462000397022, 0.876486207363737501729872));
  ("neutral_80"%string, (0.582888926686717434577645, 0.590668328232375916542196, 0.584599978781354279178117));
  ("neutral_65"%string, (0.355854719965383869961784, 0.360706862617134305093458, 0.359042162239476991825171));
  ("neutral_50"%string, (0.188101260651184820638093, 0.192174284279901519401079, 0.191670601917178912154682));
  ("neutral_35"%string, (0.087413324801966341137671, 0.089968278551555924682503, 0.090636220409963746957871));
  ("black_20"%string, (0.032064262111314835446141, 0.031943577454027566320249, 0.032509888665688997655412))
].

(* colorchecker.rs 909-934 *)
Definition keyed_RED_COLOR4_ENCODED : list (string * (Q * Q * Q)) := [
  ("dark_skin"%string, (0.444954137987017661615141, 0.371525194089565635735539, 0.338253426927974887306050));
  ("light_skin"%string, (0.587454066139677544278186, 0.521826263421979130718853, 0.490185170538950998331273));
  ("blue_sky"%string, (0.410868760519190412416890, 0.467335524319226258693760, 0.525296858087458296004968));
  ("foliage"%string, (0.396699488040929360010978, 0.433443223996322568591921, 0.337238302624213226454941));
  ("blue_flower"%string, (0.485054858469615324256807, 0.481943164509890609181753, 0.555721406605474754769602));
  ("bluish_green"%string, (0.447250088995421235527061, 0.583695677190518513732798, 0.556817524710454869740772));
  ("orange"%string, (0.616875917596883649451911, 0.478394148992158041444611, 0.343782701715854399626693));
  ("purplish_blue"%string, (0.353048989910973720629528, 0.397637273790902023851146, 0.539628195377466646220910));
  ("moderate_red"%string, (0.580677327609215865322767, 0.392831991405646341330993, 0.419995160739556616658064));
  ("purple"%string, (0.386753698011659097222292, 0.305652447861090192926525, 0.417774326424029562865314));
  ("yellow_green"%string, (0.543825761196592871726807, 0.581839419471778862558153, 0.392114126630951853602625));
  ("orange_yellow"%string, (0.629850613117841073851366, 0.543331103712164531494011, 0.362504677438257760790918));
  ("blue"%string, (0.259279601842695939240002, 0.314820942079533538926484, 0.501342271190845956141402));
  ("green"%string, (0.374032041742887899626879, 0.515573034939845853408258, 0.373177349238732858349721));
  ("red"%string, (0.550386168237376738332500, 0.302096979367407869609963, 0.317182809034497692479704));
  ("yellow"%string, (0.644369028215361572264896, 0.600670171881738546026952, 0.378737917280906832839804));
  ("magenta"%string, (0.572357777915457832662582, 0.394643899978018686258707, 0.515742776581535555813218));
  ("cyan"%string, (0.131637193790707762719450, 0.492762211303923169936070, 0.540506613819469294845987));
  ("white_95"%string, (0.658512085591115514660032, 0.658391105226395434435460, 0.653002564441029997865940));
  ("neutral_80"%string, (0.601836347105132785095805, 0.603494036577930215159427, 0.602202805510692829038533));
  ("neutral_65"%string, (0.540472912292205953654900, 0.542146745879366842579827, 0.541574953218442733948734));
  ("neutral_50"%string, (0.462612414586370757074718, 0.465192596455861084869809, 0.464876341417319371984718));
  ("neutral_35"%string, (0.372815187074410026024651, 0.376082189589887261327306, 0.376922641745800479640138));
  ("black_20"%string, (0.267414546903245675668614, 0.267056427982763744388706, 0.268728240384424110764883))
].

(* colorchecker.rs 935-960 *)
Definition keyed_DRAGON_COLOR_LINEAR : list (string * (Q * Q * Q)) := [
  ("dark_skin"%string, (0.149723414818045907903610, 0.085823859343739941629714, 0.066986551770126245841652));
  ("light_skin"%string, (0.483219867564633476231251, 0.303440488465486546409977, 0.244774905243138191091035));
  ("blue_sky"%string, (0.145168823074077524282188, 0.207429903894447098533504, 0.307626722663563056947567));
  ("foliage"%string, (0.103246683254911819638266, 0.136636767763059496783029, 0.066001459860953279323859));
  ("blue_flower"%string, (0.246683086336182633147018, 0.241860413961559439499638, 0.394876772315002788626970));
  ("bluish_green"%string, (0.198897608177613816060614, 0.483888945197587516666715, 0.401415219933465627910607));
  ("orange"%string, (0.581832804417851345846202, 0.208969065857297769950307, 0.085243386124344844301248));
  ("purplish_blue"%string, (0.106212462096668069921890, 0.135921486449701561793901, 0.342030926273706292750632));
  ("moderate_red"%string, (0.443920690272381568419746, 0.117450107544400106363014, 0.140475560019875989059557));
  ("purple"%string, (0.101419607485862678375454, 0.057925668670982484453891, 0.126886743043621824655887));
  ("yellow_green"%string, (0.337549377515323878462539, 0.447791057415468096714051, 0.116895043094167511155135));
  ("orange_yellow"%string, (0.647954173560461033076763, 0.340880532210786457714136, 0.101475959265775073081528));
  ("blue"%string, (0.056262096025864488657575, 0.074815543432350542496501, 0.249383277839966444044961));
  ("green"%string, (0.091646453041938691352897, 0.261987193163012721530691, 0.091087357667370125180462));
  ("red"%string, (0.341446622303071267712227, 0.055229499142840005054822, 0.061202970863280796443018));
  ("yellow"%string, (0.730464491297963092186762, 0.527731632375404213775028, 0.119159878055566520460573));
  ("magenta"%string, (0.434777706957014342670220, 0.136464056114922072104889, 0.292463812291040181623458));
  ("cyan"%string, (0.048483713050890608897703, 0.248293331922883553364301, 0.344836581468449032694679));
  ("white_95"%string, (0.911172997575769860745254, 0.910432453425045751238542, 0.878150069088022511287761));
  ("neutral_80"%string, (0.583215881701592220309749, 0.589764198950359253004194, 0.584656154591739141146434));
  ("neutral_65"%string, (0.356303457819366231618119, 0.360387750872823486858465, 0.358986486708072760620780));
  ("neutral_50"%string, (0.188581135540128980165875, 0.192009604094823926878632, 0.191585629106707205915328));
  ("neutral_35"%string, (0.087827948546864278989155, 0.089978580620858644723015, 0.090540822482184063479949));
  ("black_20"%string, (0.032113708717611107179568, 0.032012121921339072028179, 0.032488815530576337087254))
].

(* colorchecker.rs 961-986 *)
Definition keyed_DRAGON_COLOR_ENCODED : list (string * (Q * Q * Q)) := [
  ("dark_skin"%string, (0.435328299900307746916894, 0.370739634791815042547114, 0.343157762321688208917436));
  ("light_skin"%string, (0.578435328249764180164050, 0.520832940199096205979856, 0.494525822928354896745873));
  ("blue_sky"%string, (0.431665113014297108229300, 0.474417217863834117519417, 0.522517768914421698589479));
  ("foliage"%string, (0.391830244604374100525490, 0.424505764641438076978375, 0.341537006458961955868148));
  ("blue_flower"%string, (0.495472756188679641642381, 0.493065781911615763632994, 0.553349655222903247242527));
  ("bluish_green"%string, (0.469340552832775925740094, 0.578607660493825393110967, 0.555385408312260020480267));
  ("orange"%string, (0.601609628524149564476886, 0.475311848428712158121101, 0.369973130434009700451270));
  ("purplish_blue"%string, (0.395096611242831019517041, 0.423886871931501651999952, 0.535579870788887246746413));
  ("moderate_red"%string, (0.567880806994210729499173, 0.406764662849551816847793, 0.427776829911503508885318));
  ("purple"%string, (0.389775478226206728571412, 0.327409792578239211557900, 0.415799143586439545750011));
  ("yellow_green"%string, (0.533952370554443667138855, 0.568959966663302507683397, 0.406212757081505893008710));
  ("orange_yellow"%string, (0.615078599042291340737165, 0.535164078562422207419047, 0.389839350549126661960031));
  ("blue"%string, (0.324294321033753218941342, 0.355353995296791624891597, 0.496800806520912408004165));
  ("green"%string, (0.378183343263418902946427, 0.502823001136369684971328, 0.377487172967531814382625));
  ("red"%string, (0.535368852753824842061192, 0.322321467204431111319707, 0.333333030737378577246233));
  ("yellow"%string, (0.630105383239837446573972, 0.589420197525270195271219, 0.408449827377987073617760));
  ("magenta"%string, (0.565294591125631962214015, 0.424356602149970896231679, 0.516306321507067789156054));
  ("cyan"%string, (0.308621690785276125978953, 0.496266397959514882209930, 0.536588275424389582468621));
  ("white_95"%string, (0.657885949318798846086054, 0.657783624099978037058634, 0.653241136741164130086190));
  ("neutral_80"%string, (0.601906453055928158946131, 0.603302482770368686537665, 0.602214818902925941301874));
  ("neutral_65"%string, (0.540628638925747972976410, 0.542037335814456788796178, 0.541555785305784742611479));
  ("neutral_50"%string, (0.462919136627265859207370, 0.465089282476091714357835, 0.464822910686409795921747));
  ("neutral_35"%string, (0.373351093176428727726801, 0.376095194590808978851726, 0.376802944223289415504041));
  ("black_20"%string, (0.267560984146938407590710, 0.267259949951726916150818, 0.268666421721284964796439))
].

(* colorchecker.rs 987-1012 *)
Definition keyed_DRAGON_COLOR2_LINEAR : list (string * (Q * Q * Q)) := [
  ("dark_skin"%string, (0.160996770184005821846540, 0.088390487843436199577596, 0.066986595333546422592619));
  ("light_skin"%string, (0.515709309064711352021959, 0.311433822402699123088610, 0.244775032377935963801008));
  ("blue_sky"%string, (0.123033091867225052862267, 0.193777744914168575940394, 0.307626614215172622390781));
  ("foliage"%string, (0.108321495480795837451637, 0.146261098043693749115590, 0.066001501999340211890299));
  ("blue_flower"%string, (0.226490983252587541052492, 0.221011375769368273447313, 0.394876651056103311621115));
  ("bluish_green"%string, (0.171303348175268266295745, 0.495126394736086883341386, 0.401415159905443852395024));
  ("orange"%string, (0.649495850717389577866356, 0.225827004617583537715575, 0.085243651458349334326670));
  ("purplish_blue"%string, (0.074081027776767893744392, 0.107838335023055675865322, 0.342030746865406909407170));
  ("moderate_red"%string, (0.485266850507368563416577, 0.114312686682861874842843, 0.140475686407231292740505));
  ("purple"%string, (0.097949625794857858585019, 0.048529455125233551815445, 0.126886706741636434703224));
  ("yellow_green"%string, (0.367614500672204025377710, 0.492876885388938923426849, 0.116895260997205638342500));
  ("orange_yellow"%string, (0.722414751134890509298714, 0.373500165709156728421902, 0.101476288677681755756588));
  ("blue"%string, (0.029948383171486792075910, 0.051030060241885728811173, 0.249383128821700522648186));
  ("green"%string, (0.091722480294395225541848, 0.285272980644861784416122, 0.091087419856715381993872));
  ("red"%string, (0.379631432722235651056053, 0.054415487477697283003053, 0.061203093129279989570435));
  ("yellow"%string, (0.813757886443996714120885, 0.583400948849373879312452, 0.119160297564169723183447));
  ("magenta"%string, (0.454168930852524854735464, 0.115208412069736587657331, 0.292463818939154018838877));
  ("cyan"%string, (0.008104021009524453589279, 0.235139035223358716653053, 0.344836414893534448644630));
  ("white_95"%string, (0.915672532168605224356384, 0.914831045661342989738785, 0.878150095450997092427770));
  ("neutral_80"%string, (0.583019631694360773721542, 0.590460190996462408463685, 0.584656155803607968657332));
  ("neutral_65"%string, (0.355937878490477421777882, 0.360578679711051952594403, 0.358986486024656270554800));
  ("neutral_50"%string, (0.188171755678059882122000, 0.192067373482229908354668, 0.191585627926347479288438));
  ("neutral_35"%string, (0.087458304413571358315593, 0.089901973902658610660055, 0.090540821073860994205873));
  ("black_20"%string, (0.032062598688531063206852, 0.031947170642912581239869, 0.032488815191251810277073))
].

(* colorchecker.rs 1013-1038 *)
Definition keyed_DRAGON_COLOR2_ENCODED : list (string * (Q * Q * Q)) := [
  ("dark_skin"%string, (0.443966450419434055518764, 0.374074595355219585712803, 0.343157833541732348869857));
  ("light_skin"%string, (0.586545407113065242477035, 0.524030893166273936678579, 0.494525886254001401098890));
  ("blue_sky"%string, (0.412186790563297045242308, 0.466194188980121326792982, 0.522517725554753176275824));
  ("foliage"%string, (0.397369464475903877431762, 0.432553264666499182045101, 0.341537076231569869388949));
  ("blue_flower"%string, (0.485076602530708278493421, 0.482102557948839161028332, 0.553349617165449947364664));
  ("bluish_green"%string, (0.451381818492002651055373, 0.581467742118820130059476, 0.555385389771045234752478));
  ("orange"%string, (0.615376256090810147547643, 0.484719905678146767424863, 0.369973481858722030857223));
  ("purplish_blue"%string, (0.354258124349377145900775, 0.396852344562838244002023, 0.535579806050236917336349));
  ("moderate_red"%string, (0.578961830364027818518480, 0.403613173458917284808223, 0.427776936235872873304231));
  ("purple"%string, (0.385779374945521169593121, 0.308719729381411900348553, 0.415799110035574959187699));
  ("yellow_green"%string, (0.544492336201498616787831, 0.580900330480370485908281, 0.406212974214476496559456));
  ("orange_yellow"%string, (0.628714984585981628839590, 0.546457371441374184506401, 0.389839723829221163065029));
  ("blue"%string, (0.260985129635336432496473, 0.313967573201927141468559, 0.496800733609209843599785));
  ("green"%string, (0.378277717084281150938807, 0.513251249787855856610008, 0.377487250616010794335153));
  ("red"%string, (0.548472665139935533495930, 0.320744404712823616421247, 0.333333246654985870804921));
  ("yellow"%string, (0.643665826535008256392700, 0.601946118201861612995174, 0.408450238125195430605174));
  ("magenta"%string, (0.570718574058486027844594, 0.404520897282610758516341, 0.516306324297954755131457));
  ("cyan"%string, (0.163583767198301643919223, 0.489633433042022836456653, 0.536588215790650302494669));
  ("white_95"%string, (0.658505914642103840073162, 0.658390200183846752146621, 0.653241140517672791432346));
  ("neutral_80"%string, (0.601864377605528022563419, 0.603449964998153842721251, 0.602214819162076198111322));
  ("neutral_65"%string, (0.540501785383099009330010, 0.542102808618236009507996, 0.541555785070481077170257));
  ("neutral_50"%string, (0.462657519265891159498949, 0.465125534299738851995443, 0.464822909944046236407900));
  ("neutral_35"%string, (0.372873432920808822732539, 0.375998456941074032933159, 0.376802942455410072586375));
  ("black_20"%string, (0.267409617710445690619281, 0.267067104946907996065875, 0.268666420725624910392781))
].

(* colorchecker.rs 1039-1064 *)
Definition keyed_SHARP_RGB_LINEAR : list (string * (Q * Q * Q)) := [
  ("dark_skin"%string, (0.129141582755607109422868, 0.086445283368507569443651, 0.062826483499362970053248));
  ("light_skin"%string, (0.425748097867863162235835, 0.305975534571309215614576, 0.232703372469139274647532));
  ("blue_sky"%string, (0.158947413615394023134186, 0.195463917489623800749499, 0.316984437892768089461981));
  ("foliage"%string, (0.120172425667693733020158, 0.147483213920041600353272, 0.062959346180200548293016));
  ("blue_flower"%string, (0.233287768879172630054342, 0.220469889005872304865719, 0.404572125497262236049067));
  ("bluish_green"%string, (0.303458265779677383022772, 0.504227457121062316858229, 0.409178789054016667225966));
  ("orange"%string, (0.462793342986520306325815, 0.214511722150252825969119, 0.060073892695464425894869));
  ("purplish_blue"%string, (0.100649197000489104558696, 0.108238380417306698233482, 0.356755669095783323196969));
  ("moderate_red"%string, (0.329620455340471130156743, 0.104069604704321305721493, 0.126951145734999520930941));
  ("purple"%string, (0.081139433940172409065461, 0.046996428469838771868616, 0.129355598844438202110751));
  ("yellow_green"%string, (0.400922117350976214833480, 0.497161498056220618746437, 0.100520061866889026669369));
  ("orange_yellow"%string, (0.560462604636648986655700, 0.364532828358527016821000, 0.071835329673735986988348));
  ("blue"%string, (0.049272038274263060819713, 0.051162714750583718203991, 0.261550638133581980770970));
  ("green"%string, (0.163467257335276255902912, 0.291023500415434677179860, 0.087846316508718880200490));
  ("red"%string, (0.242329296446878283965987, 0.045471688310981472902483, 0.048424941488945806578048));
  ("yellow"%string, (0.691910627349318518852783, 0.578120836888237343842434, 0.083354691541967590451279));
  ("magenta"%string, (0.319987031229179041957877, 0.105503859803453725607625, 0.288852768895510259028470));
  ("cyan"%string, (0.109955552751994520277457, 0.241125366772513366475650, 0.360284347730886245209092));
  ("white_95"%string, (0.913393069415382785614099, 0.914890444229581989432631, 0.876023744258848102717252));
  ("neutral_80"%string, (0.585864765360589512255274, 0.590677519486456747976888, 0.584626299877888500056144));
  ("neutral_65"%string, (0.357818762898435338559722, 0.360709670121257319763686, 0.359083534937408244136492));
  ("neutral_50"%string, (0.189795441079584709109795, 0.192175407940559150876680, 0.191715850604862736439316));
  ("neutral_35"%string, (0.088526161916586729172529, 0.089967625950929330791439, 0.090676185072169096512695));
  ("black_20"%string, (0.032042139903691140012665, 0.031942783423427725808530, 0.032515037937287036284850))
].

(* colorchecker.rs 1065-1090 *)
Definition keyed_SHARP_RGB_ENCODED : list (string * (Q * Q * Q)) := [
  ("dark_skin"%string, (0.129141582755607109422868, 0.086445283368507569443651, 0.062826483499362970053248));
  ("light_skin"%string, (0.425748097867863162235835, 0.305975534571309215614576, 0.232703372469139274647532));
  ("blue_sky"%string, (0.158947413615394023134186, 0.195463917489623800749499, 0.316984437892768089461981));
  ("foliage"%string, (0.120172425667693733020158, 0.147483213920041600353272, 0.062959346180200548293016));
  ("blue_flower"%string, (0.233287768879172630054342, 0.220469889005872304865719, 0.404572125497262236049067));
  ("bluish_green"%string, (0.303458265779677383022772, 0.504227457121062316858229, 0.409178789054016667225966));
  ("orange"%string, (0.462793342986520306325815, 0.214511722150252825969119, 0.060073892695464425894869));
  ("purplish_blue"%string, (0.100649197000489104558696, 0.108238380417306698233482, 0.356755669095783323196969));
  ("moderate_red"%string, (0.329620455340471130156743, 0.104069604704321305721493, 0.126951145734999520930941));
  ("purple"%string, (0.081139433940172409065461, 0.046996428469838771868616, 0.129355598844438202110751));
  ("yellow_green"%string, (0.400922117350976214833480, 0.497161498056220618746437, 0.100520061866889026669369));
  ("orange_yellow"%string, (0.560462604636648986655700, 0.364532828358527016821000, 0.071835329673735986988348));
  ("blue"%string, (0.049272038274263060819713, 0.051162714750583718203991, 0.261550638133581980770970));
  ("green"%string, (0.163467257335276255902912, 0.291023500415434677179860, 0.087846316508718880200490));
  ("red"%string, (0.242329296446878283965987, 0.045471688310981472902483, 0.048424941488945806578048));
  ("yellow"%string, (0.691910627349318518852783, 0.578120836888237343842434, 0.083354691541967590451279));
  ("magenta"%string, (0.319987031229179041957877, 0.105503859803453725607625, 0.288852768895510259028470));
  ("cyan"%string, (0.109955552751994520277457, 0.241125366772513366475650, 0.360284347730886245209092));
  ("white_95"%string, (0.913393069415382785614099, 0.914890444229581989432631, 0.876023744258848102717252));
  ("neutral_80"%string, (0.585864765360589512255274, 0.590677519486456747976888, 0.584626299877888500056144));
  ("neutral_65"%string, (0.357818762898435338559722, 0.360709670121257319763686, 0.359083534937408244136492));
  ("neutral_50"%string, (0.189795441079584709109795, 0.192175407940559150876680, 0.191715850604862736439316));
  ("neutral_35"%string, (0.088526161916586729172529, 0.089967625950929330791439, 0.090676185072169096512695));
  ("black_20"%string, (0.032042139903691140012665, 0.031942783423427725808530, 0.032515037937287036284850))
].

(* colorchecker.rs 1091-1116 *)
Definition keyed_ITUR_BT2020_LINEAR : list (string * (Q * Q * Q)) := [
  ("dark_skin"%string, (0.138292886347363475074701, 0.089577586278710943923365, 0.061766967577830247937420));
  ("light_skin"%string, (0.451599530270104354556793, 0.314792083171821945875024, 0.229587768634340883000533));
  ("blue_sky"%string, (0.148521269053716653552044, 0.192355418351632195816947, 0.319961820110954031637363));
  ("foliage"%string, (0.116874838369719194486329, 0.145902030886385869479227, 0.061600367511714569646042));
  ("blue_flower"%string, (0.231130006299789136914313, 0.220599651724015632936471, 0.408162468548940005064196));
  ("bluish_green"%string, (0.265714231453095306445533, 0.490372380670155205706351, 0.409947539586885567608476));
  ("orange"%string, (0.516447263840033476967051, 0.232798725507760401187696, 0.053563320949666523573818));
  ("purplish_blue"%string, (0.092754528649379636151551, 0.106645796211432830613575, 0.361938439315873716761729));
  ("moderate_red"%string, (0.374175820245569390465334, 0.119990565209934230139766, 0.124372410716929351903737));
  ("purple"%string, (0.085859976416594638304325, 0.049071993358407041407876, 0.130578044250345776111644));
  ("yellow_green"%string, (0.391836385753276561505487, 0.492008469725660035898329, 0.093711692937229112976283));
  ("orange_yellow"%string, (0.607185749210428116207083, 0.379688125325511938168432, 0.063205522392775451145930));
  ("blue"%string, (0.043496099894424836151963, 0.050136476596127105276324, 0.265876987564680811182427));
  ("green"%string, (0.143150325368506609047259, 0.282826221381173525948327, 0.085415794007454678982150));
  ("red"%string, (0.281653176639313385098973, 0.059439426265292916173877, 0.045826382429685161290500));
  ("yellow"%string, (0.727378140266214168185854, 0.588299486425612472295654, 0.071703591274500558250260));
  ("magenta"%string, (0.358210465258201993243858, 0.119958502808858780142032, 0.289703845108650548390017));
  ("cyan"%string, (0.080645808845583782931143, 0.231304875035945323169528, 0.364491924718032989094496));
  ("white_95"%string, (0.914090511401480121378427, 0.914948885574634496187230, 0.875249444503058304789533));
  ("neutral_80"%string, (0.585056771870232195098538, 0.590361386546861766078109, 0.584567604302095533697070));
  ("neutral_65"%string, (0.357281887171073564424262, 0.360511260459121407606631, 0.359089340111041877001696));
  ("neutral_50"%string, (0.189330897696327604684541, 0.192008337923971317273697, 0.191738602103143973565125));
  ("neutral_35"%string, (0.088219484982271223483252, 0.089862253307899556120653, 0.090710139316699925360332));
  ("black_20"%string, (0.032047344121324691790242, 0.031947413284006680178617, 0.032525394138556006085050))
].

(* colorchecker.rs 1117-1142 *)
Definition keyed_ITUR_BT2020_ENCODED : list (string * (Q * Q * Q)) := [
  ("dark_skin"%string, (0.352188083563413134591258, 0.272096965079309915935823, 0.214933757796157087760491));
  ("light_skin"%string, (0.669487413872187242525058, 0.554293599244388812685713, 0.467793196617251050284381));
  ("blue_sky"%string, (0.366910593899510861781721, 0.424413214907414904075722, 0.559099959088948494922988));
  ("foliage"%string, (0.319284867232704994144399, 0.363195054411290130236267, 0.214552435776247107934722));
  ("blue_flower"%string, (0.469503367344256128390612, 0.457698258252790313171943, 0.635298384886838207741278));
  ("bluish_green"%string, (0.506319074522264322979481, 0.698506796776268368276419, 0.636741782767695552180953));
  ("orange"%string, (0.717318020506997222618395, 0.471346737571071372485676, 0.195434072130398261979423));
  ("purplish_blue"%string, (0.277962802653466345415012, 0.302395385876579436690292, 0.596638022175645876821193));
  ("moderate_red"%string, (0.607125290052838995080720, 0.324266490245625649269101, 0.331153554517000459078702));
  ("purple"%string, (0.265085628650729265842756, 0.184056320801139594589557, 0.340682584875743654784230));
  ("yellow_green"%string, (0.621932883645993972443478, 0.699703068606083555813768, 0.279708362416542843931211));
  ("orange_yellow"%string, (0.778995720184800344298992, 0.611787610432609874067111, 0.218203122448601072314034));
  ("blue"%string, (0.169102173772680441921068, 0.186803081480873600650483, 0.506485893795940445016868));
  ("green"%string, (0.359251869274101021112244, 0.523560474555321397893692, 0.264236827982567701322836));
  ("red"%string, (0.522397192323515779932563, 0.209554060763110949761057, 0.175473045505328939519529));
  ("yellow"%string, (0.853335125055805776561613, 0.766599513333642623713615, 0.236730734779945883872188));
  ("magenta"%string, (0.593404551166268445783203, 0.324215591478807574343790, 0.530328078837397964839795));
  ("cyan"%string, (0.254964333443194746120497, 0.469696880752472067932501, 0.598842238181823915965651));
  ("white_95"%string, (0.956462561052563442487440, 0.956908454075041436936999, 0.936039733879866719945539));
  ("neutral_80"%string, (0.764449211356069469047725, 0.767963407400204967068191, 0.764124267115193767097026));
  ("neutral_65"%string, (0.592596269941806363945602, 0.595402327545108023265641, 0.594168507335836482141644));
  ("neutral_50"%string, (0.420693595468656811320329, 0.423988009731831705373395, 0.423657266740668059235020));
  ("neutral_35"%string, (0.269554506206388211353442, 0.272627188184001501003451, 0.274201016262776153809000));
  ("black_20"%string, (0.134670620675863300652608, 0.134342452122747785248080, 0.136232783729566209185435))
].

(* colorchecker.rs 1143-1168 *)
Definition keyed_ADOBE_RGB_1998_LINEAR : list (string * (Q * Q * Q)) := [
  ("dark_skin"%string, (0.147211573160323960784979, 0.083743268491267994213523, 0.058657083474455466720610));
  ("light_skin"%string, (0.477032915135633728276332, 0.298467521367658195075023, 0.220340003396441219685187));
  ("blue_sky"%string, (0.134908289026618555261905, 0.196752359621550909629661, 0.330178043483405347924275));
  ("foliage"%string, (0.117055606614610924198772, 0.150222313226624187842972, 0.056155759535428388662393));
  ("blue_flower"%string, (0.222513248370880489801493, 0.217725708722128402650142, 0.421490231871535003804752));
  ("bluish_green"%string, (0.235952181031165053592957, 0.519029569433950177526071, 0.409188945804021708685383));
  ("orange"%string, (0.569319589851714047412656, 0.198969083539227487023027, 0.034206081318847031402797));
  ("purplish_blue"%string, (0.076736652335874344643685, 0.106247115164784106111640, 0.380716259966453973717648));
  ("moderate_red"%string, (0.412567981651752235805475, 0.088297227465809979829459, 0.118961075825483084122958));
  ("purple"%string, (0.087011057635740018945114, 0.043810659397208656651301, 0.135644185548879386837839));
  ("yellow_green"%string, (0.398309266205813861105867, 0.507813386474510242152292, 0.067156109404506350579744));
  ("orange_yellow"%string, (0.659000750393075374056195, 0.353998715344033543228619, 0.035185228475922376845109));
  ("blue"%string, (0.030734733751841547544359, 0.049164074442412844523353, 0.281630984075209422901054));
  ("green"%string, (0.132676337883488509872265, 0.301872789212652925527891, 0.074282130387339023736004));
  ("red"%string, (0.316166565086370976445096, 0.031877511924082446714834, 0.039834287184627462097275));
  ("yellow"%string, (0.776656329637308795454942, 0.575294431909753156695331, 0.031199715162256402151142));
  ("magenta"%string, (0.385173135057095050726161, 0.088869919993143864367369, 0.296612435826710818531637));
  ("cyan"%string, (0.050493710043351347493967, 0.248960472773162327930763, 0.377518555249423348740834));
  ("white_95"%string, (0.916123033773577510885389, 0.915397396027070819890525, 0.872390774806222957238333));
  ("neutral_80"%string, (0.584566449515546260329302, 0.591077096146241598439985, 0.584263859591231837775638));
  ("neutral_65"%string, (0.356868705557576548770271, 0.360929421763968694136793, 0.359056691749457423945557));
  ("neutral_50"%string, (0.188938760738741273748076, 0.192346233806998639925823, 0.191778054973977013508701));
  ("neutral_35"%string, (0.087923670618486604588782, 0.090060800536323482035073, 0.090807843999195420048309));
  ("black_20"%string, (0.032031060712632578035830, 0.031930507013105145774912, 0.032564721066077467748201))
].

(* colorchecker.rs 1169-1194 *)
Definition keyed_ADOBE_RGB_1998_ENCODED : list (string * (Q * Q * Q)) := [
  ("dark_skin"%string, (0.418463364547275284976990, 0.323785847424073791600563, 0.275389123339520647260059));
  ("light_skin"%string, (0.714222793944291223233733, 0.577074739685649262810330, 0.502689711377264258906905));
  ("blue_sky"%string, (0.402181917771504526815107, 0.477463865684008004208749, 0.604187127462217032913827));
  ("foliage"%string, (0.377043526722328214972890, 0.422333420068089548937706, 0.269985802946620112585663));
  ("blue_flower"%string, (0.504938161999750612096705, 0.499968865074826906980121, 0.675131363133783302110658));
  ("bluish_green"%string, (0.518583538162323165465750, 0.742157148948041189839842, 0.666099497111179439379214));
  ("orange"%string, (0.774031680945797551096632, 0.479902436284782463182808, 0.215499678622900675550866));
  ("purplish_blue"%string, (0.311173834566703555459810, 0.360794295076205306926909, 0.644609294009374278466851));
  ("moderate_red"%string, (0.668595038745943837099617, 0.331676597621148039340966, 0.379822069287891195266127));
  ("purple"%string, (0.329470970805264828928927, 0.241166466579448068863201, 0.403177982730176964754065));
  ("yellow_green"%string, (0.657987208760340447355475, 0.734821130120861143453226, 0.292865129397484325046719));
  ("orange_yellow"%string, (0.827267891030546542729951, 0.623631354861200803973986, 0.218283039795295591423141));
  ("blue"%string, (0.205264873940706332744455, 0.254145966919817500873080, 0.562038259991966437922883));
  ("green"%string, (0.399142632026961485802730, 0.580059247269691602433284, 0.306607866152704744422408));
  ("red"%string, (0.592390812285374823709105, 0.208700744208646676858265, 0.230954901924919936417879));
  ("yellow"%string, (0.891428087854451711713466, 0.777714860177407873997879, 0.206671151772394146028944));
  ("magenta"%string, (0.648029695736690669605196, 0.332653058242766475061103, 0.575441055181410088259497));
  ("cyan"%string, (0.257248593611570708361569, 0.531393588051314869069586, 0.642141762073994204484961));
  ("white_95"%string, (0.960948538256798046042206, 0.960602366540639907022125, 0.939811836137005918168086));
  ("neutral_80"%string, (0.783389511680865568976628, 0.787344874292896457212976, 0.783205098820461964592710));
  ("neutral_65"%string, (0.625925290325061056684319, 0.629153834027097569325804, 0.627667361474672946819453));
  ("neutral_50"%string, (0.468746646853340331873028, 0.472571899069090972655971, 0.471936639827837789429310));
  ("neutral_35"%string, (0.331037808091758145589978, 0.334672623006146807700389, 0.335932078162948566379953));
  ("black_20"%string, (0.209157252034659707495834, 0.208858436350184084595583, 0.210734636918537693306419))
].

(* colorchecker.rs 1195-1220 *)
Definition keyed_ACES_FROM_SRGB : list (string * (Q * Q * Q)) := [
  ("dark_skin"%string, (0.118140705567927536967510, 0.089196809149613018319336, 0.062428568288180774636942));
  ("light_skin"%string, (0.393855403315271468400738, 0.313060028548820923344209, 0.231621557878521566742336));
  ("blue_sky"%string, (0.183306309901641206749900, 0.202323866229910248604185, 0.316851328974875778854425));
  ("foliage"%string, (0.112522128698727852391670, 0.136685444504183684077958, 0.063688761569907145765335));
  ("blue_flower"%string, (0.258187121961573839978854, 0.238666699775326257570995, 0.403553024120275716235540));
  ("bluish_green"%string, (0.324818641404147290252524, 0.472615484936090179957091, 0.412042120838406300542545));
  ("orange"%string, (0.396293098652481912136381, 0.228946334530818085273296, 0.057835009047901946022119));
  ("purplish_blue"%string, (0.138639147777910809455904, 0.129940986904411803770643, 0.355674275674005391234545));
  ("moderate_red"%string, (0.293270660847415487459955, 0.131996346810202225263708, 0.124144272339214392641971));
  ("purple"%string, (0.087272955193884671487581, 0.058389595427380730496836, 0.128558489085314531230608));
  ("yellow_green"%string, (0.359393679910547381162189, 0.450139683577400251390799, 0.103556831697906082112581));
  ("orange_yellow"%string, (0.482798080509090843381870, 0.360420948912465122226934, 0.070879704377737370868395));
  ("blue"%string, (0.080633454638159615668336, 0.070053177109402828270923, 0.260580058225518329528825));
  ("green"%string, (0.155979658642118990119485, 0.257971586228872840074189, 0.090339699873360240767184));
  ("red"%string, (0.208092703866234463028206, 0.068298326586029009521717, 0.046054655558810109194923));
  ("yellow"%string, (0.598920267800101324695561, 0.546257959227757994291608, 0.084341833886034639489182));
  ("magenta"%string, (0.309251535596891335977432, 0.146734076741339591887225, 0.285420122540493037543996));
  ("cyan"%string, (0.150639305788066640845457, 0.236927450457742466705113, 0.361296721689028821344891));
  ("white_95"%string, (0.907952498585217870896713, 0.911232398653798680854266, 0.876243634665864745691977));
  ("neutral_80"%string, (0.585837837626843827010248, 0.589604266169988622259268, 0.584724331773429084613269));
  ("neutral_65"%string, (0.358098996215596321324171, 0.360247672175418864881635, 0.359133045793348149032909));
  ("neutral_50"%string, (0.190152647674579733383382, 0.191869986047256857464305, 0.191750361857769308082666));
  ("neutral_35"%string, (0.088887256441234727133427, 0.089871020577183630129170, 0.090691895333969388404149));
  ("black_20"%string, (0.032109994202633732052199, 0.032007630292466379695604, 0.032511782310262998807460))
].

(* colorchecker.rs 1221-; the spectra themselves are in DataChecker.v *)
Definition keyed_SPECTRAL : list (string * list (Q * Q)) := [
  ("dark_skin"%string, data_spectral_dark_skin);
  ("light_skin"%string, data_spectral_light_skin);
  ("blue_sky"%string, data_spectral_blue_sky);
  ("foliage"%string, data_spectral_foliage);
  ("blue_flower"%string, data_spectral_blue_flower);
  ("bluish_green"%string, data_spectral_bluish_green);
  ("orange"%string, data_spectral_orange);
  ("purplish_blue"%string, data_spectral_purplish_blue);
  ("moderate_red"%string, data_spectral_moderate_red);
  ("purple"%string, data_spectral_purple);
  ("yellow_green"%string, data_spectral_yellow_green);
  ("orange_yellow"%string, data_spectral_orange_yellow);
  ("blue"%string, data_spectral_blue);
  ("green"%string, data_spectral_green);
  ("red"%string, data_spectral_red);
  ("yellow"%string, data_spectral_yellow);
  ("magenta"%string, data_spectral_magenta);
  ("cyan"%string, data_spectral_cyan);
  ("white_95"%string, data_spectral_white_95);
  ("neutral_80"%string, data_spectral_neutral_80);
  ("neutral_65"%string, data_spectral_neutral_65);
  ("neutral_50"%string, data_spectral_neutral_50);
  ("neutral_35"%string, data_spectral_neutral_35);
  ("black_20"%string, data_spectral_black_20)
].

(* all tables of colours, in the order of the file *)
Definition keyed_tables : list (list (string * (Q * Q * Q))) := [
  keyed_XYZ_D65;
  keyed_SRGB_LINEAR;
  keyed_SRGB_ENCODED;
  keyed_ITUR_BT709_LINEAR;
  keyed_ITUR_BT709_ENCODED;
  keyed_ALEXA_WIDE_GAMUT_LINEAR;
  keyed_ALEXA_WIDE_GAMUT_ENCODED;
  keyed_ACES_CC_LINEAR;
  keyed_ACES_CC_ENCODED;
  keyed_ACES_CCT_LINEAR;
  keyed_ACES_CCT_ENCODED;
  keyed_ACES_CG_LINEAR;
  keyed_ACES_CG_ENCODED;
  keyed_ACES_LINEAR;
  keyed_ACES_ENCODED;
  keyed_ACES_PROXY_LINEAR;
  keyed_ACES_PROXY_ENCODED;
  keyed_DCI_P3_P_LINEAR;
  keyed_DCI_P3_P_ENCODED;
  keyed_DCI_P3_LINEAR;
  keyed_DCI_P3_ENCODED;
  keyed_PRO_PHOTO_RGB_LINEAR;
  keyed_PRO_PHOTO_RGB_ENCODED;
  keyed_BETA_RGB_LINEAR;
  keyed_BETA_RGB_ENCODED;
  keyed_RED_COLOR_LINEAR;
  keyed_RED_COLOR_ENCODED;
  keyed_RED_COLOR2_LINEAR;
  keyed_RED_COLOR2_ENCODED;
  keyed_RED_COLOR3_LINEAR;
  keyed_RED_COLOR3_ENCODED;
  keyed_RED_COLOR4_LINEAR;
  keyed_RED_COLOR4_ENCODED;
  keyed_DRAGON_COLOR_LINEAR;
  keyed_DRAGON_COLOR_ENCODED;
  keyed_DRAGON_COLOR2_LINEAR;
  keyed_DRAGON_COLOR2_ENCODED;
  keyed_SHARP_RGB_LINEAR;
  keyed_SHARP_RGB_ENCODED;
  keyed_ITUR_BT2020_LINEAR;
  keyed_ITUR_BT2020_ENCODED;
  keyed_ADOBE_RGB_1998_LINEAR;
  keyed_ADOBE_RGB_1998_ENCODED;
  keyed_ACES_FROM_SRGB
].
