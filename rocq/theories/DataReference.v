(* Reference colours of the colour checker in /repo/src/colorchecker.rs, in the order of NAMES (13-38). *)
From Coq Require Import List QArith.
Import ListNotations.
Open Scope Q_scope.

(* colorchecker.rs 77-102 *)
Definition data_XYZ_D65 : list (Q * Q * Q) := [
  (11.147246585760028025902102, 10.072588850988735131863905, 6.804851374386516660308644);
  (37.194721800912041942410724, 34.567866642655026510055905, 25.242625347936321844599661);
  (17.645512685337042313449274, 18.840745669460680744577985, 34.487464479138445483386022);
  (10.594739901308340535024399, 13.327734791878315334656691, 6.945293240773439791269084);
  (24.805343199506264539877520, 23.448877508726543084094374, 43.924710655835980332994950);
  (30.939729382054277806446407, 42.658530611772086160726758, 44.871428726929195818229346);
  (37.166769794284888916990894, 29.668428952186939540069943, 6.336517033236169105236968);
  (13.562804494926156806400286, 11.813584921599741051068122, 38.700511062732488198889769);
  (27.669109819076627587719486, 18.702493655780408232658374, 13.532572766805648356580605);
  (8.383799018583362183676400, 6.356965302783169846634337, 13.991893682157272138510962);
  (33.656220304027733902785258, 44.207355950053695892165706, 11.323870868734163153135341);
  (45.233538104391215028954321, 42.068383776537778828696901, 7.771898302018611204289300);
  (7.985733783316090850235014, 6.118583084127553917141995, 28.349897691332994753565799);
  (14.650730683595259762341811, 23.442655669347171709659960, 9.856457483347925929706435);
  (19.573640762043474694564793, 11.700774873453577029636108, 5.028973177539572958494318);
  (56.049678312643010258398135, 59.420045497203417994569463, 9.259158982980897789616392);
  (29.443853393777558835608943, 19.261353401754348624308477, 31.073900904962080460336438);
  (14.637434350390281068143850, 19.962492706402244380115008, 39.321383653972105776119861);
  (86.236736258404803834309860, 91.236914549892304648892605, 95.431166160775632079094066);
  (55.675520233910646084041218, 58.862428191470570482124458, 63.679052737888120816478477);
  (34.035295367046018100154470, 35.957858109436315885432123, 39.110894619665202753822086);
  (18.074449247287745379253465, 19.128897801135334333366700, 20.882198295119568598465776);
  (8.450692858420268294139532, 8.948097881616423165951346, 9.876477785169473833093434);
  (3.052587003119916264637368, 3.200794039291807280278590, 3.540580710399631403362264)
].

(* colorchecker.rs 103-128 *)
Definition data_SRGB_LINEAR : list (Q * Q * Q) := [
  (0.172472848088049357517804, 0.083759962817788274902497, 0.057588214119516790978626);
  (0.548095178664651738742464, 0.298520072473280051461586, 0.217013562019778644129886);
  (0.110246043757098066695477, 0.196759632618355467803539, 0.335925928944526275277127);
  (0.103829969922548198679735, 0.150231511017197977286841, 0.052124440704572234939196);
  (0.224377199329057197552117, 0.217743828970848346537892, 0.430265057676509132811304);
  (0.123156994158220900459355, 0.519035322154572931196981, 0.404501028461430711669067);
  (0.716769378172862459130954, 0.199041212317089544203697, 0.027155280754261622300216);
  (0.064957066888961412232106, 0.106249925299062492056734, 0.392519170796692795644134);
  (0.541677032505047506560913, 0.088351388656319862491273, 0.120297901256569333972024);
  (0.104202538462593308210558, 0.043819962336647824696634, 0.139595883056075620309855);
  (0.354647179356588515553028, 0.507845870795907483596920, 0.048256823653753971870017);
  (0.780412155464097700985349, 0.354076329982187187894738, 0.021524542872345529820333);
  (0.023378239923946081413320, 0.049163814407418293672691, 0.291624562823076582951387);
  (0.065266778571410277720588, 0.301876835307849256118118, 0.064520195024281884466077);
  (0.429364630916839962182507, 0.031921153601482038508763, 0.040189183649206192128212);
  (0.856774769327355079084896, 0.575378431243281140972101, 0.007872088455955224273186);
  (0.503137518674846573318860, 0.088918640453356734276724, 0.305558197966204425632952);
  ((-0.028579159222773042881016), 0.248952710982160430042143, 0.383056591034591942257492);
  (0.916274030251293281068570, 0.915478239475917998646537, 0.870617982733549289342534);
  (0.581883905589711813988174, 0.591128119355468828466371, 0.584019498699165695576596);
  (0.355196666232587165978885, 0.360960546872658660788602, 0.359005785106055741451314);
  (0.187552544609087989968543, 0.192362638489200349356523, 0.191769352695837003164314);
  (0.087058873896904476197278, 0.090068395238972281946488, 0.090847286432883908591229);
  (0.032066193029057762919898, 0.031933320110622720466864, 0.032594609229506611713933)
].

(* colorchecker.rs 155-180 *)
Definition data_ITUR_BT709_LINEAR : list (Q * Q * Q) := [
  (0.172494903478921379758049, 0.083742275147121236766878, 0.057580802353872279075730);
  (0.548166740768265214889254, 0.298464057547432659589504, 0.216988329625176945558707);
  (0.110273098930456669997113, 0.196749542671626420631270, 0.335908108250348169665500);
  (0.103844003550475294517241, 0.150221251702132713168325, 0.052118125269136880706178);
  (0.224421285176510387771032, 0.217722049842185322310328, 0.430240604300889062372448);
  (0.123188484025332667393116, 0.519025160746376057474549, 0.404476442342092679105292);
  (0.716851845893850314617168, 0.198966677599440922019625, 0.027134324567005527195640);
  (0.064981437260032082203765, 0.106244414012927529400443, 0.392501385490325371829812);
  (0.541743677218970431930245, 0.088295085198929423864200, 0.120279009337661432765820);
  (0.104220403545023709845907, 0.043809504148107525356437, 0.139587500096980537955815);
  (0.354689491376854459936396, 0.507810498429601908654263, 0.048240251298149502967583);
  (0.780501597154235060571636, 0.353995635316927736990777, 0.021500394584380130152956);
  (0.023393524095718709610026, 0.049162229966367182454334, 0.291612313280338930621127);
  (0.065276975492802036260542, 0.301871183593432124148137, 0.064512544950775421725986);
  (0.429415067688915130794669, 0.031876259266901685318629, 0.040176761147720146949425);
  (0.856872280066656610841846, 0.575290451538240987794381, 0.007843951848158753348272);
  (0.503207817704942828029857, 0.088866832232108616818067, 0.305533197128576683443413);
  ((-0.028565807124527942129077), 0.248957498257709852751418, 0.383039755082404953512309);
  (0.916415661839609096972481, 0.915387263895882208331045, 0.870551523454819897729351);
  (0.581975197851302139540053, 0.591070453558429576013111, 0.583975993303848417426138);
  (0.355252501874878001686398, 0.360925352648451103210192, 0.358979131579965304865709);
  (0.187582122734965328625378, 0.192344066513187333944401, 0.191755174044448584158573);
  (0.087072682904792975122632, 0.090059781523777859835178, 0.090840626034524529774927);
  (0.032071241713950954244083, 0.031930141044387530535609, 0.032592203788710867595757)
].

(* colorchecker.rs 1091-1116 *)
Definition data_ITUR_BT2020_LINEAR : list (Q * Q * Q) := [
  (0.138292886347363475074701, 0.089577586278710943923365, 0.061766967577830247937420);
  (0.451599530270104354556793, 0.314792083171821945875024, 0.229587768634340883000533);
  (0.148521269053716653552044, 0.192355418351632195816947, 0.319961820110954031637363);
  (0.116874838369719194486329, 0.145902030886385869479227, 0.061600367511714569646042);
  (0.231130006299789136914313, 0.220599651724015632936471, 0.408162468548940005064196);
  (0.265714231453095306445533, 0.490372380670155205706351, 0.409947539586885567608476);
  (0.516447263840033476967051, 0.232798725507760401187696, 0.053563320949666523573818);
  (0.092754528649379636151551, 0.106645796211432830613575, 0.361938439315873716761729);
  (0.374175820245569390465334, 0.119990565209934230139766, 0.124372410716929351903737);
  (0.085859976416594638304325, 0.049071993358407041407876, 0.130578044250345776111644);
  (0.391836385753276561505487, 0.492008469725660035898329, 0.093711692937229112976283);
  (0.607185749210428116207083, 0.379688125325511938168432, 0.063205522392775451145930);
  (0.043496099894424836151963, 0.050136476596127105276324, 0.265876987564680811182427);
  (0.143150325368506609047259, 0.282826221381173525948327, 0.085415794007454678982150);
  (0.281653176639313385098973, 0.059439426265292916173877, 0.045826382429685161290500);
  (0.727378140266214168185854, 0.588299486425612472295654, 0.071703591274500558250260);
  (0.358210465258201993243858, 0.119958502808858780142032, 0.289703845108650548390017);
  (0.080645808845583782931143, 0.231304875035945323169528, 0.364491924718032989094496);
  (0.914090511401480121378427, 0.914948885574634496187230, 0.875249444503058304789533);
  (0.585056771870232195098538, 0.590361386546861766078109, 0.584567604302095533697070);
  (0.357281887171073564424262, 0.360511260459121407606631, 0.359089340111041877001696);
  (0.189330897696327604684541, 0.192008337923971317273697, 0.191738602103143973565125);
  (0.088219484982271223483252, 0.089862253307899556120653, 0.090710139316699925360332);
  (0.032047344121324691790242, 0.031947413284006680178617, 0.032525394138556006085050)
].

(* colorchecker.rs 571-596 *)
Definition data_DCI_P3_LINEAR : list (Q * Q * Q) := [
  (0.161428201361069834085527, 0.086874768666696647323455, 0.061131565968838605384938);
  (0.517014989518822520864205, 0.307276232445176489260774, 0.227609161943648358183978);
  (0.121286146851254661438446, 0.193711762260066810981129, 0.323338047552597096512272);
  (0.109400523289900075685210, 0.148570246296172131517110, 0.059221221445429510221725);
  (0.224020275298980831024664, 0.217985624691665325070034, 0.413317236428881407128699);
  (0.172077753710151992727617, 0.505024997015967036517736, 0.407172764015884758315167);
  (0.652237115620557084127995, 0.217242831388609114462440, 0.049390520243757736473800);
  (0.070681595169633071318316, 0.104822716952273409241059, 0.368882248744346330493471);
  (0.485537890501885005534177, 0.104320347242497141193596, 0.125143962554192106351181);
  (0.096917674393336594729220, 0.045956051564526548269818, 0.132900660715596391492355);
  (0.372760406200442040436371, 0.502342313409118945699561, 0.082565833268425092850151);
  (0.726901212098610582934555, 0.369022865229260033093084, 0.055136553288661030447493);
  (0.027082220947711344027908, 0.048282435108141411039817, 0.271758075988784819632116);
  (0.094156426208207133488060, 0.293481832521945706915290, 0.079660660666405258556466);
  (0.380099430194843490582457, 0.045923125060195801871998, 0.046023995030122485938584);
  (0.820780453226664152843739, 0.585167516124971642810237, 0.057937023367669565621085);
  (0.452229040368868573374073, 0.103533704167815820973431, 0.294955403654097114696242);
  (0.006144858033733435753732, 0.239169020213060357082924, 0.367746811151287045227321);
  (0.916197255110247077425356, 0.915417928669595037938223, 0.874161903248938498833809);
  (0.583089504965461191687837, 0.590748203301063257164571, 0.584395606914952736588020);
  (0.355952531481381839739697, 0.360724673699477693666893, 0.359042185886434273012213);
  (0.188171862102078590872622, 0.192175743338107996027730, 0.191724362584806795606340);
  (0.087444947041361575923446, 0.089954340300412063968771, 0.090729107388934998601471);
  (0.032055072486571266343613, 0.031935210137468972302344, 0.032541451750316266466889)
].

(* colorchecker.rs 415-440 *)
Definition data_ACES_LINEAR : list (Q * Q * Q) := [
  (0.118137965745441650411429, 0.089191271995620102774893, 0.062426737695059311694656);
  (0.393845863985204713841881, 0.313041470836910362685046, 0.231615172023251714161773);
  (0.183299719420037893202746, 0.202316671964609506861876, 0.316847249155878751825099);
  (0.112518588899497368194247, 0.136678789446372794813556, 0.063686136314056271401363);
  (0.258178887765929565567546, 0.238657240151752714218958, 0.403548094145784852493364);
  (0.324805790708195651905754, 0.472597395803177611206536, 0.412033057457122597888599);
  (0.396285979506116492476764, 0.228927528739749946984361, 0.057830167747970964708948);
  (0.138633925033693122808032, 0.129937866319510986201635, 0.355671501121427868774560);
  (0.293265597966656521577988, 0.131984649258096109480931, 0.124141268708843552359689);
  (0.087270606011186996342488, 0.058386905743434171223161, 0.128557206689700248558594);
  (0.359382689243750830243584, 0.450116605740338127095157, 0.103548285875178752712955);
  (0.482787976337926860725958, 0.360395771790454344518650, 0.070872421541996563632004);
  (0.080630216247321528921788, 0.070052292504573843157090, 0.260578500830628279061330);
  (0.155973539594779331274310, 0.257960480745810072367163, 0.090334895698233289018653);
  (0.208089788900772482138635, 0.068290126085594524130151, 0.046052984457560758313477);
  (0.598906015150443060690577, 0.546223910205388074601274, 0.084331117607613997888549);
  (0.309245208564270901430149, 0.146723764602708584003921, 0.285416719230579263300029);
  (0.150632092062669559195953, 0.236921026642433224518314, 0.361292098180090281989152);
  (0.907925288711187827850324, 0.911189280172333360141579, 0.876225454758221888873493);
  (0.585820144905132345058973, 0.589576678454411862162488, 0.584712560025156480314479);
  (0.358088174562741390349885, 0.360230837985224372488346, 0.359125851611708568622561);
  (0.190146885400545417876828, 0.191861046079931651942019, 0.191746531182468954446207);
  (0.088884553821087355918174, 0.089866851812723164139030, 0.090690100863904721251174);
  (0.032109027307168060139109, 0.032006133498748361165820, 0.032511142019034870720429)
].

(* colorchecker.rs 363-388 *)
Definition data_ACES_CG_LINEAR : list (Q * Q * Q) := [
  (0.136958104436062544362329, 0.089643073115727486821491, 0.062728584827155445258207);
  (0.447824981857304127430552, 0.314971831410518821048328, 0.232473106477556035187604);
  (0.150098826259045081688015, 0.192356550046498847583720, 0.316427548033242189706726);
  (0.117299930985775860414755, 0.145803954290654375069991, 0.063651909722611255126878);
  (0.231551971660423655530181, 0.220727135722761091951583, 0.403333878046831906249992);
  (0.271103856135971432728127, 0.489948207379747091572142, 0.410942311229957446538918);
  (0.508611875064928109502205, 0.233169895804646809533978, 0.059612680274470669639086);
  (0.094043060653694221517895, 0.106771941023048849706001, 0.355228311242934413627381);
  (0.367759925709379043023972, 0.120419780285278554821105, 0.125500416933984448863981);
  (0.085228241514191227512498, 0.049181459740360887467059, 0.128637160007779804971051);
  (0.392909265156374920557880, 0.491607147792077481263107, 0.103585186757195524265285);
  (0.600267468885434807290835, 0.379884694876196471469143, 0.072551437360750231642115);
  (0.044455981533757613077817, 0.050251636192610173170525, 0.260231363972776741366744);
  (0.145960151783498526256722, 0.282476201416323513537776, 0.089869563477841432619364);
  (0.275980250109460201191069, 0.059804442076006103512498, 0.047266362133347110396908);
  (0.721962745629650237688679, 0.588230488320747424424439, 0.085824053751429069114565);
  (0.352804699764549756224596, 0.120457786064671945602811, 0.286451538769856239863287);
  (0.084946977963370834396883, 0.231129968399615637331124, 0.360290480546477331902366);
  (0.913966519556086209874479, 0.914924202723351731592061, 0.876278157761282150417514);
  (0.585169735947568048217704, 0.590349090781268626138001, 0.584692428315315426701204);
  (0.357358385170980008549435, 0.360505007494525742117730, 0.359110556360598354164182);
  (0.189397658387073564156822, 0.192003685925913519794150, 0.191732537485383575104336);
  (0.088264166141273359134090, 0.089859992318327447380355, 0.090680051875290587637402);
  (0.032046936856974447827007, 0.031947919397201728075597, 0.032510844411955473753917)
].

(* colorchecker.rs 1143-1168 *)
Definition data_ADOBE_RGB_1998_LINEAR : list (Q * Q * Q) := [
  (0.147211573160323960784979, 0.083743268491267994213523, 0.058657083474455466720610);
  (0.477032915135633728276332, 0.298467521367658195075023, 0.220340003396441219685187);
  (0.134908289026618555261905, 0.196752359621550909629661, 0.330178043483405347924275);
  (0.117055606614610924198772, 0.150222313226624187842972, 0.056155759535428388662393);
  (0.222513248370880489801493, 0.217725708722128402650142, 0.421490231871535003804752);
  (0.235952181031165053592957, 0.519029569433950177526071, 0.409188945804021708685383);
  (0.569319589851714047412656, 0.198969083539227487023027, 0.034206081318847031402797);
  (0.076736652335874344643685, 0.106247115164784106111640, 0.380716259966453973717648);
  (0.412567981651752235805475, 0.088297227465809979829459, 0.118961075825483084122958);
  (0.087011057635740018945114, 0.043810659397208656651301, 0.135644185548879386837839);
  (0.398309266205813861105867, 0.507813386474510242152292, 0.067156109404506350579744);
  (0.659000750393075374056195, 0.353998715344033543228619, 0.035185228475922376845109);
  (0.030734733751841547544359, 0.049164074442412844523353, 0.281630984075209422901054);
  (0.132676337883488509872265, 0.301872789212652925527891, 0.074282130387339023736004);
  (0.316166565086370976445096, 0.031877511924082446714834, 0.039834287184627462097275);
  (0.776656329637308795454942, 0.575294431909753156695331, 0.031199715162256402151142);
  (0.385173135057095050726161, 0.088869919993143864367369, 0.296612435826710818531637);
  (0.050493710043351347493967, 0.248960472773162327930763, 0.377518555249423348740834);
  (0.916123033773577510885389, 0.915397396027070819890525, 0.872390774806222957238333);
  (0.584566449515546260329302, 0.591077096146241598439985, 0.584263859591231837775638);
  (0.356868705557576548770271, 0.360929421763968694136793, 0.359056691749457423945557);
  (0.188938760738741273748076, 0.192346233806998639925823, 0.191778054973977013508701);
  (0.087923670618486604588782, 0.090060800536323482035073, 0.090807843999195420048309);
  (0.032031060712632578035830, 0.031930507013105145774912, 0.032564721066077467748201)
].

(* colorchecker.rs 207-232 *)
Definition data_ALEXA_WIDE_GAMUT_LINEAR : list (Q * Q * Q) := [
  (0.137213058279945870898686, 0.082558893532934288228553, 0.063469252755507021834802);
  (0.448131976818098742842977, 0.293795375618616849688891, 0.234863097684776228613046);
  (0.155775724839095436324854, 0.217242203002425360303107, 0.311283282936990757239215);
  (0.111340172657689029378503, 0.131822023876567079314626, 0.067613142864402342446795);
  (0.242752350675949690739230, 0.254127078545603679593512, 0.395044704205923580264681);
  (0.257913305024443706425785, 0.484960588711348228319054, 0.416633640996035892190008);
  (0.509099934908257334420512, 0.188798953825366405689934, 0.064681018666482778534110);
  (0.108212525485730737262458, 0.153429608581970855496479, 0.344220218749182182982338);
  (0.377697315249863829755839, 0.110432750805009693984005, 0.122840615085597376632265);
  (0.091322757592163850137723, 0.062329728029740794070790, 0.124722324140150442328689);
  (0.366160123505095913554186, 0.423979758040928855766794, 0.121941902531434484546757);
  (0.590713892603681900439483, 0.313127627136588426726149, 0.084155337905881547055920);
  (0.056624462963746347021754, 0.089464529510759588371016, 0.250879279269294042098437);
  (0.129272051429859369253705, 0.252774797409109630574875, 0.099842019832596468065233);
  (0.283663366433296038060519, 0.047925808781932033308948, 0.045702544496744608448768);
  (0.697518460534604978207085, 0.489110977130075175178803, 0.107020727433860110555663);
  (0.371655973159687069706791, 0.140986944408081960045109, 0.276728785537252885973203);
  (0.086874895119720990654955, 0.261552123501663402738160, 0.355939957227403791506504);
  (0.911648134646781072021327, 0.907796105182375190345567, 0.878018053705698742206209);
  (0.584634072022727657724772, 0.589528143623551104113290, 0.584996040404322070749288);
  (0.357153492842366526716091, 0.360385128213985994616309, 0.359203500928521990420705);
  (0.189280123393807092613272, 0.192068421919942611264531, 0.191770056255532700406619);
  (0.088250396368890440812471, 0.090082598358478982447650, 0.090658877413833022229639);
  (0.032084024421541845750738, 0.032047962437922267175949, 0.032484604215990184328255)
].

(* colorchecker.rs 129-154 *)
Definition data_SRGB_ENCODED : list (Q * Q * Q) := [
  (0.452246936219735384820950, 0.320420218319113270233345, 0.266162475996208403028476);
  (0.766187730821718981921720, 0.582516506513112930498721, 0.503198490520271768389193);
  (0.365956333997268901114808, 0.480869609162119904244292, 0.614659337914013947923308);
  (0.355569732510694236360393, 0.423890502831751170287333, 0.253096226815998526227247);
  (0.511013679614789051441903, 0.503980382003520466227542, 0.687407741927910209689401);
  (0.385836023860504695459639, 0.747757750263048914796116, 0.668550706970759023306528);
  (0.863319685762475974577512, 0.483449998047262463618523, 0.179796571015514633495869);
  (0.282686316071752985479293, 0.359530086358149369996084, 0.659542102062758539560150);
  (0.762167279620770132808616, 0.328861628345550882634996, 0.381542616746955054463086);
  (0.356182936878738642949571, 0.231604140077007469855630, 0.409461136578770257266058);
  (0.629963882521570095462948, 0.740501058722563332281652, 0.243356335820451685769683);
  (0.896453285511323971768149, 0.629504276758887537646103, 0.158128535146370680086747);
  (0.165592485644282999546206, 0.245680165554016449735997, 0.576338830757840758778343);
  (0.283356247800201133113518, 0.585493713543917215780255, 0.281738150881347404475008);
  (0.686759989779952784161310, 0.196160805443987840135378, 0.221459352518039609414302);
  (0.934191186590817124191233, 0.782978964946976607741647, 0.085159738509608035039733);
  (0.737419679935916061452872, 0.329886606665286907791312, 0.588736698017782611458415);
  ((-0.369242737158227696259161), 0.536063967421520293221704, 0.652313614783015305320646);
  (0.962254688805857738564953, 0.961886473335449854182855, 0.940819531800798358744942);
  (0.786913752015429235342481, 0.792461155347229495582440, 0.788199850671958190950761);
  (0.630405881331986273075074, 0.635018417755186859174898, 0.633458969622580303493464);
  (0.470275357040106423145431, 0.475847074765247624039688, 0.475164276285760578399930);
  (0.326511729828716679158163, 0.331952482017977279493692, 0.333343263685585089461938);
  (0.196635674178738062423122, 0.196200687704149889789562, 0.198355226266496709186526)
].

(* colorchecker.rs 181-206 *)
Definition data_ITUR_BT709_ENCODED : list (Q * Q * Q) := [
  (0.399364401721517880972101, 0.261016854025742595091231, 0.205174402005976003193766);
  (0.739510295218352764479164, 0.538821434392025677695415, 0.453578600192821257408582);
  (0.308482538632948055656868, 0.429760338114109630147652, 0.573662026937474700538644);
  (0.297615180559450354103035, 0.369302861827300543673402, 0.191832305355082138875744);
  (0.462017634545860866879252, 0.454418635151685901263363, 0.652913392335445097458546);
  (0.329306082781160580630342, 0.719149138945576194004161, 0.632306859418109268311525);
  (0.847108460125044704369657, 0.432433403892202528062683, 0.117810968477395916487183);
  (0.222183246199042089275011, 0.301714852545919454129830, 0.622483211507415590268977);
  (0.735074656929566971896861, 0.269696598474792548216783, 0.324724056687833551038125);
  (0.298261456112456802003408, 0.169969753147391350323048, 0.354083900577594423708661);
  (0.590333583181095966629925, 0.711146287644402907979213, 0.181887229883310880262925);
  (0.884028028224794204525949, 0.589726432028825464648492, 0.096253391447573000139215);
  (0.103810639846817098774778, 0.184290428107921816502923, 0.532190318075471235914620);
  (0.222839765522818950005401, 0.542087690845776459802607, 0.221138253274817092597360);
  (0.652263809401795180420436, 0.134108441151345098019121, 0.159694030844691997605977);
  (0.926203156186145459827230, 0.757933097590480331362528, 0.035297783316714390067226);
  (0.707833669549199684389862, 0.270769049729344568611111, 0.545575767625020247031387);
  ((-0.128546132060375739580849), 0.488833100744794801784110, 0.614604245882647060028603);
  (0.957669856885714709804347, 0.957136086332364799389438, 0.933536013853776047710653);
  (0.762399681620651747948614, 0.768431831507482732135372, 0.763731071874368394603039);
  (0.590825759438441511228746, 0.595761137731991907706686, 0.594072765732311158792811);
  (0.418527990039832431534705, 0.424399314548215111919660, 0.423677594195949747124530);
  (0.267390799285208036195627, 0.272994563120933730893114, 0.274442503452094421767526);
  (0.134749015917235231976079, 0.134285673636640373596052, 0.136450094805407012854559)
].

(* colorchecker.rs 1117-1142 *)
Definition data_ITUR_BT2020_ENCODED : list (Q * Q * Q) := [
  (0.352188083563413134591258, 0.272096965079309915935823, 0.214933757796157087760491);
  (0.669487413872187242525058, 0.554293599244388812685713, 0.467793196617251050284381);
  (0.366910593899510861781721, 0.424413214907414904075722, 0.559099959088948494922988);
  (0.319284867232704994144399, 0.363195054411290130236267, 0.214552435776247107934722);
  (0.469503367344256128390612, 0.457698258252790313171943, 0.635298384886838207741278);
  (0.506319074522264322979481, 0.698506796776268368276419, 0.636741782767695552180953);
  (0.717318020506997222618395, 0.471346737571071372485676, 0.195434072130398261979423);
  (0.277962802653466345415012, 0.302395385876579436690292, 0.596638022175645876821193);
  (0.607125290052838995080720, 0.324266490245625649269101, 0.331153554517000459078702);
  (0.265085628650729265842756, 0.184056320801139594589557, 0.340682584875743654784230);
  (0.621932883645993972443478, 0.699703068606083555813768, 0.279708362416542843931211);
  (0.778995720184800344298992, 0.611787610432609874067111, 0.218203122448601072314034);
  (0.169102173772680441921068, 0.186803081480873600650483, 0.506485893795940445016868);
  (0.359251869274101021112244, 0.523560474555321397893692, 0.264236827982567701322836);
  (0.522397192323515779932563, 0.209554060763110949761057, 0.175473045505328939519529);
  (0.853335125055805776561613, 0.766599513333642623713615, 0.236730734779945883872188);
  (0.593404551166268445783203, 0.324215591478807574343790, 0.530328078837397964839795);
  (0.254964333443194746120497, 0.469696880752472067932501, 0.598842238181823915965651);
  (0.956462561052563442487440, 0.956908454075041436936999, 0.936039733879866719945539);
  (0.764449211356069469047725, 0.767963407400204967068191, 0.764124267115193767097026);
  (0.592596269941806363945602, 0.595402327545108023265641, 0.594168507335836482141644);
  (0.420693595468656811320329, 0.423988009731831705373395, 0.423657266740668059235020);
  (0.269554506206388211353442, 0.272627188184001501003451, 0.274201016262776153809000);
  (0.134670620675863300652608, 0.134342452122747785248080, 0.136232783729566209185435)
].

(* colorchecker.rs 597-622 *)
Definition data_DCI_P3_ENCODED : list (Q * Q * Q) := [
  (0.495880117379474072425438, 0.390734876349898008207617, 0.341333604180008742812191);
  (0.775905620635894521797127, 0.635178453288273936472308, 0.565933346338020171195637);
  (0.444242078039073617912180, 0.531899066005904974652196, 0.647748574603840832075718);
  (0.426964804370216777229530, 0.480299624858860962905993, 0.337190948435730886156847);
  (0.562484436327863601690069, 0.556607654922397498964415, 0.711896302492679655671282);
  (0.508215577192005385498419, 0.768934889973331148205204, 0.707807063549614423614287);
  (0.848432904674958465740531, 0.555877404368063876560768, 0.314452629741611255909106);
  (0.360932106561589360893549, 0.420002699358165865195502, 0.681425478756686353598582);
  (0.757384804124431765259828, 0.419227366165174697432150, 0.449624494374150807107782);
  (0.407525692422479490772957, 0.305855592708108914301590, 0.460145367208704858530410);
  (0.684172003210275492257608, 0.767361327138231241740129, 0.383164051727551080439582);
  (0.884547796606649838757619, 0.681525373484810681468105, 0.328048693933394086563737);
  (0.249566483896737301151347, 0.311720284288229954050564, 0.605867796084387455479714);
  (0.403020288938643667098205, 0.624055976882369689562324, 0.377921414563734348046609);
  (0.689321790059775341141801, 0.305771289953643887749024, 0.306029433068807532603017);
  (0.926851989790132613222795, 0.813752598308968622120574, 0.334359690747933757659638);
  (0.736962783757402539741577, 0.418008669672832178232369, 0.625259267201761281818051);
  (0.141067716397365539027220, 0.576820060205347817650079, 0.680617997710531996702343);
  (0.966897370926785515443669, 0.966580960228243468712606, 0.949588260202515410668411);
  (0.812639939806089950380397, 0.816728761570863159846567, 0.813339568480946351058947);
  (0.672138069975136254186054, 0.675589698778722991256984, 0.674376002162647147919472);
  (0.525996155886863103745554, 0.530272920892169485895806, 0.529793535583965247148797);
  (0.391719229824002812545558, 0.396005134128991909125972, 0.397313500493816140757275);
  (0.266283899967721893187189, 0.265900494786960428506006, 0.267830699367499924790081)
].

(* colorchecker.rs 441-466 *)
Definition data_ACES_ENCODED : list (Q * Q * Q) := [
  (0.118137965745441650411429, 0.089191271995620102774893, 0.062426737695059311694656);
  (0.393845863985204713841881, 0.313041470836910362685046, 0.231615172023251714161773);
  (0.183299719420037893202746, 0.202316671964609506861876, 0.316847249155878751825099);
  (0.112518588899497368194247, 0.136678789446372794813556, 0.063686136314056271401363);
  (0.258178887765929565567546, 0.238657240151752714218958, 0.403548094145784852493364);
  (0.324805790708195651905754, 0.472597395803177611206536, 0.412033057457122597888599);
  (0.396285979506116492476764, 0.228927528739749946984361, 0.057830167747970964708948);
  (0.138633925033693122808032, 0.129937866319510986201635, 0.355671501121427868774560);
  (0.293265597966656521577988, 0.131984649258096109480931, 0.124141268708843552359689);
  (0.087270606011186996342488, 0.058386905743434171223161, 0.128557206689700248558594);
  (0.359382689243750830243584, 0.450116605740338127095157, 0.103548285875178752712955);
  (0.482787976337926860725958, 0.360395771790454344518650, 0.070872421541996563632004);
  (0.080630216247321528921788, 0.070052292504573843157090, 0.260578500830628279061330);
  (0.155973539594779331274310, 0.257960480745810072367163, 0.090334895698233289018653);
  (0.208089788900772482138635, 0.068290126085594524130151, 0.046052984457560758313477);
  (0.598906015150443060690577, 0.546223910205388074601274, 0.084331117607613997888549);
  (0.309245208564270901430149, 0.146723764602708584003921, 0.285416719230579263300029);
  (0.150632092062669559195953, 0.236921026642433224518314, 0.361292098180090281989152);
  (0.907925288711187827850324, 0.911189280172333360141579, 0.876225454758221888873493);
  (0.585820144905132345058973, 0.589576678454411862162488, 0.584712560025156480314479);
  (0.358088174562741390349885, 0.360230837985224372488346, 0.359125851611708568622561);
  (0.190146885400545417876828, 0.191861046079931651942019, 0.191746531182468954446207);
  (0.088884553821087355918174, 0.089866851812723164139030, 0.090690100863904721251174);
  (0.032109027307168060139109, 0.032006133498748361165820, 0.032511142019034870720429)
].

(* colorchecker.rs 389-414 *)
Definition data_ACES_CG_ENCODED : list (Q * Q * Q) := [
  (0.136958104436062544362329, 0.089643073115727486821491, 0.062728584827155445258207);
  (0.447824981857304127430552, 0.314971831410518821048328, 0.232473106477556035187604);
  (0.150098826259045081688015, 0.192356550046498847583720, 0.316427548033242189706726);
  (0.117299930985775860414755, 0.145803954290654375069991, 0.063651909722611255126878);
  (0.231551971660423655530181, 0.220727135722761091951583, 0.403333878046831906249992);
  (0.271103856135971432728127, 0.489948207379747091572142, 0.410942311229957446538918);
  (0.508611875064928109502205, 0.233169895804646809533978, 0.059612680274470669639086);
  (0.094043060653694221517895, 0.106771941023048849706001, 0.355228311242934413627381);
  (0.367759925709379043023972, 0.120419780285278554821105, 0.125500416933984448863981);
  (0.085228241514191227512498, 0.049181459740360887467059, 0.128637160007779804971051);
  (0.392909265156374920557880, 0.491607147792077481263107, 0.103585186757195524265285);
  (0.600267468885434807290835, 0.379884694876196471469143, 0.072551437360750231642115);
  (0.044455981533757613077817, 0.050251636192610173170525, 0.260231363972776741366744);
  (0.145960151783498526256722, 0.282476201416323513537776, 0.089869563477841432619364);
  (0.275980250109460201191069, 0.059804442076006103512498, 0.047266362133347110396908);
  (0.721962745629650237688679, 0.588230488320747424424439, 0.085824053751429069114565);
  (0.352804699764549756224596, 0.120457786064671945602811, 0.286451538769856239863287);
  (0.084946977963370834396883, 0.231129968399615637331124, 0.360290480546477331902366);
  (0.913966519556086209874479, 0.914924202723351731592061, 0.876278157761282150417514);
  (0.585169735947568048217704, 0.590349090781268626138001, 0.584692428315315426701204);
  (0.357358385170980008549435, 0.360505007494525742117730, 0.359110556360598354164182);
  (0.189397658387073564156822, 0.192003685925913519794150, 0.191732537485383575104336);
  (0.088264166141273359134090, 0.089859992318327447380355, 0.090680051875290587637402);
  (0.032046936856974447827007, 0.031947919397201728075597, 0.032510844411955473753917)
].

(* colorchecker.rs 1169-1194 *)
Definition data_ADOBE_RGB_1998_ENCODED : list (Q * Q * Q) := [
  (0.418463364547275284976990, 0.323785847424073791600563, 0.275389123339520647260059);
  (0.714222793944291223233733, 0.577074739685649262810330, 0.502689711377264258906905);
  (0.402181917771504526815107, 0.477463865684008004208749, 0.604187127462217032913827);
  (0.377043526722328214972890, 0.422333420068089548937706, 0.269985802946620112585663);
  (0.504938161999750612096705, 0.499968865074826906980121, 0.675131363133783302110658);
  (0.518583538162323165465750, 0.742157148948041189839842, 0.666099497111179439379214);
  (0.774031680945797551096632, 0.479902436284782463182808, 0.215499678622900675550866);
  (0.311173834566703555459810, 0.360794295076205306926909, 0.644609294009374278466851);
  (0.668595038745943837099617, 0.331676597621148039340966, 0.379822069287891195266127);
  (0.329470970805264828928927, 0.241166466579448068863201, 0.403177982730176964754065);
  (0.657987208760340447355475, 0.734821130120861143453226, 0.292865129397484325046719);
  (0.827267891030546542729951, 0.623631354861200803973986, 0.218283039795295591423141);
  (0.205264873940706332744455, 0.254145966919817500873080, 0.562038259991966437922883);
  (0.399142632026961485802730, 0.580059247269691602433284, 0.306607866152704744422408);
  (0.592390812285374823709105, 0.208700744208646676858265, 0.230954901924919936417879);
  (0.891428087854451711713466, 0.777714860177407873997879, 0.206671151772394146028944);
  (0.648029695736690669605196, 0.332653058242766475061103, 0.575441055181410088259497);
  (0.257248593611570708361569, 0.531393588051314869069586, 0.642141762073994204484961);
  (0.960948538256798046042206, 0.960602366540639907022125, 0.939811836137005918168086);
  (0.783389511680865568976628, 0.787344874292896457212976, 0.783205098820461964592710);
  (0.625925290325061056684319, 0.629153834027097569325804, 0.627667361474672946819453);
  (0.468746646853340331873028, 0.472571899069090972655971, 0.471936639827837789429310);
  (0.331037808091758145589978, 0.334672623006146807700389, 0.335932078162948566379953);
  (0.209157252034659707495834, 0.208858436350184084595583, 0.210734636918537693306419)
].

(* colorchecker.rs 1195-1220 *)
Definition data_ACES_FROM_SRGB : list (Q * Q * Q) := [
  (0.118140705567927536967510, 0.089196809149613018319336, 0.062428568288180774636942);
  (0.393855403315271468400738, 0.313060028548820923344209, 0.231621557878521566742336);
  (0.183306309901641206749900, 0.202323866229910248604185, 0.316851328974875778854425);
  (0.112522128698727852391670, 0.136685444504183684077958, 0.063688761569907145765335);
  (0.258187121961573839978854, 0.238666699775326257570995, 0.403553024120275716235540);
  (0.324818641404147290252524, 0.472615484936090179957091, 0.412042120838406300542545);
  (0.396293098652481912136381, 0.228946334530818085273296, 0.057835009047901946022119);
  (0.138639147777910809455904, 0.129940986904411803770643, 0.355674275674005391234545);
  (0.293270660847415487459955, 0.131996346810202225263708, 0.124144272339214392641971);
  (0.087272955193884671487581, 0.058389595427380730496836, 0.128558489085314531230608);
  (0.359393679910547381162189, 0.450139683577400251390799, 0.103556831697906082112581);
  (0.482798080509090843381870, 0.360420948912465122226934, 0.070879704377737370868395);
  (0.080633454638159615668336, 0.070053177109402828270923, 0.260580058225518329528825);
  (0.155979658642118990119485, 0.257971586228872840074189, 0.090339699873360240767184);
  (0.208092703866234463028206, 0.068298326586029009521717, 0.046054655558810109194923);
  (0.598920267800101324695561, 0.546257959227757994291608, 0.084341833886034639489182);
  (0.309251535596891335977432, 0.146734076741339591887225, 0.285420122540493037543996);
  (0.150639305788066640845457, 0.236927450457742466705113, 0.361296721689028821344891);
  (0.907952498585217870896713, 0.911232398653798680854266, 0.876243634665864745691977);
  (0.585837837626843827010248, 0.589604266169988622259268, 0.584724331773429084613269);
  (0.358098996215596321324171, 0.360247672175418864881635, 0.359133045793348149032909);
  (0.190152647674579733383382, 0.191869986047256857464305, 0.191750361857769308082666);
  (0.088887256441234727133427, 0.089871020577183630129170, 0.090691895333969388404149);
  (0.032109994202633732052199, 0.032007630292466379695604, 0.032511782310262998807460)
].
