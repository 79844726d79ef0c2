(** The coefficient tables of pywt/_extensions/c/wavelets_coeffs.template.h, as
    the exact decimal numbers written there: a table is its list of integer
    mantissas with the common exponent [E], the value of mantissa z being
    z / 10^E. The line numbers refer to that file.

    Simplification: the compiler rounds each literal to float or double; the
    model keeps the literal. *)
From Verif Require Import Base Instances Filters.
From Coq Require Import QArith Qcanon.
Open Scope Z_scope.

Definition dec (E : positive) (z : Z) : Qcring := Q2Qc (z # (10 ^ E)%positive)%Q.
Definition dtab (t : positive * list Z) : list Qcring := map (dec (fst t)) (snd t).

(** lines 35-38 *)
Definition db1_z : positive * list Z := (61%positive,
  [7071067811865475244008443621048490392848359376884740365883398;
   7071067811865475244008443621048490392848359376884740365883398]).

(** lines 40-45 *)
Definition db2_z : positive * list Z := (61%positive,
  [4829629131445341433748715998644486838169524195042022752011715;
   8365163037378079055752937809168732034593703883484392934953414;
   2241438680420133810259727622404003554678835181842717613871683;
   (-1294095225512603811744494188120241641745344506599652569070016)]).

(** lines 48-55 *)
Definition db3_z : positive * list Z := (62%positive,
  [33267055295008261599851158913900563001292339924506835970847050;
   80689150931109257649449360408871349051929739499482361816509200;
   45987750211849157009515194214761672080811017743149230664338670;
   (-13501102001025458869638990669937448056221984522378119197568620);
   (-8544127388202666169281916918177331153619763898808662976351748);
   3522629188570953660274066471551002932775838791743161039893406]).

(** lines 58-67 *)
Definition db4_z : positive * list Z := (62%positive,
  [23037781330889650086329118304407085000161524824830929779109680;
   71484657055291564708992195527399260370760840109930817584501100;
   63088076792985890788171633830061522020322292267719511740574730;
   (-2798376941685985421141374718007538541198732022449175284003358);
   (-18703481171909308407957067278908141958454417437458009120577700);
   3084138183556076362721936253495905017031482172003403341821219;
   3288301166688519973540751354924438866454194113754971259727278;
   (-1059740178506903210488320852402722918109996490637641983484974)]).

(** lines 70-81 *)
Definition db5_z : positive * list Z := (63%positive,
  [160102397974192914480723748020420733650544124625057832772569900;
   603829269797189670540119306525062107507422163101698698796928300;
   724308528437772927728071244102218640768756218232007372576733500;
   138428145901320731505397146339024697314105791173956102269465200;
   (-242294887066382031862571379474616361991490808062618598391372600);
   (-32244869584638374648479755062134928313564984163798472254342680);
   77571493840045713523130489388601819806230994520125279832101460;
   (-6241490212798274274190519112920192970763557165687607323417435);
   (-12580751999081999468509739931775792949204591626097850201692320);
   3335725285473771277998183415817355747636524742305315099706428]).

(** lines 84-97 *)
Definition db6_z : positive * list Z := (64%positive,
  [1115407433501094636213239172409234390425395919844216759082360000;
   4946238903984530856772041768778555886377863828962743623531834000;
   7511339080210953506789344984397316855802547833382612009730420000;
   3152503517091976290859896548109263966495199235172945244404163000;
   (-2262646939654398200763145006609034656705401539728969940143487000);
   (-1297668675672619355622896058765854608452337492235814701599310000);
   975016055873230491023435525381253423398307474952551427989319300;
   275228655303057286255408395041932136573875878304345432149420200;
   (-315820393174860295650790806998486690574795323731484233751146400);
   5538422011614961392519183980465012206110262773864964295476524;
   47772575109455106396359752468207070502305012165814342975932540;
   (-10773010853084795648526216095872000352352336093344196898185800)]).

(** lines 100-115 *)
Definition db7_z : positive * list Z := (64%positive,
  [778520540850091790199635219578937483791830529279556843870293700;
   3965393194819173065390003909368428563587151149333287401110499000;
   7291320908462351199169430703392820517179660611901363782697715000;
   4697822874051931224715911609744517386817913056787359532392529000;
   (-1439060039285649754050683622130460017952735705499084834401753000);
   (-2240361849938749826381404202332509644757830896773246552665095000);
   713092192668302647508765705011290482271132745141231465957511300;
   806126091510830719129224803593819058582382096562948905813921800;
   (-380299369350144135795920616018580358544619693846786989828312200);
   (-165745416306668806541076748917026547920450439482071370523927200);
   125509985560998406129898860341877795728947404604871003841181800;
   4295779729213665211321291228197322228235350396942409742946366;
   (-18016407040474909152682629127395509625856514696410906253238640);
   3537137999745202484462958363064254310959060059520040012524275]).

(** lines 117-134 *)
Definition db8_z : positive * list Z := (64%positive,
  [544158422431040099550094052029993550359955429473305039772928000;
   3128715909142999706591623755057177219497319740370229185698712000;
   6756307362972898068078007670471831499869115906336364227766759000;
   5853546836542067127712655200450981944303266678053369055707175000;
   (-158291052563493056673805478764663041577447115450282655973533500);
   (-2840155429615469265162031323741647324684350124871451793599204000);
   4724845739132827703605900098258949861948011288770074644084096;
   1287474266204784588570292875097083843022601575556488795577000000;
   (-173693010018075461696161488680959831141308652948839431697731500);
   (-440882539307947515067637232389635018975183919011099647275039100);
   139810279173982816487229305726334514423955953293434716914636800;
   87460940474057767163827432464756401804021470811406767426867470;
   (-48703529934515743104221815571098240166349785121570037647362080);
   (-3917403733769470462980803573237762675229350073890493724492694);
   6754494064505693663695475738792991218489630013558432103617077;
   (-1174767841247695337306282316988909444086693950311503927620013)]).

(** lines 137-156 *)
Definition db9_z : positive * list Z := (65%positive,
  [3807794736387834658869765887955118448771714496278417476647192000;
   24383467461259035373204158164928441552636110856092313614290880000;
   60482312369011111190307686743423617089595627118961175653337130000;
   65728807805130053807821263904517321403058586692459188544360340000;
   13319738582500757619095494589979555369217807684336611361543460000;
   (-29327378327917490880640319524219873104389616285899068257251120000);
   (-9684078322297646051350813353769660224825458104599099679471267000);
   14854074933810638013507271750604230247912585772806030607716490000;
   3072568147933337921231740072037882714105805024670744781503060000;
   (-6763282906132997367564227482971901592578790871353739900748331000);
   25094711483145195758718974998855433151762719937096333218341640;
   2236166212367909720537378270269095241855646688308853754721816000;
   (-472320475775139727792570784824246540572951491262793801875852600);
   (-428150368246342983449679500231453187648118181146328837486045500);
   184764688305622647661912949112567705112108135960031816073251500;
   23038576352319596720521639282454216929406620524637119722600060;
   (-25196318894271013697498868428786066072821815434780282141342650);
   3934732031627159948068988306589150707782477055517013507359938]).

(** lines 159-180 *)
Definition db10_z : positive * list Z := (65%positive,
  [2667005790055555358661744877130858277192498290851289932779975000;
   18817680007769148902089297367909399427025467586403934843485950000;
   52720118893172558648174482795950819249814026808402234453185490000;
   68845903945360356574187178254923585397713640424073395372796810000;
   28117234366057746074872699844558928762438888590261504138315430000;
   (-24984642432731537941610189792077910005646697371320737150131210000);
   (-19594627437737704350429925431909813187667764763827784743967810000);
   12736934033579326008267723320140097707861774804222459955630970000;
   9305736460357235116035228983545273226942917998946925868063974000;
   (-7139414716639708714533609307605064767292611983702150917523756000);
   (-2945753682187581285828323760141839199388200516064948779769654000);
   3321267405934100173976365318215912897978337413267096043323351000;
   360655356695616965542329141713340329951735051861899476273061200;
   (-1073317548333057504431811410651364448111548781143923213370333000);
   139535174705290116578931844795770756766054285568855242672111700;
   199240529518505611715874224264064321176255536551410528006793600;
   (-68585669495971162656137098192657141966250433367869205162119030);
   (-11646685512928545095148097102589918915274618543475973628192350);
   9358867032006959133405013034222854399688456215297276443521873;
   (-1326420289452124481243667531226683305749240960605829756400674)]).

(** lines 182-205 *)
Definition db11_z : positive * list Z := (66%positive,
  [18694297761471084025435729395619757289677744559219585432866920000;
   144067021150624512795191584936100114302371896755623960431885200000;
   449899764356045334768894037385360367780689537864893347459965500000;
   685686774916200511120938631696309793594020496456770349505158900000;
   411964368947907462925939648571066730743040041018784531569724200000;
   (-162275245027490362240582726998551154074426432421213020964966700000);
   (-274230846817946961202100945283526662864808952177517822190577800000);
   66043588196683191900614578881263026567531421689407915411134570000;
   149812012466378496406656261704419329858827242026748465379690900000;
   (-46479955116684187271617225890237445772232609668482607474503200000);
   (-66438785695025205278992155369712031918195668960797396228585740000);
   31335090219046076030947984083031445363581056808800319649364450000;
   20840904360181063022948112556564910151577618327347156911266920000;
   (-15364820906201599426198116099588227440143264957730001202058480000);
   (-3340858873014445606090808617982406101930658359499190845656731000);
   4928417656059041123170739741708273690285547729915802418397458000;
   (-308592858815143165175459072627895330718021660507848858192156200);
   (-893023250666264613390082462264865398987951987862072879313335800);
   249152523552823498871221687266680108822119930285542538197139200;
   54439074699368471673578568795768321919366785256007939780436880;
   (-34634984186984995541280851599740432145064880482334580359436010);
   4494274277236510095415648282310130916410497987383753460571741]).

(** lines 207-232 *)
Definition db12_z : positive * list Z := (66%positive,
  [13112257957229517506746090888933280656655106419313250077482800000;
   109566272821185154605704505024890542607568050306677404638365700000;
   377355135214212657092821260487920614901094170605752633470583900000;
   657198722579307089302761128664116983425020328998841214139428100000;
   515886478427815608756032648054303270067769308703609005612764700000;
   (-44763885653774626667627473115401665292845436315059241390717040000);
   (-316178453752785536864802935347803109850883903254736438957420300000);
   (-23779257256069727683997546091332257845533665583317411524826120000);
   182478605927579679854043611618924171029477144809630269832901100000;
   5359569674352150328276276729768332288862665184192705821636342000;
   (-96432120096507082026503205343224841274308801430452205143464020000);
   10849130255822184380890102377481521886616305676033346593225120000;
   41546277495084440739270946819065748645135322213883748612870780000;
   (-12218649069748280719987982664715677129824660931165581753448110000);
   (-12840825198300683294660344718947284962061098323140976332752250000);
   6711499008795509177767027068215672450648112185856456740379455000;
   2248607240995237599950865211267234018343199786146177099262010000;
   (-2179503618627760471598903379584171187840075291860571264980942000);
   6545128212509595566500430399327110729111770568897356630714552;
   388653062820931443589728883779598179191748857342017752343609600;
   (-88504109208204324208216459615537265987383221514719328080154430);
   (-24241545757030784029789153205317195804237783626642822393775320);
   12776952219379766587140463626166208873759609414394287560553530;
   (-1529071758068510902712239164522901223197615439660340672602696)]).

(** lines 234-261 *)
Definition db13_z : positive * list Z := (67%positive,
  [92021335389623679729701634756441846675341719164165623860097030000;
   828612438729027796443202713123046640520811333289013507251427700000;
   3119963221604380633960784112214049693946683528967180317160390000000;
   6110558511587876528211995136744180562073612676018239438526582000000;
   5888895704312189080710395347395333927665986382812836042235573000000;
   869857261796472373102373983808749439923188407661970125088201600000;
   (-3149729077113886329981698255932282582876888450678789025950306000000);
   (-1245767307508152589413808336021260180792739295173634719572069000000);
   1794760794293398432348450072339369013581966256244133393042881000000;
   729489336567771638090283061047766198332592902687987355362796300000;
   (-1058076181879343264509667304196464849478860754801236658232360000000);
   (-264884064753436946396391224803478572641960484429769701626422400000);
   561394771002834288621450199838733111998837879254310024473705600000;
   23799722540590788114651709585542083580943946120519348684751390000;
   (-238314207103236490320640306775773913425292271763622627407729800000);
   39239414487974162433163702208155265588247466234514040439184070000;
   72555894016175661945183933005026988989735296796466836952698280000;
   (-27619112346568621780145762660984459953500933305018180249663160000);
   (-13156739118922989366138353705936433760604125926536523072381240000);
   9323261308672633862226517802548514100918088299801952307991569000;
   492515251262894619214095738786659621010377829938882350084009400;
   (-1651289885565054894616687709238000755898548214659776703347801000);
   306785375793254934664948322857547623660042821723790056312823000;
   104419305714081370817071499108059695167070643621732816964147400;
   (-47004164793608683256501951650617713216503835829709585565680590);
   5220035098454864691736424354843176976747052155243557001531901]).

(** lines 263-292 *)
Definition db14_z : positive * list Z := (67%positive,
  [64611534600879478181663974486228142723271594192011992181014040000;
   623647588493988983279856675843487742830533369340766716460251800000;
   2548502677926213536659077886778286686187042416367137443780084000000;
   5543056179408938359926831449851154844078269830951634609683997000000;
   6311878491048567795576617135358172348623952456570017289788809000000;
   2186706877589065214917475918217517051765774321270432059030273000000;
   (-2716885522787480414142192476181171094604882465683330814311896000000);
   (-2180335299932760447555558812702311911975240669470604752747127000000);
   1383952138648065910739939690021573713989900463229686119059119000000;
   1399890165844607012492943162271163440328221555614326181333683000000;
   (-867484115681696890456082206672779538297914953951750365749296400000);
   (-715489555040461307358414511517380799095806967312953809999091300000);
   552371262592160441161883406053340339791383363251167215767110700000;
   269814083079129169739903140321519334337576659580727423328434900000;
   (-301853515403906351871482262348913757378157540665865262488375600000);
   (-56150495303569591332183713676914986374572972039258103876986800000);
   127894932663334089615733070578407929937490386157205831348153400000;
   (-7462189892683849371817160739181780971958187988813302900435487000);
   (-38496388680221874457863493160955517740968185082857004930589150000);
   10616910856067618430325667493884111730339415821478308638939390000;
   7080211542355278586442977697617128983471863464181595371670094000;
   (-3868319473129544821076663398057314427328902107842165379901468000);
   (-417772457703725973526797953983925892838972659013273013105432300);
   687550425269750960387343702162803160189037068765187527988272700;
   (-103372091845707739466140734259481458626927250949074485069144300);
   (-43897049017813941152540425613671698293230853608008257181510490);
   17249946753678127698857126927417985235878947098673565769107170;
   (-1787139968311359076334192938470839343882990309976959446994022)]).

(** lines 294-325 *)
Definition db15_z : positive * list Z := (68%positive,
  [453853736157889888145939491021169634666367124378878699791651300000;
   4674339489276627189170969334843575776579151700214943513113197000000;
   20602386398699573153989150094763072193061385056419309027020470000000;
   49263177170813962360677570740299463726172215651309324021601600000000;
   64581314035742435817642091201069179964326082874940461810714890000000;
   33900253545473152769126411438357739187567694917935546693366900000000;
   (-19320413960914542870639905343214717463040900391428638279377540000000);
   (-28888259656696564624841250098223329813114356304353425949712920000000);
   6528295284877281692283107919869574882039174285596144125965101000000;
   19014671400712298234848931165860205179595012581743366968781560000000;
   (-3966617655579094448384366751896200668381742820683736805449745000000);
   (-11112093603723169336567103246740586088586237621659141205056570000000);
   3387714392350768620854817844433523770864744687411265369463195000000;
   5478055058450761268913790312581879108609415997422768564244845000000;
   (-2576700732843996258594525754269826392203641634825340138396836000000);
   (-2081005016969308167788483424677000162054657951364899040996166000000);
   1508391802783590236329274460170322736244892823305627716233968000000;
   510100036040754316970886018556531472480106652734422205552663100000;
   (-648773456031574499518168314921869081695584563938882640792896700000);
   (-24175649076162428116672253263001796052299469958145352233294110000);
   194332398038221154176491233254108744101142486557953140145230200000;
   (-37348235413761699200980942136454146113876309680302566257402260000);
   (-35956524436246881216496200759098088581942024540840903056274800000);
   15589648992059974794716582412271088162555670596254959152286030000;
   2579269915531893680925862417616855912944042368767340709160119000;
   (-2813329626604781364755324777078478665791443876293788904267255000);
   336298718173757980312484521042017747213484665586407818718630400;
   181127040794057708376851091228584116057708592533750785059029000;
   (-63168823258816644212015972995176576541661379151211955104166410);
   6133359913305752029056299460289788601989190450885396512173845]).

(** lines 327-360 *)
Definition db16_z : positive * list Z := (68%positive,
  [318922092534773802976954756464595868706708675013142876787587800000;
   3490771432367334641030147224023020009218241430503984146140054000000;
   16506428348885311789912527305611348115848350023427232402135920000000;
   43031272284600381374039254243576846206339704780369867739246460000000;
   63735633208378889863198524129960305364985959408141981259677510000000;
   44029025688635690003908691635716792885278030351352725787898840000000;
   (-8975108940248964285718718077442597430659247445582660149624718000000);
   (-32706331052791770464629056756891196417572289182288124281417230000000);
   (-2791820813302827668264519595026873204339971219174736041535479000000);
   21119069394710428872096801632688379009284914261676794392510420000000;
   2734026375271604136485245757201617965429027819507130220231500000000;
   (-13238830556381039045004741477564933750922878177060279787985490000000);
   (-623972275247487176567450339412002586544465631167876099076145800000);
   7592423604427631582148498743941422461530405946100943351940313000000;
   (-758897436885773763849489086463699579658697514499092540009716000000);
   (-3688839769173014233352666320894554314718748429706730831064068000000);
   1029765964095596941165000580076616900528856265803662208854147000000;
   1399376885982873102950451873670329726409840291727868988490100000000;
   (-699001456341391667028424953651728833805785619964646907811575900000);
   (-364427962149838993216900054093362938705533397335310866884121500000);
   312802338120626883166120255985467876782147190619360811745036000000;
   40789698084971283624174703234060957824319529723105467150713970000;
   (-94102174935956758892664539536358754077547472167344805092502730000);
   11424152003872239264402280995556629458396843449364726528770910000;
   17478724522533818038017586376607468749860247286153998979719530000;
   (-6103596621410935835162369150522212811957259981965919143961722000);
   (-1394566898820889345199078311998401982325273569198675335408707000);
   1133660866127625858758848762886536997519471068203753661757843000;
   (-104357134231160650152545473726261540488747893063567647154603200);
   (-73636567854512055120996957197255636465854455458416633274335690);
   23087840868575458664054127329420061213063067358666555253725440;
   (-2109339630100743097000572623603489906836297584591605307745349)]).

(** lines 362-397 *)
Definition db17_z : positive * list Z := (69%positive,
  [2241807001037312853535962677074436914062191880560370733250531000000;
   25985393703606043389148645917207883154739445248782412943999480000000;
   131214903307824406577550623185906996014429360925997853006700400000000;
   370350724152641150449254819072188644947707887689680382365042500000000;
   610996615684622818188667886767937208273709389335872629137178300000000;
   518315764056937839325453852808596804621681719771841640243990400000000;
   27314970403293635004312507191475864803504698189645630036729420000000;
   (-328320748363961736090966534072506176758159769815155802467913000000000);
   (-126599752215882702874467911093382550505396626010408616210372800000000);
   197310589565010992785404704478193014255142241413564691712228400000000;
   101135489177470272150969985643343480219662254549966487610943700000000;
   (-126815691778286311094857112866233168038479218591501706573213700000000);
   (-57091419631676927289112394786513823241611608698453470539901440000000);
   81105986654160885079658857485554292010243641909544991940206780000000;
   22312336178103795953391360595348137562322421140936892440208690000000;
   (-46922438389269737333008970592114005071387681254980306028784390000000);
   (-3270955535819293781655360222177494452069525958061609392809275000000);
   22733676583946270318456162447884489699067137413383394980248640000000;
   (-3042989981354637068592482637907206078633395457225096588287881000000);
   (-8602921520322854831713706413243659917926736284271730611920986000000);
   2967996691526094872806485060008038269959463846548378995044195000000;
   2301205242153545624302059869038423604241976680189447476064764000000;
   (-1436845304802976126222890402980384903503674530729935809561434000000);
   (-328132519409837971395444401752011507581240244272874970019565100000);
   439465427768643677838567752731784163228924931973889217946591000000;
   (-25610109566548458827298912109499202216640820615319096551784130000);
   (-82048032024533918390954825762821898661362730496367643386895930000);
   23186813798745950844820682057062775721066951740918953385307340000;
   6990600985076751273204549700855378627762758585902057964027481000;
   (-4505942477222988194102268206378312129713572600716499944918416000);
   301654960999455741560520759487993976347616870521764689770270600;
   295770093331685675497990525881615136787034562892431730735463900;
   (-84239484460026801787870712969228770684103109422227996225931330);
   7267492968561608110879767441409035034158581719789791088892046]).

(** lines 399-436 *)
Definition db18_z : positive * list Z := (69%positive,
  [1576310218440760431540744929939777747670753710991660363684429000000;
   19288531724146377059213917158290524199546670252884975722367140000000;
   103588465822423596224191049193725359647069655522024167297622400000000;
   314678941337031699057199825565257993178670619048937450949130700000000;
   571826807766607223481858937090062341939367374313093056129532400000000;
   571801654888651335289111999406596502566804788281852506075939500000000;
   147223111969928141575097727108107231255786410735570138780167700000000;
   (-293654040736558744247903099498115072393571072903505323966175200000000);
   (-216480934005142971123767862566827147143793723566949240838869200000000);
   149533975565377789350930173891366720880481669189376561026194300000000;
   167081312763257404514931813995013474532420564635398808315225000000000;
   (-92331884150846280604293725586594597314318480001445696120745080000000);
   (-106752246659828485593220058161498486138526640462411208391770200000000);
   64887216211905442819475779551419114631293821166341478461371490000000;
   57051247738536884120907688464996222605962261204310385246006760000000;
   (-44526141902982324715561435597446534929714778914398335927550340000000);
   (-23733210395860001032752095826652161101975193307134902330715650000000);
   26670705926470590299879086316720203432078959999360728133634710000000;
   6262167954305707485236093144497882501990325204745013190268052000000;
   (-13051480946612001772776364476008071697551910545075716666061330000000);
   118630033858117465730174159216181908454489941745231740518561500000;
   4943343605466738130665529516802974834299638313366477765295203000000;
   (-1118732666992497072800658855238650182318060482584970145512687000000);
   (-1340596298336106629517567228251583609823044524685986640323942000000);
   628465682965145712561944988542083821755102279630158287434965200000;
   213581561910340688403905281434192602587320032599646652254344000000;
   (-198648552311747948579824541636248955492779788026401787613960500000);
   (-153591712353472467506977033587671719370047242702151323658728800);
   37412378807400381810922081380353939523042926157939850307313630000;
   (-8520602537446695203919254911655523022437596956226376512305917000);
   (-3332634478885821888782452033341036827311505907796498439829337000);
   1768712983627615455876328730755375176412501359114058815453100000;
   (-76916326898851761460001528785395984058173975881565251167699080);
   (-117609876702823169845098235656129256134757977769539695352814100);
   30688358630451748009354782949339753724501797878945744929305700;
   (-2507934454948598267195173183147126731806317144868275819941403)]).

(** lines 438-477 *)
Definition db19_z : positive * list Z := (70%positive,
  [11086697631817105710991541952097151642452996777734359321354550000000;
   142810984507643973743988915295019923474566344216366595787071500000000;
   812781132654595506529630678490162483984497997102862036649772600000000;
   2643884317408967846748100380289426873862377807211920718417385000000000;
   5244363774646549153360575975484064626044633641048072116393160000000000;
   6017045491275378948867077135921802620536565639585963293313931000000000;
   2608949526510388292872456675310528324172673101301907739925213000000000;
   (-2280913942154826463746325776054637207093787237086425909534822000000000);
   (-2858386317558262418545975695028984237217356095588335149922119000000000);
   746522697081032663676343311187881900586586614973190965636539900000000;
   2123497433062784888090608567059824197077074200878839448416908000000000;
   (-335185419023028786816938841878573150697784507523896681981403200000000);
   (-1427856950387365749779602731626112812998497706152428508627562000000000);
   275843506256286687501474352016219865537447459696342308076281800000000;
   869067555558122324884764542880844303478520800246819275964035200000000;
   (-265012362501230408990183584367638736107506801768674780817134500000000);
   (-456742262772309080564544421429579601793893573211563005088010900000000);
   216237674095850471303298425717237235431809706785875254257102000000000;
   193755498891761276463709435445799981449688509587582554640696300000000;
   (-139883886785351416325040123524866252191681386745309583680836600000000);
   (-58669222810121747265844934360543737738146083408087581773727650000000);
   70407473671052431530145112074006201094016898976653830782293980000000;
   7689543592575483559749139148673955163477947086039406129546422000000;
   (-26875518007015820039573638550703986365340389209824782901702670000000);
   3418086534585957765651657290463808135214214848819517257794031000000;
   7358025205054352070260481905397281875183175792779904858189494000000;
   (-2606761356786280057318315130897522790383939362073563408613547000000);
   (-1246007917341587753449784408901653990317341413341980904757592000000);
   871127046721992296541686238819112826841293389328208351772944300000;
   51059504870738860530492228099342315736873679921062826693892640000;
   (-166401762971549445462067771989919863033367560881201810873914400000);
   30109643162965263396953344547259436326457989381624271688513820000;
   15319314766911930639318323810866360312031230327234774636241410000;
   (-6862755657769142701883554613486732854452740752771392411758418000);
   144708829879784454207821986329161542055167357407136783431616700;
   463693777578260422343085772821094889887174829108596229664932000;
   (-111640206703582581639050476914247258646497579928447368224607600);
   8666848838997619350323013540782124627289742190273059319122840]).

(** lines 479-520 *)
Definition db20_z : positive * list Z := (70%positive,
  [7799536136668463215861994818889370970510722039232863880031127000000;
   105493946249503983245448097301564149823196146873323669129979600000000;
   634237804590815149758734658266878513640652331572966635364337200000000;
   2199421135513970450080335972537209392121306761010882209298252000000000;
   4726961853109016963710241465101446230757804141171727845834637000000000;
   6104932389385938201631515660084201906858628924695448898824748000000000;
   3615022987393310629195602665268631744967084723079677894136358000000000;
   (-1392120880114838725806970545155530518264944915437808314813582000000000);
   (-3267868004340349674031122837905370666716645587480021744425550000000000);
   (-167270883090770075751717499730429705400374430362047939400689000000000);
   2282910508199163229728429126648223086437547237250290835639880000000000;
   398502464577712021979058107652217418110402757695442768445666000000000;
   (-1554587507072679559315307870562464374359996091752285157077477000000000);
   (-247168273386135840158799229916992226291515141334931351368558700000000);
   1022917191744425578861013681016866083888381385233081516583444000000000;
   56322468573074355069532469882152098615668006644027859385911450000000;
   (-617228996246804597331865833408328355820927876200704182325064200000000);
   58746818118118264913006797420819971672097434469569018419597110000000;
   322942995307695817588544086061721911756455860503597960107323500000000;
   (-87893249239015613487536503667006959165030309392838309681513320000000);
   (-138105261371519200781960642386035659049690428572473035660210600000000);
   67216273022594568353368505214054255605200252379157083620029100000000;
   44205423870457909630582295266735140888089994781155811534680680000000;
   (-35814942596096227775561696383582383757651942486238910349403300000000);
   (-8315621728225569192482585199373230956924484221135739973390038000000);
   13925596193231363239052549993479672837605441473975305311423970000000;
   (-534975984399769505175971637721368003618579605908735317207395200000);
   (-3851047486992176060650288501475716463266233035937022303649838000000);
   1015328897367029050797488785306056522529979267572003990901472000000;
   677428082837772955801118440672797822129579665220081983946435400000;
   (-371058618339471286422722127121640841695822526498061282261774500000);
   (-43761438621839968103730958225286076069006205925857621905424830000);
   72412482876736201028431058774971815654687257573870071395558850000;
   (-10119940100188861503404754137568491031973950694310850057092010000);
   (-6847079597000556894163334787575159759109091330092963990364192000);
   2633924226270001084129057791994367121555769686616747162262697000;
   2014322023550512694324757845944026047904414136633776958392681;
   (-181484324829969597321060525822702408145853111076208337131091700);
   40561270555518327660991462306168880246273805741131782579632520;
   (-2998836489619319566407767078372705385732460052685621923178375)]).

(** lines 522-564 *)
Definition db21_z : positive * list Z := (70%positive,
  [5488225098526837086776336675992521426750673054588245523834775000000;
   77766390523547837543387873980887998625107790595556237048792340000000;
   492477715381772749139985337834005696810448316159832069365795400000000;
   1813596254403815156260378722764624190931951510708050516519181000000000;
   4196879449393627730946850609089266339973601543036294871772653000000000;
   6015060949350038975629880664020955953066542593896126705346122000000000;
   4445904519276003403643290994523601016151342743089878478478962000000000;
   (-357229196172552904592291417800530718903676254714396657806683800000000);
   (-3356640895305295094832978867114363069987575282256098351499731000000000);
   (-1123970715684509813515004981340306901641824212464197973490295000000000);
   2115645276808723923846781645238468659430862736248896128529373000000000;
   1152332984396871041993434411681730428103160016594558944687967000000000;
   (-1399404249325472249247758764839776903226503657502071670245304000000000);
   (-817759429808638288738730363419379054252257067023455615756678600000000);
   966003903237242207023218970037253968162778332224982984227551700000000;
   457234057492287923925120294473123542103482871075338119134518600000000;
   (-649775048937323206333231110600861668574892941945224954469096700000000);
   (-186538592021185153409324441200814126613120809300721713923217000000000);
   397268354278504417519746440075612681829991899248258786699970700000000;
   33577563903381108425326047663762007607916699541066799331447230000000;
   (-208920536779790794878523547974621237172821986652521113534370700000000);
   24034709208054347623806321697856895459105256673963135506796520000000;
   89888243819719118753494633983954641144178179497389111013723120000000;
   (-28913343485889012473752687180158826108446759311174634955519580000000);
   (-29583740389328312807507702282155109598301702641769557198275100000000);
   17166070406306241384945062825692301263333085335355027992353330000000;
   6394185005120302146432543767052865436099994387647359452249347000000;
   (-6906711170821016507268939228893784790518270744313525548714065000000);
   (-319640627768043719370883422080464034763698490127094808833910200000);
   1936646504165080615323696689856004910579777568504218782029027000000;
   (-363552025008633830944285500618637075220633142987113659692713700000);
   (-349966598498744795397407949004659724027626804440962572268984900000);
   153548250927604928312423349864605047209648232929971914110712800000;
   27903305398144870461061695826917679162837939460259223875569170000;
   (-30900171645456991971585559368526973259858645884181679826854000000);
   3166095442367030556603889009833954440058545355777781782000278000;
   2992136630464852794401294607536813682771292352506328096125857000;
   (-1000400879030597332045460600516621971679363965166249211063755000);
   (-22540149746733301315631848514568259916179155496433087548281590);
   70580335412311218590209479769039046854645128257312304951442260;
   (-14719541976503652651895496008166987782132470613894702773371730);
   1038805571023706553035373138760372703492942617518816122570050]).

(** lines 566-610 *)
Definition db22_z : positive * list Z := (71%positive,
  [38626323149109821585243589006154603688778520095768996807673160000000;
   572185463133453912080978340348449333355536159138620812918383300000000;
   3806993723641108494769873046391825574447727068953448390456335000000000;
   14836754089011142850144044487102498373858363731682156164270300000000000;
   36772868344603747886146908184523728274305356496964627203348970000000000;
   57843273100952442714211818317354441063850999579086571455901040000000000;
   50790109062216390183915233253907168365687131924987115627112820000000000;
   7372450118363015165570139016530653113725172412104955350368114000000000;
   (-31272658042829619180332262226217885370784525359935454407169880000000000);
   (-20056840610488709393243612440422001741329058448682374471303820000000000);
   16409318810676648186062232262868857125543853174122288367058880000000000;
   17997318799289130372521542953130831683878407914249884227577620000000000;
   (-9711079840911470969274209179691733251456735137994201552926799000000000);
   (-13176813768668341075136485181468383454778750223520883575238380000000000);
   6807631439273221556739202147004580559367442550641388181886023000000000;
   8455737636682607503362813659356786494357635805197410905877078000000000;
   (-5136425429744413245727949984018884707909441768477091944584584000000000);
   (-4653081182750671347875833607846979997825771277976548080904423000000000);
   3697084662069802057615318892988581825637896696876361343354380000000000;
   2058670762756536044060249710676656807281671451609632981487139000000000;
   (-2348000134449318868560142854519364987363882333754753819791381000000000);
   (-621378284936465849906933612380760829312290045050844042010446200000000);
   1256472521834337406887017835495604463815382993214296088172221000000000;
   30013739850764359512291292555882557469049370429793160544851830000000;
   (-545569198615671707659535316307167910786876239536723472659227300000000);
   104426073918602532335075565918473406080743217261168941374502900000000;
   182701049565727908011259743685015711023533677206296104115460700000000;
   (-77069098812311962328803727229555197816557699136345657573397390000000);
   (-42378739983918007995319477680039769781974383025335286618257580000000);
   32860941421367873419837584714059354058233230728296192485236970000000;
   4345899904532003379046992625575076092823809665933575578710696000000;
   (-9405223634815760421845190098352673647881298980040512091599943000000);
   1137434966212593172736144274866639210339820203135670505287250000000;
   1737375695756189356163565074505405906859746605867772002320509000000;
   (-616672931646757837215225166842297915216958730721270898176896600000);
   (-156517913199516015930742699357820473337811274257992650383209500000);
   129518205731887757388971123234506814780039572192568256639493600000;
   (-8779879873361286276888117046153049053917243760475816789226764000);
   (-12833362287517544178196939321140648870750960302647480799767360000);
   3761228749337362366156711648187743399164239397803629022612862000;
   168017140492298888555433118369128024596229024765443811480711200;
   (-272962314663297608344932736173910475444322190331774576893884600);
   53359388216674899051697832270368045332530111178865863054356150;
   (-3602113484339554703794807810939301847299106970237814334104274)]).

(** lines 612-658 *)
Definition db23_z : positive * list Z := (71%positive,
  [27190419412828884141926736097033023570983360039209239589247570000000;
   420274889318383353839003437252351147234521556361100340798470100000000;
   2931000365788411514736204018929480427874317460676079959515131000000000;
   12051553178397193363060538956118990890042743368917090679580350000000000;
   31845081385286523634165277484604721527905750314098304172596400000000000;
   54493114787352042826742406724219843875041499248345444954667930000000000;
   55101851724191939134527242272125077205141441164787272697178590000000000;
   18139262536384001362590983021386149372642607376381755394165400000000000;
   (-26139214803064411188567957352101184139003075775111429873373750000000000);
   (-27140209860784305566040695751847181237636971773810588771134710000000000);
   9212540708241805260646030910734894258577648089100630012130261000000000;
   22357365824204023171495139608225617176898752527928170948118740000000000;
   (-3303744709428937875006612792463031409461636228731285046551636000000000);
   (-16401132153187592501560578371652760391814511492921129294011860000000000);
   2028307457564929974897286607551313323418860610791382310375731000000000;
   11229704361810728869507344650756459777546655938697899658745720000000000;
   (-2112621235622724100704783293549467048999443844657058425212982000000000);
   (-7020739157490110946204219011957565343899895499962369353294028000000000);
   2176585683449997560776882472168730165799461445156766923497545000000000;
   3849533252256919901057154320407596073180564628069920893870768000000000;
   (-1852351365015615979794689960740674782817814176166333519597796000000000);
   (-1753710100303584537915846117408613551147985251726558719415169000000000);
   1275194393152828646243157404474947115052750581861997731041018000000000;
   603184065002416281628987820603784164081410231420907523375182000000000;
   (-707531927370615281419403948146655620449327677348382174874001800000000);
   (-113486547335625169128933712001328675633739378411078690782540000000000);
   312287644981814499741914476512575052243765939362157749253541100000000;
   (-24650140051635120319404731003753772108625607615761097558411610000000);
   (-106123122888665132113935762568380564219364867103042501021507500000000);
   31942049270990115036765303596923669909296791700225830076831120000000;
   25676245200787372055638566753766360923148134006641907704354500000000;
   (-15002185034903409676731632904478322362592778106590686374026680000000);
   (-3378894834120903434270962452674534330903724108906662510305045000000);
   4426071203109246077621875303440935335701832843654692827539837000000;
   (-263520788924918623720922593317089782543233527377145845688809700000);
   (-834787556785462554436604374884418308676589497443924540922333700000);
   239756954684024005740373950752564123950951714898084988998640700000;
   81475748347794477780854430414228814398602882875283560192168140000;
   (-53390054052094211545847836828487809650536428593735369457013650000);
   1853091785633965019353699857864654181728710556702529908304185000;
   5417549179539278736503176166323685597634496102979977037271945000;
   (-1399935495437998845130909687361847103274208993447892120341999000);
   (-94728859018120505352215820746734905730920967128220675649030120);
   105044645369654340407110511109643857342306891310525599790804000;
   (-19324051113134175421926518996225416123140663896436075077068870);
   1250203302351040941433216718217504240541423430995137507404787]).

(** lines 660-708 *)
Definition db24_z : positive * list Z := (72%positive,
  [191435800947551369502613833647411559943517208805384674516846200000000;
   3082081714905494436206199424544404720984720556128685270556458000000000;
   22482339949716410723584151571848256282267766922319405775815800000000000;
   97262235833625196638065457340083559145275044176745785711643000000000000;
   272908916067726326870613713441255726875167126345889509862535600000000000;
   504371040839924991977187689040281410924686644444181454028209900000000000;
   574939221095541996846080790192340703314494593510562291283983800000000000;
   280985553233711883344262608511540294184295947592927888328140900000000000;
   (-187271406885156237698188715977579146906026577844166784030793400000000000);
   (-317943078999362737545394848979770755089808778916002518266429900000000000);
   4776613684344728187950198323031360866349104994035553200788631000000000;
   239237388780310855197326829194582482221485813451231771581561600000000000;
   42528729641483832581473644721706452326843432354869515405338930000000000;
   (-171175351370346889689763851508057239394916594233555639791766600000000000);
   (-38777173577920016201775947261995726884464880337507710201902830000000000);
   121016303469224236231263731114906228665937703904600680152382600000000000;
   20980113709144815349808838273260170631216372627284477836055180000000000;
   (-82161654208001667022914660061641894609168167486299681980288980000000000);
   (-4578436241819221637997516339765068825260159169893967894877272000000000);
   51301620039980879155553348813986889588430784945951403948738840000000000;
   (-4944709428125628299815920032649550811877887219282751174798211000000000);
   (-28213107094901890981138953619006992288869009954127591976740580000000000);
   7661721881646585897329899904308764405384658404613669817843430000000000;
   13049970871085735830524940678837175330431018571286532337833960000000000;
   (-6291435370018187780721843581169343900864298634085743861509767000000000);
   (-4746568786323113800477796959513558401732252800905982385017245000000000);
   3736046178282523345179052160810332868725126356493155728625572000000000;
   1153764936839481504858282495202271984454410046682805375157566000000000;
   (-1696456818974824394274534636412116243080312601322325642741589000000000);
   (-44161848561415200633659589000794067376362436821383635618777500000000);
   586127059318310993371673545027289403542579234780651567869576500000000;
   (-118123323796955474061302122775656896680689230845722101625796100000000);
   (-146007981776261683892430181808272903631453947681102325567066600000000);
   65593886393056340853037385604550619743693545382713160715026980000000;
   21832414604665583633650440329842577097911876409635093805493070000000;
   (-20228882926126976828608599872004557026148555954122675105586590000000);
   13411577508091147193199375531860236605810841518285932228936630000;
   3901100338597702610409014129024223853127911530009766793352492000000;
   (-898025314393840772414992666998079116637838801329388771840479600000);
   (-403250775687997162409898324735898342523609211038772431524464600000);
   216633965327857463917639397851024633547894669739640035928141200000;
   (-505764541979250030849250892434324897931750786652068841756760600);
   (-22557403881760861073688216749471758040053231534431705265202770000);
   5157776789671999638950774266313208715015419699643333784626363000;
   474837582425623111809445354979917582452655999433322745673743300;
   (-402465864458437977425149957446819511860169871355429494175655900);
   69918011576382309741326964335096259340216777934537322255429510;
   (-4342782503803710247259037552886749457951053124203814185811297)]).

(** lines 710-760 *)
Definition db25_z : positive * list Z := (72%positive,
  [134802979347018899457848924715935605537046065650888147126861100000000;
   2256959591854779520121391049628056149270016860666661928130747000000000;
   17186741254040155338171869149548489022411940024446962210131310000000000;
   78035862872132675597506593204814036684220521992571391683860840000000000;
   231693507886021819990062151805708910494621688151207536162421400000000000;
   459683415146094593789697386453965994401026085804994739609327700000000000;
   581636896746057783353489203875708563575563969873458057332303100000000000;
   367885074802946698437131974085553227867073384101280906296697600000000000;
   (-97174640964638142761300481690408926070684864282940309528424470000000000);
   (-336473079641746130956211014884884521893026103026217060161528900000000000);
   (-87587614587654661402266876738800061542666895690250412295455380000000000);
   224537819745101712952517651040954315593084316071198906211848200000000000;
   118155286719959860456306787681993188263942921600152315177389500000000000;
   (-150560213750579630951809420683143327085017348477352073018627700000000000);
   (-98508615289960221537259528226867294104203507585432262192347950000000000);
   106633805018477952883127454052241471130174790391626843803772300000000000;
   66752164494018606668959830724439846973297524709429064901268650000000000;
   (-77084111056574193562085676716990320548728531747015953593298260000000000);
   (-37173962861122508875981373240468704598776392508217058172215570000000000);
   53617909398779499606290414195465368970373322847035458495941290000000000;
   15542605929102291639812958546032036250622680435118942953873750000000000;
   (-34042320460653340993206285840337291534979035613994479161165750000000000);
   (-3079836794847036661636693963570288706232460663070983852354326000000000);
   18922804476627628410865811786910393636747557534595245258864780000000000;
   (-1989425782202736494289461896386235348901617760816745484282494000000000);
   (-8860702618046368399013064252456556969199612331833605310278698000000000);
   2726936258738495739871469244610042793734119359765762028996059000000000;
   3322707773973191780118197357194829286271392998979276105842863000000000;
   (-1842484290203331280837780430014195744813667655929909114672154000000000);
   (-899977423746295049108538252400842960430972085226989569200070200000000);
   877258193674827484348880619017592137628415068601117961290822100000000;
   115321244046630045646018145534563987221632664452786090320273300000000;
   (-309880099098469798953054424535627111941661414709845916243631700000000);
   35437145232760590052842898305592598095403375613659278502480070000000;
   79046400039655282551374963031660017354631077626463640034875600000000;
   (-27330481199600417463532440042252868576360456496426528168565240000000);
   (-12771952931997838041449038484346056909903735260863114867163940000000);
   8990661393062588905369930197413951232059323587543226269327396000000;
   523282770815307641796391206589977268440390450449172706166233500000;
   (-1779201332653634562565948556039009149458987774189389221295909000000);
   321203751886251909489500581666109398829416671291988112180283100000;
   192280679014237160127810424471126742075997879917601756969332200000;
   (-86569417322785071633880315179309749479842816117171878625302500000);
   (-2611598556111770864259843089151782206922842627174274274741722000);
   9279224480081372372250073354726511359667401736947170444723772000;
   (-1880415755062155537197782595740975189878162661203102565611681000);
   (-222847491022816889931479335206479595730640350349574357251875500);
   153590157016265719702192773953072195585927761579593144268278500;
   (-25276251634656448110488642861697581281421694842169326248540150);
   1509692082823910867903367712096001664979004526477422347957324]).

(** lines 762-814 *)
Definition db26_z : positive * list Z := (73%positive,
  [949379575071059211780273138114805439846163780481812639757799900000000;
   16505202335329882470223848856220710505552681370558292168395230000000000;
   130975542925585008205777024010679915407993296347920240736481800000000000;
   622747440251496048419358170510741593769053864101330974598396200000000000;
   1950394387167700994245891508369324694703820522489789125908612000000000000;
   4132929622783563686116108686666547082846741228042232731476147000000000000;
   5736690430342222603195557147853022060758392664086633396520345000000000000;
   4391583117891662321931477565794105633815363384084590559889493000000000000;
   17740767809866857278235335620315568932265713198814176764925950000000000;
   (-3263845936917800216385340830055349953447745005769416287177497000000000000);
   (-1748399612893925042664835683606584215248582345438816346170042000000000000);
   1812918323111226960705459766025430918716233584167982942044424000000000000;
   1827554095896723746537533832033286839689931924709760567945595000000000000;
   (-1043239002859270439148009137202747658420968144330108510179290000000000000);
   (-1479771932752544935782314546369458188243947772922980064071205000000000000);
   698231861132923651375659168395020895511060321237941233470114500000000000;
   1064824052498086303236593797715344405836015002929319291715777000000000000;
   (-534485616814831914949357726939007421396023701309943943113208600000000000);
   (-686547596040359152545472525871535128094743582335401114085800100000000000);
   422321857963720354120657090275328824779085776006789445611492700000000000;
   385357159711118642583214456736232814299488539525543886796878100000000000;
   (-313781103630677548424464477633759443509409696433640279807236000000000000);
   (-177609035683581835409429862588405817035412904425995101918273200000000000);
   207349201799638247588779007306898422451507766551710339989885400000000000;
   58295805553188879719393157475966130384795619430852910727873590000000000;
   (-117854979061930289372862446840213807250422652754032546384739000000000000);
   (-5287383992626814439198630765217969804966319971038003993984480000000000);
   56019472394238048532065142399404747889771884604520534627703240000000000;
   (-9390582504738289646165698675070641765810790863514339205205998000000000);
   (-21455302815676209803054014034322216688479802956007489137489020000000000);
   8383488056543616046381924054554052104937784379435436426690560000000000;
   6161382204574344193703789012696411561214682388271673214197731000000000;
   (-4319557074261807466712901913481943478521991611607433971794602000000000);
   (-1060574748283803889966150803551837402553866816191659959347053000000000);
   1574795238607493590547765666590811258087715699737771458390360000000000;
   (-52777954930378689762935666360156276092488474576465252462710360000000);
   (-410967399639147781632650243899746653282263938511909023096525200000000);
   107422154087219503127358440924506062310493133093827393648459300000000;
   70000786829649867348591024952106848096436574742539210749346840000000;
   (-38874001618567951875877904107065505760336030979540650740231280000000);
   (-4650463220640262639231145944536092973446596027469833860001618000000);
   7939210633709952088373459255067360793370284788682979065122810000000;
   (-1079004237578671411922961583845716126060658213943840375162654000000);
   (-890446637016859076905298336272156720275059191474101683507125700000);
   340779562129073000867383210721482058799155711680691241855806900000;
   21693282598503231069862222965259300999358738610263107880862210000;
   (-37760104785323243281840436675565763856398464603378949631386210000);
   6780047245828636668305808192607091517605349478677442468580825000;
   1002303191046526913509281844136258004034177309673269533418644000;
   (-584040818534117146846549244779981926290531757684742697075770000);
   91305100163717962439232329266502525702390548159394839000566810;
   (-5251871224244435037810503452564279828539007071678724285717464)]).

(** lines 816-870 *)
Definition db27_z : positive * list Z := (73%positive,
  [668713138543193173491888068077956330767574073154406378759948000000000;
   12055312316732132342519998122123944638720025612293301251520730000000000;
   99525887808766197718740912973405457401631198163008388477493360000000000;
   494525999829048800430299558422891771217102334901338694489364300000000000;
   1629220275023933206396286389387812803673796872000118325233533000000000000;
   3671102141253898226423388094379126394383458407087000700420400000000000000;
   5538498609904800487605460395549044755068663194750017660900436000000000000;
   4934061226779989979265447084358038959373468583404767251300717000000000000;
   1028408550618229112710739475157388764479351682549490307668477000000000000;
   (-2897168033145948463175311101489473923261698802610323264603418000000000000);
   (-2482645819032605667810198368127693701263349361209208170092197000000000000);
   1148230195177853576326445213787661879970642975306605349249036000000000000;
   2272732884141708265275037216925482827043581894357907763081103000000000000;
   (-387864186318023106244334684366181707806014311052994654368335600000000000);
   (-1780317409590085821070366277249759321269342801053489323888575000000000000);
   157993974602404843117390779926101947187872499731265329288466000000000000;
   1311979717171553289711406975836688896451835867594492827800969000000000000;
   (-140627515558087653702662216705314716184639773596281785578236200000000000);
   (-910229065295659179824134551577332244983069258652533756286448100000000000);
   173110182654937108908567544596194767745235887232537394929576900000000000;
   579694057347179881474884065769800834946252676823883330748910600000000000;
   (-185124935619980771054583786129882671876307790022157474934271200000000000);
   (-327390666310208714548193642804951974253815045278556303974375600000000000);
   161469669223956668227215262754298089652782252848766511112426000000000000;
   156655956489245787300326398394081995082949702229896705210329100000000000;
   (-115771864589762814005408995811686638105643068087933233421726700000000000);
   (-58620963454629259729660252152661790826571698065555038579752780000000000);
   68566356096848806752731841417463590005913858338078802725680380000000000;
   13426268773036796090822088002174795919029677669713791070170110000000000;
   (-33328544695200061627633001410471110654123077064490493895579310000000000);
   1457529625931728587128588244152604734177322144376309490881599000000000;
   13011774502441351391357879702798970429941091612681599638846410000000000;
   (-3418351226915427611946547437228006377896519777431057005796358000000000);
   (-3879018574101327604369144470124819695479087900682219330965466000000000);
   2019719879690326857104208791272390315160018069955787875123234000000000;
   766005838706857687667427496175126284796510110884809001982155500000000;
   (-771114551779758420841172050732958405338264643527005426710282700000000);
   (-35174836149074453917527378415838323741840464097473871491296740000000);
   206344264773688531848720641336022890855880602846806217795396000000000;
   (-39011640706384255281705580325573687034184259156654135419856230000000);
   (-36575009081871049970457601310466559068276444948992066920432980000000);
   16343696247256378354246107439151285919886760922763686876692550000000;
   3050880686251999094242671997731089918322345713516567387655763000000;
   (-3472468147394389269364673179891460601330730511237974736379548000000);
   328655896805515953098326186645045936007459164180918782540884800000;
   402625505286690863717868274749034053399234062323133691166171100000;
   (-132133227399005655884861780910187684685772848329563138808326300000);
   (-13094656068569551512820418092323582092263738234241488628435770000);
   15216149847785217407750731594452417993526818468808086633299460000;
   (-2415526928011130660506395791946234018673860470542996426005750000);
   (-437498622429365439506994768201399635182306075994858313407891800);
   221366208806766248518147296937494592890385460535644377287343800;
   (-32957901224765858070699539750430961395414157686069249809262750);
   1828188352882424933624530026056448539377272017834175009418822]).

(** lines 872-928 *)
Definition db28_z : positive * list Z := (74%positive,
  [4710807775014051101066545468288837625869263629358873937759173000000000;
   87949851598438702735646367421440730591589756655250818164885820000000000;
   754265037764685917716019578620111692756841062105069398645053800000000000;
   3909260811540534426092083794403768111329778710541126982205076000000000000;
   13513791425364104507707494116797082799216940610922003630319370000000000000;
   32256336128552242573184861390305967021701265036180824161876490000000000000;
   52499823163033555623482932436402529295437741621512694064046360000000000000;
   53051629344148580752569781953545164494026926543912957610506280000000000000;
   20017614404598443803844045379717258159705749724801521458820830000000000000;
   (-23049895404758252572793976580670383048881293744840958376248890000000000000);
   (-30132780953264178169093660614413340754443839375884858267520870000000000000);
   3285787916338710468450547883547348694255260871071954509422161000000000000;
   24580815137375955357529499608664661322398323341685334566268480000000000000;
   3690688531571127205290633425993077868843846977265847006108551000000000000;
   (-18287733073298491669204087646507630928689652216087245742184730000000000000);
   (-4683823374455167616514752420549419665215987106243491879971921000000000000);
   13462756791022608774909233154841526629876986252054791677614160000000000000;
   3447863127509970524678534595639646616244376966117385829345554000000000000;
   (-9768535580565244174963692133038973587005628990493154911133358000000000000);
   (-1734192283130589908795581592406238282930530566316914040035812000000000000);
   6774789550190933956165341752699717255041141690153626336867769000000000000;
   344801895554095113760047192607962233584220738871334260975531600000000000;
   (-4333336861608628393863254980828284403766309203453808666888800000000000000);
   443173291006298832048741865632233828450438948296630345401056300000000000;
   2468806001015186586264188361362046240243934625858343309818244000000000000;
   (-681554976455230963925944710481125417960505066728164425473789000000000000);
   (-1206359196821849005842466619530619474644989878503490321948471000000000000);
   583881662774894486449737057683880971147602783776289760293532700000000000;
   478486311245424171800991666912032984897310778160015721496000300000000000;
   (-372546124707425479917142787144293709902558967246608804441052100000000000);
   (-136037384563969243657765013713377792965926516664483923588229100000000000);
   187599866820279562615276691250856238510616876189390019273156200000000000;
   14156723931404642575737805813962058409418492827482505235098740000000000;
   (-74867495591146299913206798196832273557468473709603992165683060000000000);
   11546560636589212519692979167718812481428729754908825727411980000000000;
   22957909822334562023666215440543668557291750504205157763448780000000000;
   (-8903901490044488099517361247378396756893227855233897357882978000000000);
   (-4907713416190250858324783990436748073854807494400738311968278000000000);
   3641401211050802781223450761733180188911730291497201507086247000000000;
   463866498139429465400287142647688575105083781767184370691538800000000;
   (-1004326041333422601781848560432120920634648692782357855473103000000000);
   124790031757483414605238169275279604705244326598223242264201700000000;
   184036373451776919168437930903927781035062030533090053640481800000000;
   (-66702154799548925887474504580852258800968826993972567749673040000000);
   (-17574611732098427799036762649719186358709069832813929398125470000000);
   14906600135353621709893400650330619519609339543886335072643600000000;
   (-826238731562655696596642924360098489965003970483108098865827800000);
   (-1784138690875710077191713941441263246560738410213624546116655000000);
   504404705638343644463125284005786200226408772067680858037366700000;
   69445403289462269529767047186776975254100514050556625755301110000;
   (-60770412472290102247602453055963078038300535338368493846805340000);
   8492220011056382105461206077240377024404404638947591299761197000;
   1867367263783390418963879146175452376940453585791428841004699000;
   (-836549047125880079934928979439790890076705408521600819737219300);
   118885053340590152084232174902108949720394068888236451845540300;
   (-6367772354714857335632692092267254266368934590973693820942617)]).

(** lines 930-988 *)
Definition db29_z : positive * list Z := (74%positive,
  [3318966279841524761813546359818075441349169975922439988843475000000000;
   64095168030444345408337067291205963220830617169350049873746760000000000;
   570212651777337543476084399862350749491455146496812645516865700000000000;
   3077358022140837676716707336516751814713312018344719150923618000000000000;
   11137011695174053047621861663703277701913257723421907151186170000000000000;
   28065345597098293769688812627704806065009200923985342296152890000000000000;
   48975880476219931435927059329935735392358396100553316202405180000000000000;
   55137443275837519512237460716701359924669843912334296638865360000000000000;
   28910523833582916346056911135862640615131801583544609524692460000000000000;
   (-15402873445990005424662937795033701417313399829192809512302400000000000000);
   (-33004094891758805202950837794870126119593105396296271246137190000000000000);
   (-5570680007294085781514541931715795784309410235726214400350351000000000000);
   23610523615302594159831107340546267706494683573283624268304330000000000000;
   11241917487318837647697406705358805430768178168615186678984670000000000000;
   (-16087798859418773607716154655318523330851599401599683935903030000000000000);
   (-10784594993872142010778819573547079137862411539342643165892730000000000000);
   11447229589381825797341359300600532862678227976403933869034400000000000000;
   8322074716244975790297348835032537357891920536002627784941129000000000000;
   (-8512549261563550232832311331420804581881235448862834507281486000000000000);
   (-5502748952532572320924541450626650067707344725344841099873446000000000000);
   6347916458421186633577789314698972361081611994794140119302163000000000000;
   3053154327270413646637328212093941030592133225231728964047047000000000000;
   (-4518798127778834515979704475304405691390090327474972089790857000000000000);
   (-1291714255426679462966473962555410660387671182428076570686472000000000000);
   2947043187174764111028122319949903667638786379520519899154373000000000000;
   264832730767816791554239756347974911967376828699013605157716700000000000;
   (-1704122457360668969234196743407615179099529206118693044741086000000000000);
   173788033272051116443002782434535480161137341926459006809741600000000000;
   846972549356075228777296166110471079130649637335423712699890300000000000;
   (-255080712778947265914507224772473563718359094251185825535400500000000000);
   (-347379898968110063064979025507623397095772166682019562059837400000000000);
   187712092572365013317933815434487347723056734066854801635868200000000000;
   108705394222606296673894439784449841794552363005341114818220600000000000;
   (-100077832708568054105569670776006287092589701453034826279413700000000000);
   (-20007113630767798082963011107960264701631102028488947443167550000000000);
   41112834547427670334247405430040415000548896606653674901293760000000000;
   (-2292018041214499897382298271438084577065170236103859181134525000000000);
   (-12930448400807206091614669396782268524404753127447143794990740000000000);
   3645026068562774967665464216602750761690984830805534178557146000000000;
   2913344750169041218495787251929571015775436967652945386217480000000000;
   (-1657328395306616289863396387854880512976861409870690029695161000000000);
   (-359364480402518763806691518973195045003462939252254296247716800000000);
   475060924645255285019711756475936319495351831742840024162968300000000;
   (-30290545920528182864742282943071417920537916958550585632995970000000);
   (-89757017506362807345116519416818187678950522873324715375105100000000);
   26338983869976965539009677041114734753680196123689225993942140000000;
   9387197411095863026484410601284876812292554863800653292318725000000;
   (-6286156922010786166768503252870590953166867739448102804392389000000);
   107659190661919613738520197502878513960767031982126680356678500000;
   776897885477006223889596463939132455161170129359405593534626600000;
   (-189399538617198414777461107661894601133749879060903162669722800000);
   (-34268008632630890018110122788898642005503425663864056768935370000);
   24070994535093429623998119919293307251866265828910904622393660000;
   (-2940589250764532582888473974638273664244682541297835986306504000);
   (-783250973362781703235655658281949479488413143381084884470988100);
   315276241337031042379753987689386162141838202466870449262094800;
   (-42856548700683441018981850733763076868753862595411809673473990);
   2219191311588302960934661700068023727737812918006011019184982]).

(** lines 990-1050 *)
Definition db30_z : positive * list Z := (75%positive,
  [23386161727314214714744072798948919600116611463565804254005380000000000;
   466637950428550933666200011105536514084898756388219903532208500000000000;
   4300797165048069510045016757402827408493482974782286966500398000000000000;
   24130832671588378951949199879583119439767250051135612623340920000000000000;
   91238304067015706793215755550858997085645001910807515956426500000000000000;
   242020670940214099446759965834291951231819403268789843622953800000000000000;
   450487821853317836698135180289833641531494437574069950655477100000000000000;
   557572232912836430407808252099985041349257164575478537462973400000000000000;
   366242683371627979314487115136908953301629923499258474162962400000000000000;
   (-66183670775937315019097410418137264749112125444748954413951480000000000000);
   (-332966975020855606919684932059885050587749456126861350639251400000000000000);
   (-141968513330082931021902626740375825495427060282502011148350500000000000000);
   199462121580664303242899006211123022352322608813136432877492100000000000000;
   177829873244836736128025092133042504626028970097117675036256600000000000000;
   (-114558219432707781489151877861367224340495754911439374917313700000000000000);
   (-157236817959993812687819737888650155325171191061767339812461100000000000000);
   72778658970364426998935443266052442352487138045567156044166320000000000000;
   122747746045009377869157879769815009162435336524821290732544600000000000000;
   (-53806465458257076760220150518373043003386459846156392379308000000000000000);
   (-87658690036383660480265720536990283538469823048513424798938270000000000000);
   43801664671417732503054077102501353730166045937364804284153030000000000000;
   56712365744735694925906369830306174938071402249249789463022570000000000000;
   (-35673397496759609657808197431760567341372513367813893693975640000000000000);
   (-32263758919352208159549134833927256821657784264117052160102800000000000000);
   27078619595294182722068483184200065229738409496001867103277760000000000000;
   15287960769857395460528966260423751103021026409367121420262210000000000000;
   (-18399743868117341187281698805491483896038904453241273308118110000000000000);
   (-5296859666131086629169938675330494864053932988161015674773617000000000000);
   10915631658304889275368814802119290498868788313137004600179680000000000000;
   619671756497724438359253499928425531569454623073955168308546000000000000;
   (-5530730148192003288871383856487027893918513053091795443517653000000000000);
   843384586662093398212600358436593214559812608748140029499908000000000000;
   2324520094060099304385756339638431339131122661576649123053845000000000000;
   (-860927696811042387966072517352534707780130523764412205495465900000000000);
   (-767878250438091869796392244151474275851670616078812397734007300000000000);
   505094823903346779625654455408655436796963862771511400363555700000000000;
   172482584235170972554575971437427216436793357819491067847947300000000000;
   (-216171830116963380427103886208796409442900526617270238048336100000000000);
   (-8548305467584070994787824796256108217987765582429940610377190000000000);
   69820083708083278510820271931009144022216584441518896970450710000000000;
   (-13397168632939716292963145994489014650789204064435165501957930000000000);
   (-16361524787254264886545287104788561950046084017739505119151620000000000);
   7252145535890469015723401169934327900622894130695550273452916000000000;
   2327549098493686509557358103785598216688723737824121617676858000000000;
   (-2187267676996166416699555236143059249832615777542412142603694000000000);
   10994743385262033042863073834634985423764329723083424287645760000000;
   426166232601157244646984911441637881741945843458339845598514400000000;
   (-100041468235450089886497933296555993410468615763955385067049000000000);
   (-47643799651394533577291547486880069755619344253687128529853880000000);
   26054427549776254319408858419509559280853386723810462258388800000000;
   555339786139705398296761807267257220649097260602655694691002800000;
   (-3331105680467578245901976412732595596538702049437802824373020000000);
   698486269183218258422109666557031361128044999151286984606478000000;
   161362297827090436061041870468578365690597913434492264792629500000;
   (-94613879972768021208845258140920018719939100621277022935739200000);
   10001051313931711927463378603304283694951101803466540252874920000;
   3239428638532286114355931428908079297696045600279108835760520000;
   (-1185237592101582328254231496310584611948560976394420324137742000);
   154399757084762004600361641764698878067033304086895479403990500;
   (-7737942630954405708679963277418806436871098329050829841696327)]).

(** lines 1052-1114 *)
Definition db31_z : positive * list Z := (75%positive,
  [16480133864561407481221778174183583164411952362285909586034890000000000;
   339412203776995669915716016535294221221392823115423357116303300000000000;
   3236884068627721221829662672296912258338131668810067169630813000000000000;
   18853691612985912691595689442757634689998291395479896485534860000000000000;
   74336093011647886979087764953880476693789198160410313446502710000000000000;
   207012874485235328619805544411191645061976283775613432301957300000000000000;
   409192200037427856392821323583618896370429877563549354951936900000000000000;
   551139840914275498359048457707466313207499226388681032442161700000000000000;
   429468808206137295543041314879900835457340853841433131223664500000000000000;
   27169212497369464223053547326342618734016790920959928271983080000000000000;
   (-310955118319507518692656028581100471539867822933352263420200800000000000000);
   (-217978485523563352169354450722010563163954743590311274713393400000000000000);
   140178288765273268165625320699307389542288151138015263344109600000000000000;
   224966711473737093369729790506688607830749013641530262401833000000000000000;
   (-49926349160468239770005793997301386930745439032340927979364840000000000000);
   (-186962360895715449437457719625838300920865507618765384707916700000000000000);
   15436988429488934096529953352812362318452935485711668832190230000000000000;
   145089500931993198151894290785487905912887287311692150415667400000000000000;
   (-8139832273469236863527708715566588550006680549152344840146851000000000000);
   (-107612773323495632666860551164801395238030195359044710607561400000000000000);
   10941297452364969257252379006378026695048357435554668117963690000000000000;
   75353611743281406955282897511091339413767019844194526386862260000000000000;
   (-14880026618104822026995559875034292891008019799100469132573060000000000000);
   (-48619075464854330035376033858311901093912635420445160488711130000000000000);
   16154171565985911136194538645867016656358691661938656519605910000000000000;
   28047619366756169068619272116591549770493922814791137646977850000000000000;
   (-14276275277763519433098001407567460872150161947755790705990040000000000000);
   (-13900552939266528807558988889344476717323735190286702011248160000000000000);
   10517639487371840891286334412449916433310338251020319088586520000000000000;
   5516163573310992566561289762241160214476622662764637181816550000000000000;
   (-6520852375874612553325469682628530079210293774541131381751695000000000000);
   (-1428264223218909891400516038687842292177211292295049238921068000000000000);
   3393066776715931928419358796960612411097347419792355896915546000000000000;
   (-63979011060146004928812023143072900779929727550164940628752010000000000);
   (-1459041741985160943114515221598080223845239255190055621901681000000000000);
   343139829690473443811840108492950591220822968462985753000914700000000000;
   499881617563722261489691240667951323196672244003279902497950200000000000;
   (-239658346940294961528564668806947614026078170800617491253566000000000000);
   (-124341161725022866940917980738339919987964117799345358880772600000000000);
   108958435041676688273865183375263420635844130888086918441667000000000000;
   15013357274445329970716519376309834427582976880877115214412290000000000;
   (-36312551578600861642613137731721629911073486980831644891658370000000000);
   4034520235184278839752741499546098778993926344831736074409765000000000;
   8795301342692987765440618030678349427367022581211855857458220000000000;
   (-3035142365891509630069007852947057220760887215249503512783023000000000);
   (-1369060230942940782050489751987123955074404782177163471279285000000000);
   981001542204437157395097608805806438494614618811090532167380200000000;
   53272506569749154269774409597830805937760121300631706883091270000000;
   (-197592512917020624815212115669659050130380318723192851386704600000000);
   36168265173310048052475672184057985913297881223372749561723150000000;
   23283097138214096443085388885893299211419485396781066807770820000000;
   (-10615296021502523065004042661508239624026737804849655382705410000000);
   (-647431168795986139870258153934195443874792625567160565709580700000);
   1408568151025177427076547804944585301332087108125727813194374000000;
   (-252404395415335330618364370293321830861797946718484845656583700000);
   (-73489300324862639047669139196536243795864874379151751064073480000);
   36921088088711294116041891962596776404409193694782637288996020000;
   (-3327008967125979929910636246337150851642079794871116041187279000);
   (-1324334917243963163878274345609465717294426628053460151843705000);
   444546709629193216329841185209301145962603756043917891761159200;
   (-55594420505790143376413757300835345215138181648275567637565430);
   2699382879762665647295493928801387173921314576598505507855504]).

(** lines 1116-1180 *)
Definition db32_z : positive * list Z := (76%positive,
  [116146330213501488556746410076065933295143142012104899630559100000000000;
   2466566906380903352739104211274667134470169443886449124673996000000000000;
   24312619195722661007804230719059581278119696780559714880605740000000000000;
   146810463814191356354780900640219483110766200134342189348808600000000000000;
   602574991203353708174545197552796703185167738407899726192002400000000000000;
   1757507836394388988189299915753348505208376399651864661397588000000000000000;
   3675096285973496361995340339143234125206079560406868595968025000000000000000;
   5343179193409538322901117858552186425529774700290587495921679000000000000000;
   4778091637339484033555130814414794130354053753675509287934741000000000000000;
   1206305382656178269538098710665261299391507308342013788891222000000000000000;
   (-2666981814766755535489784087869865024226542605534080371507405000000000000000);
   (-2774215815584272153338153320303401666681294506143291967655666000000000000000);
   647133548055162383100009009516766491844865915772015532156081100000000000000;
   2483106423568801736064852157222867588791898170114101300999760000000000000000;
   246624448396974044170147933480872321480261493808125892063530200000000000000;
   (-1921023447085468984341365278247990525863123891147783426068990000000000000000);
   (-489951171846717385335594322557637741839428015694598689941747500000000000000);
   1452320794752866460838830744051944832326998342053148426312341000000000000000;
   444049081999397402264061953404660357108653154446842151914362900000000000000;
   (-1094561131160893831027722774343269232755171130623890041619420000000000000000);
   (-296278725084477049120445237905121550504906864555107077936784300000000000000);
   808741406384839574409083159042632769081885467183642327541281300000000000000;
   141061515161066077286973880293174015027526938246379903101390500000000000000;
   (-569263140624784355047841627115853796055527009795333056765236400000000000000);
   (-23802644649325738344431783620865038473281349945919541358797890000000000000);
   370514579235446801043763345801303089801549690560942400445095300000000000000;
   (-41459076608272187814607004288626110612673281086536496536342760000000000000);
   (-216628228363911934763477851694748559859902936751803386960170200000000000000);
   61675273106856751125790596895201050047443672824129217398111640000000000000;
   110174007154068811653280611956434571247305176907971240790864800000000000000;
   (-54115682572757912085815024107523830506000459422756476853613700000000000000);
   (-46492167511844115286580949845049001729891901289058876025413960000000000000);
   36272246406878649601221229843917047823435483853753212602519880000000000000;
   14689551004684677725288117828404806391665828225771910792605430000000000000;
   (-19647405558217782541836475406567464500927258581265959849073040000000000000);
   (-2211678729579097916278097586914956834196749138610403102772710000000000000);
   8673058518450555343925662389563539890596549655683386287799624000000000000;
   (-1024537310607396186949656796812972062290796122915930356634122000000000000);
   (-3059654423826911750479261161552574500739091332121504634422577000000000000);
   1053915461739828114700905192091104141076083602686374410146603000000000000;
   810367832913483838982809189633415622422782136249162604495042800000000000;
   (-525980928268432278264891433837796289024597584227242540812250600000000000);
   (-129404577940551272395048025911099572251701987028629590808536600000000000);
   182426840198069122060385011799571261580917709280296748908122800000000000;
   (-6361781532260254953363913076575914206506177493714496098327288000000000);
   (-45583095762644231351239641455852888081814316527812534377384450000000000);
   12028890363216209902961344940798469524042164229237506055070470000000000;
   7560047625595947819392627283726711361273296630256477108501994000000000;
   (-4285970693151457255418342315045357407199066350632593899896712000000000);
   (-500336186874823029369288722233639031478609045081921603511026900000000);
   896596631195772837698148457265517754505443354272105747072636100000000;
   (-121992435948337309311039674898508172038399285996128521384074000000000);
   (-110438302172264897955213112857507525551337224928309658373674600000000);
   42504223119805929837409433091972453849919412515634716710655430000000;
   4384387799940474369553236949848427579687147486892033587998023000000;
   (-5881091462634605628881794361152305108432139465417759716875076000000);
   890472379622160549045538757918937113790333074939737403764496000000;
   326327074133290787598184498010494837595555127311538640855208000000;
   (-143091876516920232018802221173975059460874292864148502683660800000);
   10756106535010621151657349901533471119028746689450950347919470000;
   5361482229611801638107331379599434078296259332654994508124989000;
   (-1663800489433402369889818192962259823988673359967722467427927000);
   200071530381052495437579602059762746710463576675215432124415100;
   (-9421019139535078421314655362291088223782497046057523323473331)]).

(** lines 1182-1248 *)
Definition db33_z : positive * list Z := (76%positive,
  [81863583141750919398589459751901027317339688855472176194346020000000000;
   1791016153702791479424389068736094134247294413108336017758506000000000000;
   18227094351640842080846177717876917092555133742814977135805680000000000000;
   113959433745816092583084061971639713044585363888847294883293200000000000000;
   486146665317161950838570768158736639716493143112505357432789900000000000000;
   1481863131800528081784673514426737436792606299953305691300616000000000000000;
   3267181301177075783930752787756046348844272437670999719562429000000000000000;
   5093761725149396552227892926384090200953139820961482931291482000000000000000;
   5112547705832674655425831875568453973369927971748064975152374000000000000000;
   2095823507130554216526494469993023406452629154801126958766008000000000000000;
   (-2042026223985421049629055102642279430174095014493415546881477000000000000000);
   (-3159974107665602561905181464284910961862968513875028980451424000000000000000);
   (-192783394369527591560058342540866410889384527161624040635822600000000000000);
   2454206121192791114179964351253140999836791489738418857473689000000000000000;
   998515586803381569813964021547763936528938428151688536292997900000000000000;
   (-1714280990518593279308738113273443832545615219650436927029674000000000000000);
   (-1108441331167107910806084983056783194189909198734302929909672000000000000000);
   1219678564037346149389134584371009777591763921148126952722200000000000000000;
   947880880506159588926319177909057116023740817934634539088872100000000000000;
   (-911469683513314891309315375713837341892346284774688090267608900000000000000);
   (-703024850540561592145328081417166516717198660896319327508489500000000000000);
   701911439409965325499893584243284139391584109663351468019014500000000000000;
   457345618938966774313904042764163896784345942166570974008651600000000000000;
   (-534712513358222891943111082466316858326005038333635955498018800000000000000);
   (-252485829774764992925839220783772479393772734617729468470037800000000000000);
   386870607602449648174867503185252804730332381625015079309183200000000000000;
   107032658200195494265453496813772776969816885318607188873631100000000000000;
   (-257287617547329733612321139227830187568776083771020457962826500000000000000);
   (-21677586173536073247832986571728302038964338484180616224367270000000000000);
   153169541158576654834744226643187406022930478719158943096753800000000000000;
   (-15942887824146047686378564461113927240598369344551898375002440000000000000);
   (-79535403870579392404593054065381162206784952403025926775827730000000000000);
   23890624081659085759358159734397289881518360947536899661084050000000000000;
   34808009534057119994114610024292273859379422547785242574362780000000000000;
   (-18607182144557959120744821507105678243172282038970001297299670000000000000);
   (-12043092576046588769166449800973273728920085860470957196368290000000000000);
   10743806963512913550738992349417190804738770205952091977066510000000000000;
   2727305847336937211749282358350196461733595290569540045817329000000000000;
   (-4908329007590351474487792254066540683724948757382104652497458000000000000);
   43931662517661857550590052969581298440940635243247181752546730000000000;
   1780431898251245351831728023200069586928513661382622116969992000000000000;
   (-416043851627370930623436880793393236056778769291888311888373600000000000);
   (-492956442341730183431023148262157412740995092158306255948368600000000000);
   242333539881689036562118837992204104607380881918202402658977000000000000;
   90708057578284538002036774649215081784682566854382118185750400000000000;
   (-88661213667577361691760344323642981341869290982746510228207600000000000);
   (-3607516102879771631230351118595069330196155459105589342866625000000000);
   22883712761415273054813955459937630105659686675777681642017920000000000;
   (-4426923407952870147984002129341809185622768353983550670755106000000000);
   (-3985791291985944076942626511739220753169387460984290019185514000000000);
   1822443332571053437467128998002798233969112236553215291639303000000000;
   337797270373085437751620666348186909937615425989721278414477900000000;
   (-398783819851888072281950285081493636919738439256197031934966300000000);
   36728635768381813405055637593791690997177126452834487793903200000000;
   51112118573474538395493665939987588911309210283745762132560270000000;
   (-16713926772519324951732196141044118418915456015217845597930120000000);
   (-2496402105246193648073519269370197331176405371538404298745013000000);
   2426833102305682309891302883361232297664099485514601790344279000000;
   (-304957445394586343036129693145514150012817015164320693754792800000);
   (-142023685988993679243707784494041274934322564448777084054329000000);
   55094147207655245487526736311977144478187409859290810649075240000;
   (-3343481218953278765982532722689984725170758193566174566492199000);
   (-2152488386833302618520603545685994753329478275805993737095214000);
   621474024717439831557621469957723069302130785467355721465275100;
   (-71965105453633224140336544707790705923166007806975583610831510);
   3289373678416306368625564108782095644036415401902518812978798]).

(** lines 1250-1318 *)
Definition db34_z : positive * list Z := (76%positive,
  [57705106327302856274660677968093291173247089190479008177380250000000000;
   1299476200679530037833484815390569400369432658207722720405084000000000000;
   13640613900590499982000144493968774395916804356108373694113390000000000000;
   88198894038849788031827645630958793353309779395416308628047570000000000000;
   390488413517859413890502621959156920404381657794151701963191600000000000000;
   1241524821113768081954449898210969172708199672428635378051285000000000000000;
   2877650592337145629334256618087718872558560120999651277991839000000000000000;
   4784787462793710621468610706120519466268010329031345843336104000000000000000;
   5305550996564631773133260223990794445605699030503652382795600000000000000000;
   2903663295072749510455945186199530115755664977934564128822650000000000000000;
   (-1282468421744371672912377747048558427612774932943748628650824000000000000000);
   (-3315253015083869417715548463087537345035828886426345397256876000000000000000);
   (-1038919155156404718287260506925867970596448618647006698388596000000000000000);
   2169072201874275950610018667099322465619408030256534197819784000000000000000;
   1666017504122074437311574334509261366682993700573488534577890000000000000000;
   (-1273373582238011562843862636988693890108793629966541695807247000000000000000);
   (-1609249271778668063014799490429649196614628857267382976958607000000000000000);
   779918469379481073826534953183201508709688227733396847372639900000000000000;
   1341259602711361284802399913977387999358280900708582462625539000000000000000;
   (-544829680641390463663267138314064255426586594868615727101728600000000000000);
   (-1029475969928140852342073823689090498245496056845473569066667000000000000000);
   435760946496312972642848661092580072713772413637066942124660900000000000000;
   731852354367956055554622133545204568075799894749388312493456700000000000000;
   (-370128384178624496035640212555419004075007900912746165578492700000000000000);
   (-474385596452777624722068141098385137788975601871642735800829600000000000000);
   307397465739593445993122651384413434630556292846699320816460300000000000000;
   272283507563541961009583989580585885520274589771811773149653400000000000000;
   (-236717379228263648504678643809494042745607952804355556686711000000000000000);
   (-131439800166571608610582750612628704134268057840400735943961200000000000000);
   164093741998651925211226149553740959236315630987447331005747100000000000000;
   47136492609998099059188761254374888562358740270777550045392050000000000000;
   (-100455067083615191743914686114643100036485840118133713489142100000000000000);
   (-6194748845153872839014356621835501857322345445234809347431098000000000000);
   53349507687599360321702701959839215115655391007919069529013980000000000000;
   (-7692127975067836975989490900561029844887285335804349474993607000000000000);
   (-23994539435370558639331248276880819527017805998830675605018700000000000000);
   8589959874363661955444898475746536583497522107459291718900058000000000000;
   8751999064078688732610570055224339733760304773327228476255647000000000000;
   (-5527355762144197975516415296735124460550632283763688359649888000000000000);
   (-2326732140233531635428863212833942245597361085708567528230733000000000000);
   2650772397558057819755811309071002543822145660933016957735937000000000000;
   266005001845344190304682846802558908640312618079846434780167800000000000;
   (-991469777078013460358035075886937847180275183760846197102256700000000000);
   135311722724964958125188737641448622512734635204220914131556200000000000;
   284495141969780737650308000194376593060124222518389365854003200000000000;
   (-105765749425795062384831630475521812023325347931757433740962200000000000);
   (-57108265109983039382750500743334003055124514199836465917623180000000000);
   41698717585470283983167616599849288043620236436297413587997440000000000;
   4979718101421307748081857636471761057429219265531618602960147000000000;
   (-11163065348170084285979950707517650803832616581126569485269540000000000);
   1448195708333185127061180618150009526758658641231104901703561000000000;
   2025990666667859216690536885693725545344933235432307649205497000000000;
   (-752670174041258941117748179784104428166255578596941539836901900000000);
   (-199034650153173691586618044833761496757074421115824151458912100000000);
   174042333293606807649705127444514716019078384785440983648966200000000;
   (-8665744261368722215864741166245385888818567571145958531936939000000);
   (-23165019469954827515822942401360100674150844990257531179410010000000);
   6446378210323402313101214894500231181606520211579581132442548000000;
   1300410318609415248880403259300467720631189120978928377152233000000;
   (-990477453763240901547953033397912454018319917459137776284522700000);
   100420873546176986483651642899830677803114365010184236162233000000;
   60801253540001672540590259299155912911157517342885845631316360000;
   (-21078791089153015462853703954437788646762752351260445996832710000);
   979945115821159772790117852052638869214058604116362425299180500;
   857919405179973317979311229865260051148658121652868348214310600;
   (-231708370390640848107825708190308952323402042309217526192551500);
   25873383819356995558135381631449866888341425712071528791447310;
   (-1148944754480590128244815794312606245147888158018823490936280)]).

(** lines 1320-1390 *)
Definition db35_z : positive * list Z := (77%positive,
  [406793406114855902666524711020608457105120147712197261221800500000000000;
   9421469475576740631603027533116630224451049736050903361458759000000000000;
   101912268037509810931931467275148508020255760746719921377808500000000000000;
   680729288431913201197133397901562511349405064279739781762532600000000000000;
   3123628851149071453063391210769353068187088999495893257051179000000000000000;
   10340445586147837899387877549292791839855533227960635170491400000000000000000;
   25130737899449331285132519714889050428667797610147401928169020000000000000000;
   44359273922403543781839104894484945947820390328079562948261050000000000000000;
   53700842750916610286706902317169745475800349323610536077238870000000000000000;
   36034564051804732787444585739887184225381142178907922706215630000000000000000;
   (-4388388187393404111343479394097224312100349011932028865098625000000000000000);
   (-32382286491211612121473028079931767156254803272355125305931600000000000000000);
   (-18178697676672783257883502645281916768414933694608491235386160000000000000000);
   16604135749078091954384333274709479405380979145252980644777850000000000000000;
   21729928932108929776754934561995591140363263585176721069729560000000000000000;
   (-6526287131067753892154895911331108284007380738865652420304233000000000000000);
   (-19191958929859395287607868007986361985164959579247988205008760000000000000000);
   1930954466601835091947734585938109944647435243484967057775110000000000000000;
   15529248039623711442067537607125669939873193789652311864776300000000000000000;
   (-475268083411135044528811099803097914371086468904190216711911800000000000000);
   (-12058552264339355450765894807049577226353244568123221504379890000000000000000);
   473422917264194876329398031499221329397177069548061678982838400000000000000;
   8991354757072954417865374195261962983644048998218233900481856000000000000000;
   (-931855894990392483787500282361750422724656215267189457950437800000000000000);
   (-6335603744044346612098887534020545705731671718057964802006671000000000000000);
   1322854958503655524455929847605110719648746890497356808289302000000000000000;
   4125469306470509212749750814299126656151504805845417994651417000000000000000;
   (-1436683978422007182104025173214012797788904894291716373493525000000000000000);
   (-2416949780166026740294880681731084091264533168816746227537030000000000000000);
   1276645671565674419403918018742432714973656598227939824940035000000000000000;
   1228943600811871086161967625814297050611100200023898377949151000000000000000;
   (-957779789923570999814730970371351860828323388279348973349164200000000000000);
   (-508599164923342988179763658357892119467539380776115454973354700000000000000);
   613775458674052108959680188363192122114571254504251998764123400000000000000;
   142808879407076210735558587066984213260915904062589509007011100000000000000;
   (-335764438092238322956773256529866563903734858596112707550793700000000000000);
   761596943517273654676964992389531745153470306601611625730016000000000000;
   154963746970236297556171924653978771720443863799782493578768800000000000000;
   (-33466921642508549616085261215245969080411099183613062822013100000000000000);
   (-58648103189918175321758092241314567383671010356941882234088410000000000000);
   26483288199612890393028101226997109660485653680475752186931340000000000000;
   17000122836612490435846901947167677712042077426257463085229350000000000000;
   (-13658830722611616025599267147447464225675091774435940457096530000000000000);
   (-2976995962848509743944225866488519668585242655980656646544319000000000000);
   5304143122913310222538317980686374696005605533475685587486683000000000000;
   (-243700152682778986099042947854055675269438969343266883107376900000000000);
   (-1572442077270281693663288966405861215692805972737981986121447000000000000);
   430804786171673119135049343793751322073745041013287803216317900000000000;
   335334586287130988939087716804613365737710568161870835526668800000000000;
   (-189592961769315328849389105187544443975331854810599816657453500000000000);
   (-39039317332873061666575194684945119207607673883978257753267450000000000);
   53023686169047609170743526339157432507696006358292296008125200000000000;
   (-3700308378205124537986402644918879149894035910106489082512364000000000);
   (-9990396944534900755781728477561240762191443422318249128866740000000000);
   3008188650719066928230268918661718274504955045022550217051301000000000;
   1084902733789934825266560240100449884702749303326571747323086000000000;
   (-745811655289303763119240761126278859350598863836584040936711700000000);
   5897951310384361575470355861162022501172491937837712969865619000000;
   103082334548543338381170048148855742200521016806916377973090800000000;
   (-24335455737516729361688772504059408172273679372302898012516480000000);
   (-6407938256501889018430608323235974406219193176918284664973727000000);
   4000536627253744510742788201354093006471710416671002244302586000000;
   (-312563935710855754059809822867815076852812156539137626562729400000);
   (-256706547615508144920464385242840153028351968563825607475285000000);
   80150885336879009219486054187893248261156164163433910812889790000;
   (-2597954328893848084315198205094389145706680129208998638802995000);
   (-3397720856796267431956783825659069596940335130100871912329556000);
   862403743472008920268033766369277768281071465006080583240613500;
   (-92980125293241854209215556647198635018483150991167251843703390);
   4014628712333488654318569164614220308046021091178184654250982]).

(** lines 1392-1464 *)
Definition db36_z : positive * list Z := (77%positive,
  [286792518275594633463047947302923861553551177589426271105470500000000000;
   6826028678546358691748629102209605362240344266505035981791715000000000000;
   76021510996684882858697926771060821001412750548923893791985450000000000000;
   524029737740988436620160352439299569604217493719443523500394100000000000000;
   2489056564482796484885927333959115579403023347044729739255255000000000000000;
   8565209259526409083864716995521111486437594750377856524772704000000000000000;
   21775695309790081496379459157199997462489697056506255334158760000000000000000;
   40643369770825534674077939902503844459031516307685581421253820000000000000000;
   53226689526072869147774447486414620272135547231539069011293370000000000000000;
   41787533560096978636206345593742364552222753029969311782659190000000000000000;
   4397519752934862993862182898358763783110745559238982179690132000000000000000;
   (-29442103958911457111007159698987589407224588873778446334436750000000000000000);
   (-24680703697812552705247982786226984465665207182303138890860160000000000000000);
   9811420416311477050518401371401568038943437322299913514049728000000000000000;
   24653727760897421105297091118095954346564187628981527066213560000000000000000;
   727851509579222900968768229946038287864313902666895888442964100000000000000;
   (-19933720560864961986033634000947841427141622567921825705410360000000000000000);
   (-4586140074639271639145126228774831743002971373998329604574394000000000000000);
   15410623662764288417763163004206548758838428194136233953582620000000000000000;
   5027618007353842862036816972809884096761706036019748316890913000000000000000;
   (-11880375431013563168018169313835474460731529510444442244495010000000000000000);
   (-3988085357551317584091699967924044034100374257075864260934102000000000000000);
   9115678225801654406336059281306715151058903055370522031843771000000000000000;
   2503872144956848989919484296709846860569180993040383621980546000000000000000;
   (-6820901663681751124880436344265538690580358108714540763125119000000000000000);
   (-1131910031681742794381808082173695022123056280821611354577883000000000000000);
   4851308354780908538616267662315735632292989749013261207046367000000000000000;
   142497266176539160314780260737854239632342965766000975565240400000000000000;
   (-3198072067763969654470293513742344601172739688274251641873778000000000000000);
   398404019871700485739717948679008232131429136665615121342906800000000000000;
   1906359478062535932877576164368198274858108513696832728889209000000000000000;
   (-565781324505881838042401697351671457049916143497576179837902000000000000000);
   (-999026347328137234800174380648917266546568505697565249750377200000000000000);
   502298910666582900469981922079653883039394599468728979246554100000000000000;
   441348483535057525191861678028777558547101255684803730102599900000000000000;
   (-348454144540488331120954139542853573269766197181872728600302800000000000000);
   (-150307406629664374954936365536341187985807020274081405496460300000000000000);
   199079377185173727040429324570187818660089943951347582330591400000000000000;
   27768127957120260681523842076051403834902427569219365019403890000000000000;
   (-94634038232611019646049180594479130477254821300634922427798780000000000000);
   8614565758992702032613879159402330909634737204578606399403107000000000000;
   36935072849675105026200403418822366877495634144334328425675110000000000000;
   (-11551188958435270968483769994131023951919763509366665738187990000000000000);
   (-11318994680846656717273919229244114679384507435651069780994560000000000000);
   6694741196930590257104231749283786251555566773398199990337698000000000000;
   2375106683660860777161950832380341362257503761490580896617678000000000000;
   (-2731390824654337912922346414722045404779935825834384250023192000000000000);
   (-118347105998561594278318276235236091730434803494741298660832200000000000);
   837221819816078843262805604321749155219885735843211227525331000000000000;
   (-158614578243457749550261463156621183972287949282791179070949800000000000);
   (-187081160285918071376297228115495352805625745190038109747696800000000000);
   83114212797077785281635974059353758868550295921504245445007180000000000;
   25484235225565778312185190528443874788198665319028545235447090000000000;
   (-24553776584342326991358782867945785153871381942476932018462630000000000);
   275324907333951225408507645670024192949272045788907605845107200000000;
   4799043465450992009934526867650497683545716858606119786327559000000000;
   (-1156093688817008406756913949175208452083765368825442482226093000000000);
   (-561278434332779139747411435709436855798241389580298081481336900000000);
   313884169578242401835156795215841500357138069923614775223900100000000;
   10908155537137518109647130588004486760684756736113495664057160000000;
   (-45125457785632496344252008560884901950040778060629780677960200000000);
   8962418203859611987065968320295929679774693465791367610044773000000;
   3037429098112535221800013609576297196061786927734556635696416000000;
   (-1599716689261357143200396922409448515398648489795044468046420000000);
   88768462872173742135243996828955640559498860507483218184111610000;
   107096935711401700242443347162119757905992726172784637596837800000;
   (-30292850269748772688961345897694738546697587974467957573298620000);
   554226318263980423523168586102899515869439722390729526918033600;
   1338071386299105896025578761458472955294763310766371178363783000;
   (-320462854340174986043931663884857971178917644432013435525375000);
   33399719848186932131325787777125036700144594111678392114952370;
   (-1403274175373190617489823209168013922564353495443487431242610)]).

(** lines 1466-1540 *)
Definition db37_z : positive * list Z := (78%positive,
  [2022060862498392121815038335333633351464174415618614893795880000000000000;
   49423437506281320047142861174344544994857379477913978671959100000000000000;
   566241837706672401376839437324943916351865484049360357514473700000000000000;
   4024140368257286770702140124893772447952256842478891548092703000000000000000;
   19762286153879591532440555022050174615385894757056184148968930000000000000000;
   70584825977181608320303618907930076599634839253121327418686710000000000000000;
   187326331862064944802884349174760157676190165688828883819202300000000000000000;
   368440972400306140944583861696494113267028772475472942520404700000000000000000;
   518167040855622887310451966753443720538710957926571807117417800000000000000000;
   462207553661605714550544840152817207005076853450427869422936300000000000000000;
   130878963233020172605770120101764960103438107089327558689807500000000000000000;
   (-246180429761083413286901858114572071036543391458468069169371700000000000000000);
   (-294375915262661772280821957593267373367429077223564469136742700000000000000000);
   19671500452359389770777686487400523802881565072226471873018940000000000000000;
   251523254360268693343522409507816629144292399261159382755271000000000000000000;
   81806028387218623390290769826524116960000455337167260276621470000000000000000;
   (-181962291778608000740882425652522521644444314386875261128426000000000000000000);
   (-108451713823301784555407881234187656851483517634163978355854300000000000000000);
   129929646959853752784252889525918865312060231862094450297972600000000000000000;
   101780296838814179747094822850586561748004828798317658160796400000000000000000;
   (-96607540616684390309154050459557727159885853747712822913154960000000000000000);
   (-82330211906557408674040736609203794149883024920187837747020280000000000000000);
   75047619948360179335790050725942454350716744528821482285838650000000000000000;
   59567410871529952454355890425201080668771147682162725036843980000000000000000;
   (-59256815632658970951538067249659243340775551742814361895122390000000000000000);
   (-38253829479384248820111088850904421168029941936118847381333730000000000000000);
   45807944151268332466332561561103818058481381587847344969817780000000000000000;
   20972800592597548833137694690363932944614977490839211623542290000000000000000;
   (-33523584064100969943586628759132430672347862960092389499205820000000000000000);
   (-8833493890410232394064187990625563257107429109130726291528648000000000000000);
   22618651544599473565714316589588029120611056082128286753234520000000000000000;
   1690472383484423743663952859090705636512807161536954018400081000000000000000;
   (-13763981962894784338579854860970703397862251367280670005911870000000000000000);
   1519305778833399218481261844599507408563295102235964076544334000000000000000;
   7387757452855583640107787619408806919082115520707105052944171000000000000000;
   (-2248053187003824706127276829147166466869908326245810952521710000000000000000);
   (-3394523276408398601988475786247462646314228994098320665709345000000000000000);
   1816871343801423525477184531347879515909226877688306010517914000000000000000;
   1263934258117477182626760951047019242187910977671449470318766000000000000000;
   (-1111484865318630197259018233162929628309920117691177260742614000000000000000);
   (-328078847088019841940718645519089953570623229555461382090724500000000000000);
   549053277337363123021976927389834580936833271628807147537865100000000000000;
   15344390231955032110833386791061612913426216769830967233097760000000000000;
   (-220894403245549385249363080274850978167518269953679704356551500000000000000);
   43367261259456952148523984335240240582168343138393578064044240000000000000;
   70551387820654650758387031099973651419061302846690941310324880000000000000;
   (-30986629276199300524176114531707939387963101412192933296580620000000000000);
   (-16391624961605830992360440204958773110727161997136796709402950000000000000);
   13543277184167818106833491211506340313437176378273542289899890000000000000;
   1849945003115590390789683032647334516600314304175482456338006000000000000;
   (-4309941556597092389020622638271988877959028012481278949268461000000000000);
   485473139699641168176991168443078568102885241385938614142493900000000000;
   1002121399297177629772998172241869405763288457224082581829033000000000000;
   (-349494860344572764589519486793354716462822907694733068219917400000000000);
   (-150988538867158355348492766614847407814872455484996875864233100000000000);
   110903123221643938999903632786714264091623965880637629086169000000000000;
   5350657515461434290618742656970344024396382191417247602674540000000000;
   (-22521938367248057753898164246956184118347160651792971024281800000000000);
   4224485706362419268050011630338101126995607958955688879525896000000000;
   2793974465953982659829387370821677112004867350709951380622807000000000;
   (-1297205001469435139867686007585972538983682739297235604327668000000000);
   (-103141112909697496567795064649815307172288069822286468703859600000000);
   194616489408231502130871455763627798007955932750892775105221800000000;
   (-32033982441232413679879022012683630889339398316895916846700800000000);
   (-13984157155376414879595516825574833486616028367092785130819080000000);
   6334955440973913249611879065201632922100533284261000819747915000000;
   (-209636319423480054161477574275555571327954938126488103084325800000);
   (-442161240987210536733357273485440137320180889697655266309851800000);
   113805283092143968252239520829542788472989337739512920571666200000;
   (-451888960746372639445450962371277317251377836707083929444984900);
   (-5243025691884205832260354503748325334301994904062750850180233000);
   1189012387508252879928637969242590755033933791160383262132698000;
   (-119928033585287955496703511467444532731943755722703646025764900);
   4906615064935203694857690087429901193139905690549533773201453]).

(** lines 1542-1618 *)
Definition db38_z : positive * list Z := (78%positive,
  [1425776641674131672055420247567865803211784397464191115245081000000000000;
   35762519942640230127425690148888762179583072279401264182813570000000000000;
   421170266472711643224701444490646915530057320113054973955384800000000000000;
   3083088119253751774288740090262741910177322520624582862578292000000000000000;
   15637249347572156172774901027240800704862700266326206647856320000000000000000;
   57889943612859256497276642793172419525132462877664812133018010000000000000000;
   160071993564110697348280086116659968516939546505504895130762600000000000000000;
   330775781411014651149363753440461175480076867704157703075730600000000000000000;
   496591175311718097659917114771870893935241483895172608756441900000000000000000;
   493356078517100797572848534699731706496951362359435909111580400000000000000000;
   213050571355578513828674335345856245125562466595116044512230700000000000000000;
   (-182867667708335890797554850794623913521822318504141063292481500000000000000000);
   (-321675637808997862848347172540691636192984194052818905900254800000000000000000);
   (-62266506047824322266433601604787658475658621010455971803104900000000000000000);
   232125963835353108502870810428599499867161556366285807926299600000000000000000;
   149985119618717019958640345378892730729822602826260302863575800000000000000000;
   (-141795685973059621671005314452233027639259105537583065451908000000000000000000);
   (-159912565158244361828853321452353493780420884438610263917769300000000000000000);
   85638121556151057416122178143691653134871296455360018502769870000000000000000;
   141414734073382680088468311937917059409260617491575528349615300000000000000000;
   (-56586458630727381456817876578433206468155094106351142349479020000000000000000);
   (-114731170710744375239414401945894277971566548923016995020102200000000000000000);
   43095895433047642881378712236160306242465686835954087920786020000000000000000;
   87204398262039750119107141641544567620737861242330884718558680000000000000000;
   (-36605103402874295673720710395067723725679387109434328389082470000000000000000);
   (-61766208708413159936047367056132462418974977823733379113981170000000000000000);
   31989877531537806308183811363668590261370354505766311341768750000000000000000;
   40054981105115948209520870862411143090385773793667329596485480000000000000000;
   (-26891493880894514385508517677159673134178903932872367000720710000000000000000);
   (-23114134020549316808569135535856212489253038655402033571807680000000000000000);
   20904645255655243402159823653513420946702614915268316726822440000000000000000;
   11290497278685964842700814877615442328511158914498439671516570000000000000000;
   (-14701882065398682137089864028166050456484812246624351140882450000000000000000);
   (-4131306656031089274123231103326745723188134548520938157995702000000000000000);
   9214785032197180512031534870181734003522861645903894504302286000000000000000;
   562571574840353200574156559488114875706670343721452210174094100000000000000;
   (-5071314509218348093935061417505663002006821323958752649640329000000000000000);
   716982182106401925778416536489491562188854149677337043588958500000000000000;
   2400697781890973183892306914082592143984140550210130139535193000000000000000;
   (-844862666553777500906893785146585697325136301092400331464361200000000000000);
   (-942461407722737796401594227178009828391023063990801877858891000000000000000);
   581075975053286366202032106367819663340955570698147672398831200000000000000;
   281763925038067074601804896753560819012352318061296106260367200000000000000;
   (-303102046072661199360062902032978468249647710647042778774785500000000000000);
   (-45556826966684202746886830059877643606772171499279383447952900000000000000);
   126204335016617070538234653713181770136152238790491733595870500000000000000;
   (-11554091038337171926284790479834609533819593426423741758228630000000000000);
   (-41751416485403977972963250657757113091974119262894124682808010000000000000);
   13341761499213503825475034572860609222180700313301376014273240000000000000;
   10373591840455997956322583350100651035249598449660948702176870000000000000;
   (-6456730428469619160379910439617575420986972394137121953806236000000000000);
   (-1550844350118602575853380148525912999401292473185534395740371000000000000);
   2149960269939665207789548199790770596890252405076394885606038000000000000;
   (-84870875860725930718698052660894266296064798769822218408330980000000000);
   (-518773373887414442600847468337854236806631000060282309600918700000000000);
   139637754550835548122796158105996118451987250249346201026463300000000000;
   84003510468959655269335871767812795079530806692593187229105230000000000;
   (-48847579374592867620821854116087639640410103921019148549181570000000000);
   (-5424274800287298511126684174854414928447521710664476410973981000000000);
   10347045392748584809240464909528039373282395372229081594510390000000000;
   (-1436329487795135706854539856979275911183628476521636251660849000000000);
   (-1349197753983448821850381770889786301246741304307934955997111000000000);
   526113255735759849453576663877262457210033220919897965907708200000000;
   67323364901893086857406269641826231597597675367248440301645510000000;
   (-82782565225381347273306929381589911153353846117958747675217310000000);
   11016929345994545511508326221602242312801953629194985409136580000000;
   6291537317039508581580913620859140835852886308989584198166174000000;
   (-2484789237563642857043361214502760723611468591833262675852242000000);
   26264965040652520704882828764705253798514295383894815764546180000;
   180866123627453058226708484634395937708592201906780814563526300000;
   (-42498178195714630069666163715542065728631225627449167965564740000);
   (-456339716212737310910169164304792374779656344919407562185449100);
   2045099676788988907802272564402310095398641092819367167252952000;
   (-440530704248346134244902713983830161100683528545505015584286500);
   43045968395587900162518674771227915088496976880581690531344630;
   (-1716152451088744188732404281737964277713026087224248235541071)]).

(** lines 1621-1623 *)
Definition sym2_z : positive * list Z := (17%positive,
  [48296291314469025; 83651630373746899; 22414386804185735; (-12940952255092145)]).

(** lines 1625-1627 *)
Definition sym3_z : positive * list Z := (18%positive,
  [332670552950956880; 806891509313338750; 459877502119331320; (-135011020010390840); (-85441273882241486);
   35226291882100656]).

(** lines 1629-1631 *)
Definition sym4_z : positive * list Z := (18%positive,
  [32223100604042702; (-12603967262037833); (-99219543576847216); 297857795605277360; 803738751805916140;
   497618667632015450; (-29635527645998510); (-75765714789273325)]).

(** lines 1633-1635 *)
Definition sym5_z : positive * list Z := (18%positive,
  [19538882735286728; (-21101834024758855); (-175328089908450470); 16602105764522319; 633978963458211920;
   723407690402420590; 199397533977393600; (-39134249302383094); 29519490925774643; 27333068345077982]).

(** lines 1637-1639 *)
Definition sym6_z : positive * list Z := (19%positive,
  [(-78007083250341480); 17677118642428036; 447249017706657790; (-210602925123005640); (-726375227864625160);
   3379294217276218000; 7876411410301940000; 4910559419267466200; (-483117425856329980); (-1179901111481905700);
   34907120842174702; 154041093270273730]).

(** lines 1641-1643 *)
Definition sym7_z : positive * list Z := (19%positive,
  [102681767085112550; 40102448715336634; (-1078082377038177400); (-1400472404429615200); 2886296317515146300;
   7677643170031640500; 5361019170917628000; 174412550868558270; (-495528349371272550); 678926935013726970;
   305155131659635700; (-126363034032519300); (-10473848886829163); 26818145682578781]).

(** lines 1645-1647 *)
Definition sym8_z : positive * list Z := (20%positive,
  [188995033275946090; (-30292051472136680); (-1495225833704823100); 380875201389061510; 4913717967360750600;
   (-2721902991705600300); (-5194583810770903700); 36444189483533140000; 77718575170052351000;
   48135965125837221000; (-6127335906765852400); (-14329423835080971000); 760748732491760540; 3169508781149298100;
   (-54213233179114812); (-338241595100612560)]).

(** lines 1649-1651 *)
Definition sym9_z : positive * list Z := (20%positive,
  [106949003290860530; (-47315449868008311); (-1026406402763314200); 885926749340048420; 6207778930288603000;
   (-1823377077939598500); (-19155083129728512000); 3527248803527189400; 61733844914093583000;
   71789708276441200000; 23876091460730300000; (-5456895843083407100); 58346274612580684; 3022487885827568000;
   (-1152821020767923000); (-1327196778181711900); 61978088898558676; 140091552591468070]).

(** lines 1653-1655 *)
Definition sym10_z : positive * list Z := (21%positive,
  [(-459329421004658780); 57036083618494284; 4593173585311828400; (-804358932016544910); (-20354939812311290000);
   5764912033581908600; 49994972077376687000; (-31990056882427800000); (-35536740473817552000);
   383826761067085460000; 769510037021107100000; 471690666938439250000; (-70880535783243853000);
   (-159494278884917570000); 11609893903711381000; 45927239231092203000; (-1465382581305051300);
   (-8641299277022422200); 95632670722894754; 770159809114490110]).

(** lines 1657-1659 *)
Definition sym11_z : positive * list Z := (21%positive,
  [489263610261923870; 110535097642721530; (-6389603666454891900); (-2003471900109388700); 43000190681552281000;
   35266759564466552000; (-144602343705315610000); (-204654794495800600000); 237689909049248970000;
   730343549088395720000; 572022978010087060000; 97198394458909473000; (-22832651022562687000);
   69976799610734136000; 37037415978859400000; (-24080841595864003000); (-9857934828789794200);
   6512495674771449700; 588352735396991450; (-1734366267297869200); (-38795655736158566); 171721950699348540]).

(** lines 1661-1663 *)
Definition sym12_z : positive * list Z := (21%positive,
  [(-179066586975086910); (-18158078862617515); 2350297614183464800; 307647796310594540; (-14589836449234145000);
   (-2604391031332232600); 57804179445505657000; 15301740622478840000; (-170370697238864920000);
   (-78332622316343220000); 462741031219272350000; 763479097783657190000; 398885972390220000000;
   (-22162306170337816000); (-35848830736954392000); 49179318299660837000; 7553780611680477500;
   (-24220722675013445000); (-1408909244329755300); 7414965517654251000; 180214090085381880;
   (-1349755755571538700); (-11353928041541452); 111967194246560330]).

(** lines 1665-1667 *)
Definition sym13_z : positive * list Z := (21%positive,
  [70429866906944016; 36905373423196241; (-721364385136228300); 413261198841960640; 5674853760122439500;
   (-1492447274259853200); (-20749686325515677000); 17618296880653084000; 92926030899137119000;
   8819757670420546500; (-140490093113634030000); 110230223021372170000; 644564383901185640000;
   695739150561496380000; 197704818771178010000; (-124362460751530110000); (-59750627717943698000);
   13862497435849205000; (-17211642726299048000); (-20216768133389830000); 5296359738725025200;
   7526225389968099600; (-170942858530222110); (-1136063438928118300); (-35738623648689009); 68203252630753188]).

(** lines 1669-1671 *)
Definition sym14_z : positive * list Z := (21%positive,
  [44618977991475265; 19329016965523917; (-605760182466433460); (-73214213567023991); 4532677471945648100;
   1013141987184208200; (-19439314263626713000); (-2365048836740385100); 69827616361807551000;
   25898587531046669000; (-159997411146522050000); (-58111823317717831000); 475335762634206630000;
   759976241961090930000; 393201521962088850000; (-35318112114979733000); (-57634498351326995000);
   37433088362853452000; 4280520499019378200; (-29196217764038187000); (-2753774791224071100);
   10037693717672269000; 366476573660118290; (-2579441725933078000); (-62865424814776362); 398435672975943350;
   11210865808890361; (-25879090265397886)]).

(** lines 1673-1675 *)
Definition sym15_z : positive * list Z := (22%positive,
  [286607085253180810; 217178901507789190; (-4021685376029348300); (-1081544016854552500); 34810287370648950000;
   15261382781819983000; (-171712527816387310000); (-87447888864779517000); 679698290448791790000;
   683933100604802450000; (-1340562984562538900000); (-1966263587662373000000); 2439627054321663000000;
   7218430296361811900000; 5786404152150345100000; 1115336951426187200000; (-410826666353824800000);
   407354796968106770000; 219376427197539550000; (-388767168768334930000); (-194050114309344680000);
   100799770879056690000; 34234507363512410000; (-35901654473726417000); (-2673164464718056800);
   10705672194623959000; 551225478555866530; (-1606618663749534300); (-73596667989194696); 97124197379633478]).

(** lines 1677-1679 *)
Definition sym16_z : positive * list Z := (22%positive,
  [(-107979821043197950); (-53964831793152419); 1654567957910848300; 365659248334822300; (-13387206066921965000);
   (-2221164762117632300); 69377611308027096000; 13598447424841720000; (-249527580462901230000);
   (-35102750683740089000); 780378529034199130000; 307211390633015600000; (-1595921921852059800000);
   (-540406013876061350000); 4753428060115227300000; 7565249878756971100000; 3971229336206441600000;
   (-345742284169725040000); (-669830490702177790000); 323330916106637850000; 48692744049046071000;
   (-310512028435530640000); (-31265171722710075000); 126667316598573480000; 7182119788317892300;
   (-38809122526038786000); (-1084456223089688000); 8523547108047095200; 280785821284428940;
   (-1094314792952975700); (-31135564076219692); 62300067012207606]).

(** lines 1681-1683 *)
Definition sym17_z : positive * list Z := (22%positive,
  [37912531943321266; (-24527163425832999); (-760712440560512850); 252079331408287790; 7198270642148971000;
   584004286940525840; (-39323252797979023000); (-19054076898526659000); 123969883666487260000;
   99529825235095976000; (-180388972419192400000); (-72616347509287674000); 161588087259193460000;
   (-860708747207333810000); (-1550760053497482500000); 1805395845811128600000; 6814889953449250200000;
   6507166292045456500000; 1423983504146781900000; (-1185669326114363600000); 172711782105185000000;
   1047546148422321100000; 179039522143411190000; (-332913834923593280000); (-48192128031761478000);
   104823669330315290000; 8567700701915741000; (-27416759756816018000); (-1386423026804549900);
   4759963802638669000; (-135063833999011650); (-629370259755419190); 27801266938414138; 42973433273459830]).

(** lines 1685-1687 *)
Definition sym18_z : positive * list Z := (23%positive,
  [(-151315306923715870); 78472980558317646; 2955743762093081100; (-985881603014005800); (-26583011024241041000);
   4741614518373667100; 142808632708327960000; (-18877623940755607000); (-523978968302660830000);
   108778478959569290000; 1501235634425021300000; (-326074420007498340000); (-3171268473181453700000);
   627794455431169430000; 2852959703903780800000; (-7379920729060716900000); (-3248057329013867600000);
   40148386057061813000000; 75362914010179283000000; 47396905989393956000000; (-5202915898395278600000);
   (-15993814866932407000000); 3399566710394735800000; 8421992997038654800000; (-507708516075705290000);
   (-3032509108936960400000); 164298639727821590000; 950216439096236540000; (-41152110923597756000);
   (-231387181450609920000); 7021273459036268500; 39616840638254753000; (-1402099257772675500);
   (-4524675787494985600); 135491576183211400; 261261255648364230]).

(** lines 1689-1691 *)
Definition sym19_z : positive * list Z := (23%positive,
  [175093679953486870; 206231706323956880; (-2815113866155024500); (-1682138702937371600); 27621877685734072000;
   12930767650701415000; (-170496026116499710000); (-61792232779831076000); 826223695552825470000;
   431935187489496890000; (-2770989693131125200000); (-1690823486134520500000); 8407267627924504300000;
   9363084341589714100000; (-11624173010739675000000); (-17659686625203097000000); 25826616923728363000000;
   71955552571639425000000; 57814494533860505000000; 10902582508127781000000; (-6752505804029408600000);
   895459117304362420000; 701557385717415960000; (-4663598353493894600000); (-2265199337824595100000);
   1579743929567463100000; 796843832061330630000; (-512220500258301400000); (-116070325720624860000);
   212142502818233030000; 15915804768084938000; (-63576451500433403000); (-4612039600210586800);
   11553923333578790000; 887331217372928630; (-1188051826982398400); (-64636513033459633); 54877327682158382]).

(** lines 1693-1695 *)
Definition sym20_z : positive * list Z := (23%positive,
  [(-63291290447763946); (-32567026420174407); 1228725277796120000; 452542220915163620; (-11739133516291466000);
   (-2661555033551608600); 74761085978205719000; 12544091723067259000; (-347164780284407340000);
   (-61112638579920880000); 1215704094878573700000; 193859706724020020000; (-3537333675660423600000);
   (-684370196506922740000); 8891966802819956100000; 3625095165393307800000; (-16057829841525254000000);
   (-5108834292106739800000); 47199147510148703000000; 75116272842273002000000; 40583144434845059000000;
   (-2981936888033372800000); (-7899434492839815800000); 2557934950941394600000; 812322835600968150000;
   (-3162943714495796600000); (-331385738362335910000); 1700404902339033900000; 142308735946214530000;
   (-660658579908886090000); (-30526283179572810000); 208899470819019820000; 7215991188074034900;
   (-49473109156726548000); (-1928412300645204000); 7992967835772481000; 302566606273696610;
   (-791936141197699900); (-19015675890554106); 36955374748352210]).

(** lines 1700-1707 *)
Definition coif1_z : positive * list Z := (62%positive,
  [(-5142972847076845595317549230122688830344559947132656813651045);
   23892972847076845595317549230122688830344559947132656813651040;
   60285945694153691190635098460245377660689119894265313627302090;
   27214054305846308809364901539754622339310880105734686372697900;
   (-5142972847076845595317549230122688830344559947132656813651045);
   (-1107027152923154404682450769877311169655440052867343186348954)]).

(** lines 1710-1723 *)
Definition coif2_z : positive * list Z := (64%positive,
  [115875967387168681788971488285312039570831507335550281887593100;
   (-293201379834685644867959452439784305405342094741840988977478600);
   (-476395903110081322587299508151154940862275390959246052584074500);
   2730210465347666137982239328923516270034828327990699588033501000;
   5746823938568638472459483149751499367740786490481481391460366000;
   2948671936956191896750637208703777973914107635455611537640778000;
   (-540856070917114299744367283200688853757022199044470677752583800);
   (-420264804607716069465753075254588487897871926892622251348561300);
   167444101632795063514625708324939169886628953803729982022400600;
   39678836129620121090434470902699500940818109164816482528171970;
   (-12892033561406595431413555009906782578949361617044925033701860);
   (-5095053991076441489598480835620951586540050976664367876412655)]).

(** lines 1725-1744 *)
Definition coif3_z : positive * list Z := (65%positive,
  [(-268241867092206866458468995515372237553583617715763713418784000);
   550312670783138510796964026361746917879466605725290603798193600;
   1658356047917034608134280439996549525220639437145367606178002000;
   (-4650776447872697640390293095170192691113917841041002855534619000);
   (-4322076356021191118175840907244577856782537221435748296465882000);
   28650333527364746302490068629761588968910762384438442111338730000;
   56128525687033004459909419952400772414062477740644538000509140000;
   30298357177282416028625757743746685298677570434614133485495770000;
   (-5077014075488886159516471867138370972545857441670871832472707000);
   (-5819625076158553022607041679522801089624825903982541419721721000);
   2443409432116695639462954438418928805487699080947974989338820000;
   1122924096203786563399489540091488781245346096838814728167341000;
   (-636960101104882297729375393262734248207758561739185285295555900);
   (-182045891556624232283663166583214513657013277786239131332835100);
   79020510095759399371509505432902264402877154418269172819291240;
   32966517379318303084163388977580229986557442769574819896051860;
   (-5019277455327664998007173088097694083956570594580641192332170);
   (-2446573425530813115445387662881902303945941576472342106918209)]).

(** lines 1747-1772 *)
Definition coif4_z : positive * list Z := (66%positive,
  [630961211430946849075369660861952652015312760344440683536820100;
   (-1152225143769973488683007937016166047881572156705066038094891000);
   (-5194525163470323267558201363327294331811309729430512113592118000);
   11362461483264822764633926783631184659089600821052246761021310000;
   18867238569563059608228131607127019058238792977814523503700940000;
   (-57464241901927185172905274113851721244433966909324042848592690000);
   (-39652652962449137627180942067565799817380357707706454379193020000);
   293667405016100685876127896279858265083546624367817252850986600000;
   553126455039549287033346974198784657094750271078324816964213700000;
   307157309667885698724888103039388480841416526979529700990200100000;
   (-47112737523895720849123993517810121219359943967637022382636890000);
   (-68038114678020569883329749209286267984297786795602697691877280000);
   27813636958469513031691636458319363146991644125289918647026070000;
   17735831422703083884030795528223722386815449673130030446955830000;
   (-10756316155087249330470716036018975366959592251698887878671020000);
   (-4001010844950535391911552472397083276670126595827549403173754000);
   2652664913530499860820143301690017184933302935238430721089152000;
   895593927695284360355561877886618138452864396044036913309602500;
   (-416500195094170874151683641885253661595125058800287869146346800);
   (-183829616713625380561748234262291094000836872340383635518342300);
   44080226615972069730060386722360315016637741616854518155979560;
   22082846912308329608933319998041428451363245728602767157908830;
   (-2304919162676504406778986897925054839632903355820414483306851);
   (-1262179179994622253884862172782890488140153502131112374520603)]).

(** lines 1776-1807 *)
Definition coif5_z : positive * list Z := (68%positive,
  [(-14996452283459503316705931679195316679754405986916045255312310000);
   25355275235803347129363638721915547060556034828126917268955880000;
   154028672599522236033514824467626954141465930353125071182233300000;
   (-294107816403569318504403858606559332089147531141477062455517300000);
   (-716411234941005329438227957247225250089954481092960583236217800000);
   1655218330649288840540841623080651353621667424921282557975513000000;
   1991901719798432056056857854066125809443504706772520641876273000000;
   (-6499837825472324963374262221660858232544804226063450042795603000000);
   (-3680255347446873527191823500872992242220223547780834450868002000000);
   29809590145871917955114668613380635545095971322728394146689110000000;
   54750827135403671541283379356878309704319643029092534223291310000000;
   30970025907842035293115333162212546770744988763769659415499230000000;
   (-4386731482823615640442730013366750193381707273908757638050452000000);
   (-7464442013283971243472663968192859562973186442054433655531762000000);
   2919469277528073666095772398605275751022315529465178441510318000000;
   2310457227706684192610065243663928370022983285246219996141160000000;
   (-1397129268638200558584119246355879336305763752871371182932059000000);
   (-647674975150586183554759064296745308238453884855216507561444100000);
   478111679913065760640008802454926492109319030515078406579119100000;
   171938348438550402302239709744627678231800268305577380385407500000;
   (-117494793441353769002767003711010579592814752354900242640933200000);
   (-45082224006962363122319321510383361102205948342137029700434310000);
   21344579750862916673489848711360419147775780461774706265528670000;
   9924691139873533169989496559631669037970741600337089424730635000;
   (-2914684388622130824599478843558087403539428940986384077972155000);
   (-1504031798197685905639227292876711236513927746903476131955063000);
   261680966001311815212423448830293124302179402431843910377399600;
   145750292135516307057715261904816843628635053793756316625758400;
   (-11481996499029797262376555844417634568543125916807554215699620);
   (-6791060677322355511541065559242475254516249773485524025251102)]).

(** lines 1810-1847 *)
Definition coif6_z : positive * list Z := (69%positive,
  [35903691767131472976191375851629854878829831065588134839196540000;
   (-57395876003085793025531161126409313128341243164914192626932570000);
   (-441668118977421701542088795071106632884119429513375522530584400000);
   771895236596460141612359833761706916468456320627589109923622100000;
   2502464949920583984721024494943552146200854870661622211002418000000;
   (-4970540926794084916072709193212250530229884674851059194676904000000);
   (-8649031599946572670088689962363342931064457587276457635862837000000);
   20962727044971407797926639414563747694742530198205087569670190000000;
   20354856658538586045411365678484341165980379573080573539205920000000;
   (-70479455647955528859054341470811642037579228791371463398235100000000);
   (-34481406113689234471318754918419376174571592990069450913352060000000);
   301099887840348395186611878644137990268344062382300439211335000000000;
   543343154120575297664322636132384738949120851342770461981630000000000;
   311410668688430387932033289056475856730696703072081615704878400000000;
   (-41089209945848772038542469509931196982092080080499621798926750000000);
   (-79380378573403047408676383421475924517059185032532498491435390000000);
   29594179966642709647792505873382316694791582509907370144144770000000;
   27493249453969782894217218848327619492590697267746384503104830000000;
   (-16228209013451959458586552721393432569402184477770750440020630000000);
   (-8944948800734973559175903045029991278019908264185511730556261000000);
   6781924902353432370456282863377674743820538634665380239602198000000;
   2727776322637165251200756406544564359327985321401403409245472000000;
   (-2173603470504406274543289770274934991733554729244606459300157000000);
   (-818430146777211062783870268046915886054411822450452703632434600000);
   544369500642382521832070798923538707788535671767867822123751400000;
   229966935449627133779668039477753735890268827551395450776592400000;
   (-109302585827570538825710077176510946984173126534946985474844900000);
   (-53231028942359565242508697037039479412872697650769671242541400000);
   17491388844563546467954656323271700080207120554255054842233070000;
   9291277996211799255766657547295162218792966588358292566578482000;
   (-2067852860108562040355056354764683583070734740977224663511355000);
   (-1173528057754959701015486666538811237336231287996985858558749000);
   159523138006861302422170949999314471329792281462364679920443400;
   95482361029705972115556884703253960694188624289461065095266180;
   (-6001316648399794543233636397364817876191104394511939069108879);
   (-3754092421718877429714314525761519021787631896344301745834088)]).

(** lines 1849-1892 *)
Definition coif7_z : positive * list Z := (70%positive,
  [(-86424362976384199456109481314175083214493590428803828376167950000);
   132309260066873732065361818956518817619356300462600273556910800000;
   1238159302411191700694316904823586790698547751438666389964909000000;
   (-2030827471878621660379666662315021490193874834607822591973651000000);
   (-8268301617880235510290843066205662542616488856061409195612586000000);
   14890056901144376864603377164520795262386744052714301029267600000000;
   34149344124504606792153047008172262311046737501971849316504560000000;
   (-70278602422697737823474011413385453413435474791992208295310830000000);
   (-97598796981746359757992874571219645750776218006263823849059220000000);
   246854548942111636010243462750489609477263056564537434218537800000000;
   204615786140290398008746708335277792075919475673664679194875400000000;
   (-746394823455339379157617426721606366191364601425061569234595500000000);
   (-325505272069522544426232738651084306753161423918109122631760600000000);
   3032701839810768064176188260727440638632962820833222425246103000000000;
   5400990244606528900971955967395441757408783874674606654776292000000000;
   3126383971738483006163784309975347847899010543829381537178238000000000;
   (-387149742477905130183941976456006776720524505792133041166283100000000);
   (-829390794742276905304896412795042906064769649455608028246481700000000);
   294901411725919837097042525997134913513771437965380558939013900000000;
   311077812669662803949680979034702607751653278537862095411544300000000;
   (-177867461024269808019549217763619538062800868053432764402786500000000);
   (-112761235246596180541751716337532230938902959335659551571036400000000);
   85222900999601631364782594519752103361028178175622213926577190000000;
   38405206875305130609296938504440231359360638078119686978086450000000;
   (-32653074848781915536866086631932595730610210233307618776091700000000);
   (-12738792296051849446484135131236853283295222013340946500991640000000);
   10145156960910982230107468483824331269100917200312073269033280000000;
   4097679895401914370060120309164154094898913488243766819496226000000;
   (-2609696573094586622328219462237882874111293043254082981395787000000);
   (-1186646887145157446962850804940522053646675640116219334763007000000);
   563638352655746858424310897641531561311826811167611611379133500000;
   285886682838033140214655775168288129089595101374169283896114400000;
   (-100661154419730302724446742635768198401012026123286255628996300000);
   (-54950990105564178220177746976654521702353861103765051919685070000);
   14156829655175049340110083394738181986649947896060344082947170000;
   8188133233610314217903522752009348948778608588070621911086501000;
   (-1463230575247395655425908281663831406004216665367756779712751000);
   (-887483582729452936864849940908559117373522958971389020625802100);
   98536064537755576920525049712907319964687954181729019244932470;
   62201308337731005848176830464052914596151305487848529935905820;
   (-3237371065873786031415974713833345092654235228652968924822315);
   (-2114649662048637955296836248309680136665362492693075345297952)]).

(** lines 1894-1943 *)
Definition coif8_z : positive * list Z := (71%positive,
  [208903138819954221764973530463307794647757599355313787499749900000;
   (-308882967646696059440378593649512329579573532514118656306482600000);
   (-3415065199420814308581377665735877442810613593316182887801764000000);
   5336794978475752885866749586223668039582360880077534324830961000000;
   26254520921463071080277687283264610360054005827918442191354850000000;
   (-44092382087722742453123668389886970896107920492258171197821880000000);
   (-126095524469785908712612267134374193980405580099347156593971700000000);
   233403574851680940179669985151249393152148740280385608818451900000000;
   423899851596412291690636701447288526352533242961668616838678000000000;
   (-901021668278848537457417995937495274562614579017544652592166500000000);
   (-1059137210972160452062877264732854070957273640727973500291258000000000);
   2784023497265315551670806338623371354680279388669611745037381000000000;
   2038491393825460625255433218588522954822776999829791972608492000000000;
   (-7790193780817760648856650048481215968473342802126754335290911000000000);
   (-3091398960464199635355286295557605183007519885588326376800431000000000);
   30491138469320282962324149350452480955430390573516168717359090000000000;
   53748127032698396153729064135141026306949294009486069899373130000000000;
   31356123405959663804180774480860078709505490404563263330165940000000000;
   (-3667108316665038246204915903550010028035229188747930760164446000000000);
   (-8570923901203457457230067054960180625904745972345544735005669000000000);
   2912276318941918093502808667205448538832711003842651923199100000000000;
   3411957880301561499047582538207723820508873324357307771206279000000000;
   (-1884914078883376071043287013172570992844993887415459298291641000000000);
   (-1342459526650064517082192966318056581890805569912583356614454000000000);
   998255882508241590437310813347046018631536284870219145385495000000000;
   499629419419399073977232910837885301124508721962872089288846000000000;
   (-435341571603043552487355865925450024646709215573498524783461900000000);
   (-179888227487816962558002113461300356686307062542229838508632600000000);
   158084286668599953227058453828355353104002973061908859160799000000000;
   63411643540941664874217983865478814963312084972749211656134270000000;
   (-48590372885047768831859231856742048163352506603671895934011720000000);
   (-21056150225002618216656216015780293421873130613095951476688120000000);
   12847626505534555352492060746139970948986982869220367845766710000000;
   6190332439714985153834932259246488292329875513962818749340013000000;
   (-2932710247776567240870160300128192249260665410455632214571613000000);
   (-1541634258578732960762233596163970199686495285352470015267722000000);
   567913023119624885281171473579106654426180633315656463770695800000;
   317981425381990395109033550989221839849368668072738515790601600000;
   (-90188238436951755495801666759069642823013281927726385092905620000);
   (-53139227050516202912631207537905272831968706820525872364680390000);
   11238413804249496885744127057442899821409654095660730181481170000;
   6910143395859795983361485345968765950977315740669289349714194000;
   (-1028133863272738862101812736488937814136249072478179304322756000);
   (-655573234355702311911407464927310886536270454950954335044618800);
   61306123155757219724735873956965264365527988061042705390142820;
   40339100724906665710039530188814899387662676698408992548021290;
   (-1785744077894230068079099924407862882873224386100989050429950);
   (-1207731024612356156550871498168833597517735826635815624658975)]).

(** lines 1945-2000 *)
Definition coif9_z : positive * list Z := (73%positive,
  [(-5066363823597422392806056574334164019913184490360944548316318000000);
   7278391993125473027029583168671424388748658656372670262448419000000;
   93047372727385693354268406677006058452370732168301273138733090000000;
   (-139916664349187303592739715132608792111576544896291372395837100000000);
   (-809170240128931022462120674842192101429093630093446083306823900000000);
   1288948603756442891955388200793566964011433484841725529675464000000000;
   4429833292564910878782752821721584532350914860569614883397891000000000;
   (-7604638375385009047720991576053046852032649468701121074994496000000000);
   (-17120764063305462618644764650123146884150713949089102051158630000000000);
   32506097715584995599862428974951013393872185809575934729485060000000000;
   49655445592054200473361109239575063512794577187091996568991180000000000;
   (-108729332251037529678668217885570809799453672825212088631882900000000000);
   (-112148718671449812002234491129695417136680917162993957754641600000000000);
   305340924151442483066503218587617031366450094185181808602739100000000000;
   202039269861077038044757051481046375330293921606174696306782800000000000;
   (-805278009064945994583024028530609848993100076740723057351942400000000000);
   (-295048154790957211352792893679082674794947185617540984450077900000000000);
   3061961521402196297060170641420108731472017553153312985302650000000000000;
   5353120232520133713115706737209774227378476257207779817606799000000000000;
   3142791902169524902984239510600746503211251765067043225338625000000000000;
   (-348949180000934303306360118922966958177425438312001851465862700000000000);
   (-879256095738714269710839510495096359955824403965064898822221600000000000);
   286192754281133461425385395028215348399326075225955792233495800000000000;
   366596793197559301956262391094945088220084483101236632359297000000000000;
   (-195594500255421316793177410346376237216710497111838217871048800000000000);
   (-153827923092775440635007585855752684224791058187351199841308500000000000);
   111855212231034992879843852378110447133864382415896104350285800000000000;
   61537788052503757605395359171300183221202404398613888300043200000000000;
   (-53839410474061026535011650625800706368766293296551055585661730000000000);
   (-23742344267667003768118938339053195652270304646078446059974320000000000);
   22013844805449391534902123856673439322086924207697907270707060000000000;
   8978070631742198872611262172632408686645841161925814232909679000000000;
   (-7748091639808001244045755147010278445955718484470643940080615000000000);
   (-3271988742130504187500457463514277973862371006416232573352337000000000);
   2382340816470993068532708118584131071285832153866665367058914000000000;
   1098939547757907591024137319089517624469653929668339354098746000000000;
   (-645984153441200064146460501158205974509473600113624966567039300000000);
   (-326238435354879850957270753529789396950800147086765729097935000000000);
   153982375713379136883435434526779641112423284877059254698063800000000;
   83540490389257346852273086738129660750268489252017079467201010000000;
   (-31735740588016785899434161309532777102774712616053370887076210000000);
   (-18189498693324269050970833884178040189107606586577048603291070000000);
   5517186750972799125927280958782447793255276643806997727626076000000;
   3308966123618421063439933908570170555222439095610467058151640000000;
   (-784653073349039281097239679443092963282650434013788992348919300000);
   (-489073731524102554467772891526469082314154132335531145514692000000);
   87506278747914513254308285775502911731326069324894916509780240000;
   56384736358108430293769636428061887807384253646943248466418010000;
   (-7167429275081674956250392820907257304489315331347262926580420000);
   (-4754207280832321963819557935464843642627576884386666887645887000);
   383046882621672162816016517261473731895778664729303794601896800;
   260652268831282642209393651019770312578006015193565817325016700;
   (-10014566318696818995153529550303791179021108117206825590248410);
   (-6970967839322873084383232882845795920838117679540306239345441)]).

(** lines 2002-2063 *)
Definition coif10_z : positive * list Z := (74%positive,
  [12320398606480441722792994052240828752526886281458937633957900000000;
   (-17272956008043147627111916701323317913411410126611513344817940000000);
   (-251108151770976940796155231906611706824532742976666673392804900000000);
   365854404604255287435162790096236697852899786012337389577879300000000;
   2436668276348995654567141715803151760606013118025710110377401000000000;
   (-3722543982033220274394394471108112000512191070987312940916252000000000);
   (-14974692799497621725428449598710180209171877014280923819756990000000000);
   24285937804459209932432613536470846590032722326107738631517940000000000;
   65403131820603733570984903995514181442088775022668032899239390000000000;
   (-114606319156887156018237872682594408341439217771446610123587500000000000);
   (-215949880206697342512560474712606187254038936935381310414847000000000000);
   419835689875069344600540394105675525139263614302205689009072500000000000;
   559827545029420941391153474759122688726109875095475730604138400000000000;
   (-1260095805571421166223679712763560488266840720081803933722030000000000000);
   (-1168247265355164122837179014169010489974316491167398434017964000000000000);
   3285412351493396730558710291243592888780292689130164184828513000000000000;
   1996368405025267515773975348713442321055648689376329104127913000000000000;
   (-8268628841732119164746367518414478774806468603519900610269584000000000000);
   (-2827515877359611439071634624194631537427006948348240041241060000000000000);
   30722953995266913281552624186417090882012005293525089612568350000000000000;
   53347678849069357398624125440692811080177557584347300662596450000000000000;
   31485286916103333370171750731189744452160933704847439452179140000000000000;
   (-3333673484145423901496513466029874130150784824285513273324710000000000000);
   (-8973828824876461620729131462736908322846203417126514244115363000000000000);
   2804975877403786393498709022507676088711706121355859697479949000000000000;
   3882650078944377967276663169043218713908993336081868910959595000000000000;
   (-2001823819093022389853947550669865247947997489243455484715571000000000000);
   (-1715959267288721579873571730849821259719260958329570391883719000000000000);
   1216641740406415476398704875951061876471553491032831272757748000000000000;
   728700266822296731761693379589148458005471425841448367661107300000000000;
   (-633087358568391094511657250032789367851228159308732452895642800000000000);
   (-298265693176663840317943909066094485055311101902909318494289300000000000);
   284272679718487019090424776948784525518447698314371583275178200000000000;
   119498910037598683835931053313445208729358085072184711398179900000000000;
   (-111359292902671622058248697629487708254007397133417251647893900000000000);
   (-46659590234354286231248638269044179157987801090698428991717330000000000);
   38549154481716891853784136767260412779850336973852683953987370000000000;
   17227364890492482807356306942002187108410972113645041574268100000000000;
   (-11920394402763146658282700111823183541922627013548729938676130000000000);
   (-5799804551608036312810594836126727444524814767625101691871260000000000);
   3303955116680311017462087431863046046226866796792060186027460000000000;
   1735375106985050789058251093166552848987592399630060085283037000000000;
   (-815368958334747449259292511116532370905167903102470292365080000000000);
   (-454975801411271445055959539742391963319837818412411328445787800000000);
   176578902751791044371009142409693038269190361628173357951469400000000;
   103410479922437115893863447076839324301538838312629028679900100000000;
   (-32934377981705126148048262560373388363426288172698284957105840000000);
   (-20088250172732435557066248720352877424074949755664570135321820000000);
   5172869892752758054467150354777867503503057315845912340980461000000;
   3267471887025676044777185234904542674259187212800749921513620000000;
   (-664421060398536762647202667624900653735045880195337732908338800000);
   (-432672284819260539724465267829806448262287588160933255356291100000);
   66947672465053860910911350234422140609658676214064597036463600000;
   44781934769400013904570108805300255399956766983502725135065290000;
   (-4958883523601264332798684165341380344606385498242825617652400000);
   (-3396977896617646756144544675014526730130390520604930211664642000);
   239954192789795096544786349507491032255241008122675927096660200;
   167910844189673297445645619502104819828555277103368628352100300;
   (-5688326582012783070559328035350356616163807538811872116072541);
   (-4057351322008929507004790032757210978914475486123608161502457)]).

(** lines 2065-2132 *)
Definition coif11_z : positive * list Z := (75%positive,
  [(-30028412705781813411512865519922043932183505820503315954029470000000);
   41222722952174276672663567808791562581144987415196315169203310000000;
   672499081012430615156239802385182139490491350157035757006550600000000;
   (-954136076107224628026942218060805618538317510095561135923336000000000);
   (-7202532561401011173077639437360684947826378373817567768549254000000000);
   10634531624857892615228798566065608549073503135281346808499240000000000;
   49092723754753123184943485915127805263734399885088222384188220000000000;
   (-76131840509613393387797730681017362307336641985469804767706180000000000);
   (-239078489282187397916151141710777599542880913631460018867820400000000000);
   394367938327931116758324655926786707144229044094418999998164300000000000;
   885349337043595965382338508580994765123590628121965924856865600000000000;
   (-1581686514051756535736270395427784669332587895176156014356356000000000000);
   (-2590742746810224935563114329456904019725483278674143464295211000000000000);
   5149870818465970012295826228755714553228583889769273657074563000000000000;
   6145845672897527026066671647152239861924038000733917998375367000000000000;
   (-14193932592811916472501206335083396182235434474294808888854510000000000000);
   (-12032074134494446401737780097280508141541212960762120136672610000000000000);
   34869230680391004844297641210431684807516380687749597946743730000000000000;
   19690838768784127563982868497571057346743386269189706667274370000000000000;
   (-84491762352826160085248653971530011995691980308636763309872910000000000000);
   (-27189995704269449857201472911736827973006829135130300260372610000000000000);
   308079076557865526260308039788370094543620502254747519583885800000000000000;
   531898126318342304374789467548211368616080421174098009004888800000000000000;
   315321147162742288018664770746900943878436825899068574689225700000000000000;
   (-31957660070619288487616640092580433210066443640411434911013530000000000000);
   (-91247698126105341345602554732528237283122300057129957413162490000000000000);
   27453847676989161187579185070865819857097713136954678949607920000000000000;
   40694168289193230543681019341640540806337160173338009531610650000000000000;
   (-20295800283207624227100914832093066436513157777640431538113460000000000000);
   (-18770199613721626220194314409131981795106613548199649126456590000000000000);
   12961015100055972719388188748498141614486792625037653642674200000000000000;
   8380611488139723458203988762791929393262625838897962724368728000000000000;
   (-7184830591966413369120495146871921423473823635538498945128881000000000000);
   (-3609859908793898337842135309705990038242466823111355909651691000000000000);
   3480855644490575075872348257576088455972056599653664736521251000000000000;
   1519587122349825377958385405834371021723021014013798688930949000000000000;
   (-1487476950041717485556524898256248562236771186568035610613046000000000000);
   (-626622132352655296574071128819117747331809128836966318835338500000000000);
   566919475014182400772730687718027715566413622807587606028376800000000000;
   248354816956155335381546500926673665314050496673632287000330200000000000;
   (-194756213046461326202135949348333344469032889821931089236057200000000000);
   (-91829709704401337040165636350617231318804584039254767942209640000000000);
   60686841539583164265115456355394252506480397191865434571814530000000000;
   30889000223901998584773437978159062379063068918299771418385190000000000;
   (-17137151466682245715085963415853747947782432702307143162098730000000000);
   (-9308177549019247529116617185853630140339620355105237169582950000000000);
   4350944607244218897315593155029012286145084684860699651446177000000000;
   2489826198091695152209251895295085602387717821947484457226637000000000;
   (-981022613198270635616158798520530790965499426102536744030881900000000);
   (-586047791792961386277846690732152099420379436830837682886300000000000);
   193584154228169321609190545670611359833974992166249625459256300000000;
   119971389415746954966533293384548690444478561947745733339972200000000;
   (-32863152908528677453457724227429648149006237935345835087181600000000);
   (-21027336559565646929743019941180241616995593901439012114932120000000);
   4697313377266824850774441291113868308618121213665395500265262000000;
   3091127346541495169376181275469205804231142302008934448079057000000;
   (-549293129103849881912333977215226915985660931916141628091157500000);
   (-370583267401533212935373435237587606680210839441157819612135900000);
   50430034554362621753856186947991028150164395276716561130218050000;
   34788196847835976453720272956244423629765697954507588467309820000;
   (-3407139658961008818238265022607619145960800136177153397899540000);
   (-2397817050423233350570935216927526718398777501751418933159848000);
   150562723772183511975191633697196470393630318813467212345887700;
   107892159298251351079236767779004020307476452610239185043029300;
   (-3263876236830110071269528317803593334490309684938793753165837);
   (-2377548488823423543125139291778920077224497814021891145988281)]).

(** lines 2134-2208 *)
Definition coif12_z : positive * list Z := (76%positive,
  [73327680959400309364791702840057265269005478388236908755117720000000;
   (-98827889600941733219665340933670992042936285905168194273952580000000);
   (-1789770690933674811780047200109598433010386971973430500672055000000000);
   2482235718295242398333562594286195512316082783324858732252918000000000;
   20968628987709046135646800542125569377871541216016295435338410000000000;
   (-30089975233028851972965419337229420069235162416297632695683850000000000);
   (-156972751160640143953165509204005807275144549911065943897708600000000000);
   234728244665900694888498850218250091053479684087877632030602700000000000;
   843262067196083951345617544199049284316143715991447815918049600000000000;
   (-1326465700910231806666155456982630828426491024439193157580022000000000000);
   (-3461069031961523260598540665989975463806418435597964924450827000000000000);
   5801724592109383434087721189210231779950668973412340708531782000000000000;
   11283299529315384486429978078308093405639126993761487761004970000000000000;
   (-20529782079898564682577566712362180031750828992177940933931050000000000000);
   (-29988547188055811651023528211522136083411511631072946842466840000000000000);
   60872346610026920989372462360524564173622444035369774486486950000000000000;
   66182582485006493056981197458081517084047909497972356366971290000000000000;
   (-156584476446625988016194557829194369989497929017498130187846900000000000000);
   (-122914353259501174305158335455686286343300845411306703411036400000000000000);
   366335903052089694049144655270234621330767615934459287156117400000000000000;
   194015831117277293224483252027381544326336798855079720818877300000000000000;
   (-860242136969366356015768122317810306588787300924344144427367100000000000000);
   (-262230961014749827989664036004279672332504333761908475345153800000000000000);
   3087901191936800440665016928578559620370136549385877375418705000000000000000;
   5305215546028922252760737677862501004955798466743925981589890000000000000000;
   3157101125097144187884255713018906584467729236429617965600542000000000000000;
   (-307272827041185083202551961702692023382369127061668616861068300000000000000);
   (-925235551740795490159109618303694226790981363161974120307950900000000000000);
   268542698048952604131152691196815860087213545766530559717160100000000000000;
   423190658419491046133600457212513706778997850294175069934616100000000000000;
   (-204417127727877176399074032463639421885890439471994756232619700000000000000);
   (-202314578821513756839733397374751417882298518184889102254841800000000000000);
   136013607428995726185835809819806100268414116142069099251361300000000000000;
   94262675667851244419783189695357428055624163041130677611684120000000000000;
   (-79457082818385809823298786792911560678154239746822422218969840000000000000);
   (-42446161375624627688731486401338727481019972904504057265067710000000000000);
   40997012941072224707093401423490776193004363106932206180612000000000000000;
   18657239233690762735070778878786035204842286473025549648633500000000000000;
   (-18830951468362841311265589636908829068984716607223376990523600000000000000);
   (-8050306441934266570411103136671969129999167330943811990532568000000000000);
   7774244768363498320173652454360791629397769478205798411568457000000000000;
   3372847962851042846971724663631080138529114657505401824166820000000000000;
   (-2913208318185371820345028586920081498099751816901944041981459000000000000);
   (-1340525559954698716569234001877227886256687091468901002407760000000000000);
   998212767361159443568048533153341129198176092059908273350219500000000000;
   493734872873213070429449868430792395052258425610694488694944800000000000;
   (-313503671631224102472269318055959477455647834086097854695144000000000000);
   (-165814777349894077248472636954805869274704591339685951126677000000000000);
   89933693817802498848151776977686226006962149641933313284635500000000000;
   50296345183577546527234869377470645818221272753614322148356960000000000;
   (-23378641676644664945709250809316119449044593841493515852775120000000000);
   (-13686766311067172623485178885688258013210414705482968486248900000000000);
   5450688318062644286926839313049161286349015828217309026636711000000000;
   3316523922200394953147539061914190708715734274178414348860243000000000;
   (-1126508114108817402586366374763002332801656314726353024056859000000000);
   (-708703508342100714536290082192997601324031983572018910684056500000000);
   203613655221494997032871272560653102055601101497223310673854200000000;
   131904672696591296816490268228903794624182397844780329714761800000000;
   (-31660872284644819903198885505236951480795232387505579920105250000000);
   (-21049911494495985117382569334184134568311058069645265952676740000000);
   4146945431639040971236501326093312709747378328969720686955287000000;
   2821776098897944456514363403112985675647966425504805181915693000000;
   (-444698345340623947138423275760288531732911155002375153386282100000);
   (-308962480878029361630062057673471858863002842150526067371954100000);
   37474623608798545514897299396135482447913079993474550313647120000;
   26530812743846447265296105036591301773819479052080036165414030000;
   (-2326413554174593468421370682954805683688973923244290583476656000);
   (-1675405289088832668656302656638525011959950143853262083260676000);
   94572336777906362928291240943637071693831632299299807630021590;
   69176980904757278044371687360673021476250400541180835565554730;
   (-1888230812078774308964339134901795324778762733781901178118498);
   (-1401017335540698807093219863467094751924636611380629198255055)]).

(** lines 2210-2289 *)
Definition coif13_z : positive * list Z := (78%positive,
  [(-1793548393002850396214718676857202286659666424187461477734916000000000);
   2378211185014311786110879108757436954350720046766491611553072000000000;
   47383782394636320660073806530222858790279565040836621580448520000000000;
   (-64430425492053660170184710569370576095028902977743590194470970000000000);
   (-602766521086590172665568228499675114081776341522488855661971600000000000);
   844206356243201865892348157398717015462916829231846520746009100000000000;
   4916019713173742217516567081751095460187255617230097133575212000000000000;
   (-7131597545851986841244858233956149652674565400158665885083228000000000000);
   (-28876217179838628972140281256024517354142819763336470393627670000000000000);
   43706591061704448846650344606590211770817287640176931316248600000000000000;
   130101058950233434316234099831575225328109245861458284223033900000000000000;
   (-207451743643743244598184392182403813670769479922838925501438600000000000000);
   (-467565935097049698322874363093046555128759532379067057239123300000000000000);
   795872662396507757515982100347422853603226665182596835036642800000000000000;
   1376238684291389421260151294679793034786767219476646917508650000000000000000;
   (-2547925839943045924066603828685111513038130582703762656864035000000000000000);
   (-3380448382429659921946074764411430359936216225160144993981999000000000000000);
   6999176747558747594441502446219623982632259493449887383625331000000000000000;
   7025277873701559172377638256697086265819697238858476588169332000000000000000;
   (-17004037219111824772720193606283296040784672412111152442153880000000000000000);
   (-12481100410939278985605614687897296707108053487986392740496450000000000000000);
   38189921911389008153867789797982992176490956578110746733926330000000000000000;
   19105931224499204084872539012111504539540672908395671039180950000000000000000;
   (-87341233054337465277936261233164746981170756637944859922460410000000000000000);
   (-25354407725161829142899956322424604917644824051337818961940270000000000000000);
   309394249182502061970829799632993212216294684072833204277158500000000000000000;
   529307491014367604937727033609448634745390797243599267122170900000000000000000;
   316037924400961602412289284892022846963037207981026639112628000000000000000000;
   (-29621632203061913718822708574786329461125482742313130925092830000000000000000);
   (-93615764443999360397339846099993270081431961582862649478031890000000000000000);
   26264052471948664596506935848904462325170262156353893548773270000000000000000;
   43744610754758285170653346881940083076959116373667989843890940000000000000000;
   (-20491341572456176512162720086536081681476616810488491723754510000000000000000);
   (-21559753495130354858723199053554361647819679492527093428281950000000000000000);
   14114697155398510958636110285645270628671494368506845470486650000000000000000;
   10420150127050807449642557659998882739432559765440953013547530000000000000000;
   (-8618241965220092705853657584595597150491673418403411002408392000000000000000);
   (-4878411229018901327291501121500987653856731550945133361152065000000000000000);
   4689231319014487945639277139124902021493524893685817080310457000000000000000;
   2228006944652422042461995816835639158465376266146249271470082000000000000000;
   (-2289300216009735975701956488620738834491684014507704186201093000000000000000);
   (-999514199625775141587391445968040398935181871531037273478420400000000000000);
   1011237075436018016549433779140494575127827962961245293854167000000000000000;
   438134208371222318165542278053965489925645784034349941584507000000000000000;
   (-407780084493501498245127682738581709287001763512484307118547400000000000000);
   (-184404074543600791764603857565522499019606619081066060530452600000000000000);
   151262082818899916417672109753340453244911302445466471771740000000000000000;
   72988899142690748816147641121885581068007893163404124772613290000000000000;
   (-51829222297261254214018811793442031872948618199542888222858890000000000000);
   (-26728397397465183975072112507064409050852950526376833613509220000000000000);
   16396209968790630975103879772004931757310569794283590208931740000000000000;
   8963666558523048764112718546851367368030517279319460108445549000000000000;
   (-4766464838000155192746436553819324857933144402808057358218020000000000000);
   (-2735466156072759824467664346873929524570661158335396527180534000000000000);
   1263996241706422344627321843525682342021921638088785036829943000000000000;
   755492413696502615174500064036081133063251673759208269724446000000000000;
   (-303137202719406485779729219273802519554505146561502064804969400000000000);
   (-187615335356945938360968034790021685136522601460016059686068200000000000);
   65121781548676841031626187945884748595823286661194530188351150000000000;
   41553355933094122827762594166916055361030070670164020413043430000000000;
   (-12395968147555581431006928693089868270046066906635477265030920000000000);
   (-8126161332398177051328184604237057975154642800593274318357692000000000);
   2063790114950702612059895249532033343340137201326403800942906000000000;
   1385901944573589656765876273409079665095347609123824623959651000000000;
   (-295722417885340909548887611098805703566235144062996205695203600000000);
   (-202931193411334019329829912276633923734760627201547716885184700000000);
   35717728292823674538206564568372160505969221605033612596371880000000;
   24994103776823897240913143476233189966715691274620131128188770000000;
   (-3534890218851825710748828088218388133415831376956616696797412000000);
   (-2517884527624136958659745558559312992706644927689162729125510000000);
   275176192522038128437952035416802284443505202276046377848064200000;
   199203217037004344792295500992440664317944259866136821036357900000;
   (-15796609894523811996498415502088951745213012739986728608646060000);
   (-11605916175846729951126258420009576674655880574116366901878830000);
   594436596927012288290060806622118597535267274535168737014937900;
   442717553142787755126987559430090813020911695670456271405333800;
   (-10998530088967421803550364188372121619140208366235925092946840);
   (-8294635939298345162821665414627459859677158780165562383375210)]).

(** lines 2291-2376 *)
Definition coif14_z : positive * list Z := (79%positive,
  [4393123283287643046743977676392679809833123671791969857529554000000000;
   (-5740995333980705032482946798804467194492616738218164095035288000000000);
   (-124892700923474873757780759531520288148649976324376508595097100000000000);
   166893870853466908137294492585513085957088366703029628319227500000000000;
   1714224718466457012729254240886670886351889068326223437908249000000000000;
   (-2350888489707823711598280869672645467891128086655653747378426000000000000);
   (-15128294495124443982315698196513403254542038627646154758278460000000000000);
   21388430284948037599064842974322586800830637275059905207658380000000000000;
   96451894101758591298759251552190701940815121757412877655408580000000000000;
   (-141390076643418466470566716103629296612677812070598952630109200000000000000);
   (-473238637488660606993159608480826106944190239708060283458123600000000000000);
   724666591541631865304142606172248278667687891351717562471888300000000000000;
   1858717516638060924675018895058421783537325657288962327083514000000000000000;
   (-3002639346667087045056450058456524356780635529605230858304448000000000000000);
   (-6001981648119978322839905692747076742955350870879313864711891000000000000000);
   10367044242811837693321394552410596705020461211894373506224940000000000000000;
   16240197291026224300094078062643966370757005672936222392928880000000000000000;
   (-30568666542274712859109731393057020403025926108268319360079580000000000000000);
   (-37343743383754113595482233175930686621655083267603186584688790000000000000000);
   78789741563623075311372463106517833406688700358598606859929730000000000000000;
   73757948927753707582100345974183295650843920146085147185949190000000000000000;
   (-182411231635624106269274117916208519455893529569434910201254700000000000000000);
   (-126164496135213148655170138211118056764090122570646107897792000000000000000000);
   395721374058016463788391209305243541110003361285548994395228500000000000000000;
   188101337589704793653753040498424890552810517737126873360176000000000000000000;
   (-884853174501244041186908643292285673825694109768173858871080600000000000000000);
   (-245683188380297035863558804861046058366649666647204871425003600000000000000000);
   3099141258514769597675719014297798938256245460277150903434604000000000000000000;
   5282263993480420420172683726700426615634588134049161997619639000000000000000000;
   3163176118910136471847844244749096048202155473691440639981631000000000000000000;
   (-286216270507050572184706242577257871971051715317874734451732600000000000000000);
   (-945609856256880641519525957815411642843026841520006510152681200000000000000000);
   256905160612474885570731013951469297513885576433144105802764400000000000000000;
   450046618380279535492652638149503353236050482968930311275367600000000000000000;
   (-204702153212058493344963579195097797402646134924905343159979700000000000000000);
   (-227701483148195041417865229466497169999530613085001202989567900000000000000000);
   145236196434607664346569893459393562865154901632632456914513700000000000000000;
   113612854193703908281928705063179045953918506623083479216928000000000000000000;
   (-92094209473812654080667321906595070799857698278903162114087320000000000000000);
   (-55049694220216708163644818904061394368913580638427463912501590000000000000000);
   52437470747498629549858214755694060943556371986741338187124520000000000000000;
   26016745984272376225874213823056019470170942090972984338340350000000000000000;
   (-26972758415491920023038039310304309177364438596093631814335490000000000000000);
   (-12077764713561848899086009137251341834821418259080281120012910000000000000000);
   12626227370548522562024611933822702659944301060512495830990080000000000000000;
   5499311966045329956589364039445100979613421696316486920186038000000000000000;
   (-5422272627380624698839955658312215512244309349484916450185708000000000000000);
   (-2425184361340171436100075350681685661504913784969748899389596000000000000000);
   2152149496400025476355694208172147853936641059086477755698365000000000000000;
   1017555903218396117566574602158457196612571864784370737617320000000000000000;
   (-793512538868455368865516187000224446140776112815943489661806200000000000000);
   (-399827759721993266222649384355915839498000486165057547507379200000000000000);
   272179654658093668923698151879329381708273993293629085459710800000000000000;
   145545761151076529282808408183564040337422186239076549238655900000000000000;
   (-86652511696339848021487269958576633638420706974399420223125730000000000000);
   (-48760028763045243868978222469615445196282596345110555666376920000000000000);
   25476304973775546908742456208887631032085481883561203756634170000000000000;
   14962915211651228307957518243957458837436976587799283061826020000000000000;
   (-6871963182955767930114979093149987762546939511820085867823395000000000000);
   (-4186054213338905216716743937485713975287167010801084873077525000000000000);
   1688323085510447043387946782295494719025294305992339556134599000000000000;
   1061608664532340347260400721455574451686604605297267706650340000000000000;
   (-374812605250488612646226204425872675438773928990291473597518600000000000);
   (-242379042129523479245759188231803990076479049136323290601331800000000000);
   74519441280212963848738489108155621626156030461688483236578340000000000;
   49408291130279761520325091927145128645008805319262519995396560000000000;
   (-13130042906518917467875877700641293249373467863221889341777250000000000);
   (-8903006190166202390134120838864396696475015840820998020804486000000000);
   2024339408983577773846670331538285833569817328592031229378977000000000;
   1400716332649913272902011493738096845560270049348128272163217000000000;
   (-268784363958859410418218053583909239750217274357876749630006900000000);
   (-189432641695198905710350255880120056092828614827680481704686000000000);
   30104490651250048137631956571623925475923770425987954405777330000000;
   21575491100090312919621298777792625245441888249691969591126370000000;
   (-2765131213310687469788780767616475716770096486689988092675382000000);
   (-2012365100006663638325338350119352463903184738855668161185981000000);
   199955965189009969497404627740033749331246765522852714256212900000;
   147585590409849925732365894082658014384548775374243809788518200000;
   (-10672843858733089526985260625943387348833903197791123695156800000);
   (-7980454732861187078908378609623987154745352892645906516335706000);
   373796055851359243417283830243710356162799070701252883292076800;
   282873682770644559740874215278981333375151182568433128524630900;
   (-6443221017103948534696419228196665121335677484790396728190832);
   (-4930480277882556230626331748820167974609092329853622801401922)]).

(** lines 2378-2469 *)
Definition coif15_z : positive * list Z := (80%positive,
  [(-10773883056900349255685193176073425849138337776147425122896160000000000);
   13895875963426778339743298835220612300296859559938978819383710000000000;
   327939399819451098863487244827352968178610556815253712818823200000000000;
   (-431491742806475042574200140800522217176381648695062005965606300000000000);
   (-4830480955281757774084367520164529040833872636548135345926328000000000000);
   6503442589750190197880818956936279316947206899423481669747179000000000000;
   45862022265309769395262103318329395901396982243753433838582990000000000000;
   (-63414835281692140534001937568366951900224138141181639454986510000000000000);
   (-315399547991640254997824976451319299277060950905315001578052700000000000000);
   449980412043234641902409568024863340793644202557496315398026900000000000000;
   1673949137596284707730217911852880032270066826000466620282769000000000000000;
   (-2478673953689472562808496884430051456931244781632393118270780000000000000000);
   (-7133403721727709318079068467834164023289442323885459167236538000000000000000);
   11046255541610702961288034957629530541435201150438318060167860000000000000000;
   25072690224981108582353023339439565726104563664366935482559090000000000000000;
   (-41012974248400678933429498744007245125927608953095179435873990000000000000000);
   (-74100471436778471352237222827509466410427803226189122567423840000000000000000);
   129800794981044714234258917600192884851858981398143984053248000000000000000000;
   186800203661664152211128751838751343936141176338319311621598900000000000000000;
   (-357222825244925440396399011409641698080553894967581407557384000000000000000000);
   (-406084554698981600074938371118846510370234467860646357341934300000000000000000);
   872297360163467915683424479867858647337934084244762476001061300000000000000000;
   767763262461088521637958973667764584942856354367085645689283200000000000000000;
   (-1937998629272623327245351651340032378963145895629830248355253000000000000000000);
   (-1270912987080621205738379925710726654478701862241529402092432000000000000000000);
   4080738066060462170763876758586958836909785300855426384151542000000000000000000;
   1851809057592325149969383820293931082576986760496903450942510000000000000000000;
   (-8948849897626424781521688387105939501138967888885573845565360000000000000000000);
   (-2385247670399674430387895964623311594722573671400958395974253000000000000000000);
   31036642570082066452311916131718694702785878542790250034666730000000000000000000;
   52725573648144779837168480719017141677877377721538727856792510000000000000000000;
   31655876500750451218664435929308385410582833668780046668768590000000000000000000;
   (-2771191753156204367193336798361266628380497625857187392479985000000000000000000);
   (-9538675074777090841664081647061476726485316724852952970342536000000000000000000);
   2513756235583785139515577768765056710377747798734684870047976000000000000000000;
   4612595054152007266785799039333521785448817048938105661049367000000000000000000;
   (-2039697130032260717744814776948275153234836586193746022325595000000000000000000);
   (-2387610261602642412532087773123245712932154519493636933580111000000000000000000);
   1484665336652742504720315601481410278546028124094856659564326000000000000000000;
   1225045078722903548958708772567092776061773279630721958212731000000000000000000;
   (-972702698868467713210020444822816491928605072134050089935884700000000000000000);
   (-611979040866620156947210888179314305236891254536469025826724900000000000000000);
   576054628476556934902957723624700544132647192421152611083133300000000000000000;
   298263968978341179679305193545047522827452675498205479296225000000000000000000;
   (-310032674781069890867035786185794652744209927780756635376428800000000000000000);
   (-142759895005644856038833955076036448983647797552420963488682400000000000000000);
   152628890286482048735113640821397859228654194309696860106953000000000000000000;
   67168071411635743751558126739296247595150692034264788247670040000000000000000;
   (-69230919619220262151681692395889529989716195037948135479768660000000000000000);
   (-30797536905374856757603363485291510454066870327856075592878510000000000000000);
   29137655892427283125755018928392541551233758974514136626544520000000000000000;
   13558928839351829898770088302722962107632997284754312403590510000000000000000;
   (-11441364576001744538294395266590568590197456760778548585934390000000000000000);
   (-5647366526527395256230283878165734782055526539079541637152500000000000000000);
   4202814469137045804231920127700407277374824908280103138814183000000000000000;
   2200691925199183606470694553320593703444346894670462898724267000000000000000;
   (-1443487126829503983751150823245149445739823542713233210642676000000000000000);
   (-796704406872079368714218764552351657359438103600622443966875100000000000000);
   462052957251241409163808520028035847119652578208361416451792500000000000000;
   266727117114122620214590868510310935918053610078764209751166100000000000000;
   (-137164600767725510828372340419993647921734706352949843561118600000000000000);
   (-82262577757779337870752105060193170424354837311844196205405420000000000000);
   37547074884466001892670423032542715295228797259347053363031280000000000000;
   23274605347356077923758867588100392035366634980263141286857400000000000000;
   (-9419176207630012538547307468277369699399418776908683708933552000000000000);
   (-6010901363192621272223652431192551853015388169886067903126279000000000000);
   2151040529867103646106333296464104096442766675831068812680466000000000000;
   1408663721444152455727196509866657267275259238167897249854527000000000000;
   (-443847176442097801655170782663252993459139749546995061023015000000000000);
   (-297487231865371678900289272963263436090219219139511094242296100000000000);
   82037363546294799867240515864736842199412816707657224176688190000000000;
   56149069820117632919610267593297611692458188839974117174268710000000000;
   (-13443690822156069265144147544278753100599845784184560611622780000000000);
   (-9377858898150921640144384471918102613403240839501295781875527000000000);
   1928845257086926701816336874687366534718638777936590534635229000000000;
   1369011182657074022662376575505428888871791726174235399548870000000000;
   (-238493484046177047368892915957982821969131741779148311072779800000000);
   (-171977896763101139392392977968594479850974832114085363852767200000000);
   24893792370390835985605732053550551085356262079986621686819250000000;
   18214297115696974745074998161029153397526964772982997455043290000000;
   (-2132622020734041001406592439010728287329439597809749096351270000000);
   (-1581480392919139876757416822279485491215786823105416373080481000000);
   143958416315622516503271292134971048236305553091316944519063700000;
   108087087760808587310672456555033248714995968756080317094452400000;
   (-7178988398852581130761463819471838970960348029733518906208378000);
   (-5452456075593213060858973182314766684639894698667113525487884000);
   235114611466132742288959889416118916264692420689038257543033400;
   180487303226093851348390197996951289369763489568312810162400000;
   (-3793093840880643734719632714511071568608235299231836638122279);
   (-2940897685979289093951754752537580047693528343881245635936847)]).

(** lines 2471-2569 *)
Definition coif16_z : positive * list Z := (81%positive,
  [26451282279313344011947490178560949038392247596041875359753480000000000;
   (-33712031984923278055931807953985822479615528534581584043327010000000000);
   (-858260295501585116998998554760591583376970457935001828390545300000000000);
   1113682743874024896922872631560006089322116513037553196433140000000000000;
   13503575556690073021876621295404759829479845082506791684022070000000000000;
   (-17885426622169457686963355112400078634031200349789634214667590000000000000);
   (-137239976764334943586882966673856394447188488166019860764393200000000000000);
   186114279823207277745787515281571647483153730603101165939498700000000000000;
   1012632916853084889127303847166996705778109099232881893357767000000000000000;
   (-1411391218929900871875409836854758822959995175269209988265964000000000000000);
   (-5780354906513060544090253238716694637224354416047278875195167000000000000000);
   8319552925349192408642980463945086193729912325909182155797371000000000000000;
   26561729373352824384521936948084388667571015258855558028773630000000000000000;
   (-39714885037057848061951727359540554837785623531324739494203830000000000000000);
   (-100950247769491536003755152734477946846744949730937149260790600000000000000000);
   158020598485086053457438272059538485082699602917133864326962400000000000000000;
   323558595646085163639036861142800197909314649799300534430524100000000000000000;
   (-535676602047813560130495984135299403658979157094108359844571900000000000000000);
   (-887355654631917906547226262181111940158660843711218589464102100000000000000000);
   1575478281351532632439717118803866388929199851338529206979138000000000000000000;
   2105606651204431619054524746734864557623457229083947484722320000000000000000000;
   (-4088191894353650561276869582147927639352373035186017974748492000000000000000000);
   (-4360872292782198728376270454745337063294048791901294558973734000000000000000000);
   9529568586822569351636224042126142702339784399550130407812201000000000000000000;
   7937554616751835390855349461479084645184690272876975812761538000000000000000000;
   (-20430280622735750364235296100085834453874199183222440140768440000000000000000000);
   (-12768057989433778001346815089005353127749959540069951575146280000000000000000000);
   41917569762391188321206863487704092813632029970399664586080670000000000000000000;
   18232203815228371143610064248093623294147706454513924624498880000000000000000000;
   (-90375372197089577682971956514170432880201803234539521912196190000000000000000000);
   (-23196965936699361725052433936261683487047586438220526267429650000000000000000000);
   310763692808279294064101057140926984554134965295786164350501900000000000000000000;
   526377960785816089896865407942853085893643641354569731737808100000000000000000000;
   316768598161057643016045411405362882654977749982009383858506900000000000000000000;
   (-26880027643991309754571862603462460839822523354843969696960490000000000000000000);
   (-96114136227795357316072993816839234155854094388669828063124330000000000000000000);
   24607022641843661704330447835966721263780750930506232904091270000000000000000000;
   47129827745142095579514146122534779830625384546645693713786270000000000000000000;
   (-20285357963676873976925922336668989326541222517351241856115840000000000000000000);
   (-24889470904804798044674550884660281715509054334013271384747970000000000000000000);
   15098914661004760550818274856086765093555258435095604966667000000000000000000000;
   13089462159440441925350194060773516734560693667246700169325350000000000000000000;
   (-10178836808020271112773905989003187833172795475880701996342510000000000000000000);
   (-6719748071003458935775571012030544444136724430402220957162335000000000000000000);
   6238935489467385921022852560870393671940489207452244538094472000000000000000000;
   3367468902298941859370206452925695206983662336670801038560071000000000000000000;
   (-3493551700182803646132263836442232208288107750606295145197587000000000000000000);
   (-1656892742742846792662641923332649254682158396970453428791079000000000000000000);
   1797580707568879158693851162651173871535491718081800368907782000000000000000000;
   802381358488803697768285596255961707914722021145111323547954700000000000000000;
   (-855489843935832912795777613896982328063076742628464919362176700000000000000000);
   (-380325054119530556706245383205231910664115789772328557366771600000000000000000);
   379057521575031949140617962706685511414412179354571488542401300000000000000000;
   174340594624757205090578520617660883245014763806314882674347200000000000000000;
   (-157243978131640588326577638084962248984029193039990768672910600000000000000000);
   (-76249485925844762812579781789904238645165890943092392785480390000000000000000);
   61280605967745069842280138650223694143164548573067869285208340000000000000000;
   31467419632660680845352931355282297272405756444399334470744250000000000000000;
   (-22453272955075088219371049347195364106024018226506766846129630000000000000000);
   (-12162431825071866862931720598548263899020985206453421229781340000000000000000);
   7720917364617828003652627867578175616946793895014715674935806000000000000000;
   4381753178661449645296516382515863584261691809111376008934184000000000000000;
   (-2482767124382555232483399147672417058164552715497813674691440000000000000000);
   (-1466343698163771614780524818641106403735083198445173705132776000000000000000);
   743201417483536877098187141623495043565555316263888448098058300000000000000;
   454298933175926964453571841319605178538810146082765900397083900000000000000;
   (-206069987993398605820676030039880669972072382073794436036778100000000000000);
   (-129817086504834718781607657837840230708712507533661113338303800000000000000);
   52645816413759939776101647289205212570862598036132351533662700000000000000;
   34063933916190682891954177470739092134468006766767658176763670000000000000;
   (-12321856915228569537294514507572802083718519156427122942928610000000000000);
   (-8166093443152050070015881861916421702970930717440939870025784000000000000);
   2625409011502555900921203294713520941212542142978903897341494000000000000;
   1777971486566651937150629742259638331676290922471013840418127000000000000;
   (-505567032726721732439451247443243660954696138566582007362914900000000000);
   (-349160304778420923488501844956306749914250567473979566284252300000000000);
   87244420272693102027933176441003982165492689908586424290128030000000000;
   61340566460890158276157548974192779727395750459399736744309290000000000;
   (-13355509335331400930697728840829263418560381213003572164207440000000000);
   (-9545001301055681232254913151946668780573427381542116387716243000000000);
   1791132091052570705585609717173338686203233385162086497884597000000000;
   1299479612944140546458425080979636378248568664374156541007765000000000;
   (-207154247817402760030827077071059970702430113076161887983707800000000);
   (-152387641958957259643313560017539829376540939159269064280966400000000);
   20240115640130987953845043098994563799535464449814041409286470000000;
   15080905334305435641797214481026683778679750405404468280120970000000;
   (-1624316869855319846554453444493486257563508484962017834581348000000);
   (-1224719779181149805165600696876308523367619824015832031858679000000);
   102793956901852533332311057074553877707256062064672996848867800000;
   78364616412940031767828008926011401076776078571554799185858380000;
   (-4809623970748619654544928861639842603928203458148585584400867000);
   (-3704428468500691125388142845245956973807333959654959653370468000);
   147907731041436527046585734083540299777814677471846015486730000;
   115016859157766904869717406669914599347147619450338727223023400;
   (-2242407694525583556140058750006128491924916204038852290292985);
   (-1759447752651847364048938898264828071373418617420955762135442)]).

(** lines 2571-2674 *)
Definition coif17_z : positive * list Z := (82%positive,
  [(-65004643897075993652093865485863510538920213784581386533044230000000000);
   81950925322072870319293151335118222594555581743146089819438990000000000;
   2239711179183031212893330219097909418305437894719629936823048000000000000;
   (-2869947756536888954496920486027606890198732779175975385193469000000000000);
   (-37486528692471868921763716159820664973624081410143253787162940000000000000);
   48929492188901212147065059239183294407940166059043134738145290000000000000;
   406053599690776848276023303237824245565529082402261383851852300000000000000;
   (-541280027326820065196625594537212632923237362499604333872776500000000000000);
   (-3199646878369895994575449942065193991181771279589753273012370000000000000000);
   4369727725871308893880916467851990680716049438182815833632030000000000000000;
   19546754269933046637442991958219429137225017970654217602835850000000000000000;
   (-27455131467331887649323992323876717082562271372967950858878820000000000000000);
   (-96344129721883837797477800770332159389109397487619652633354340000000000000000);
   139851012844062007996936525847053642218468445604843270227176900000000000000000;
   393698297244634269418029413127596736496986308788201258352330200000000000000000;
   (-594217128537129360728049606766438273507718006197098133050626800000000000000000);
   (-1360187671549120330733322490500505609713066081377747046659631000000000000000000);
   2151477677680517385918241110555023784071910115637214853600854000000000000000000;
   4031846985142799308758422861627631567915210555326501592195629000000000000000000;
   (-6753056524717059857256997400254135291064617085196739372670596000000000000000000);
   (-10370190384821544365161867693613770533478403901479752873549030000000000000000000);
   18652783990439695265993647298511776138104568085627921769010070000000000000000000;
   23350924791668438526195056918609600371512954480174023954904640000000000000000000;
   (-46003624105451243101285937311535199571579150451648456000484440000000000000000000);
   (-46359015163675304682667746339950649388645951653044826622699260000000000000000000);
   102984987809348891201613523712792793243702168111745033305047000000000000000000000;
   81613548447426951662878675905283069340132304972720940864398530000000000000000000;
   (-214008345470718099047195776444161989241514166625917839607418800000000000000000000);
   (-128001306640721500306356080149403961450821222282177808126468300000000000000000000);
   429205586159626221497325715693615130405671477731412606161413000000000000000000000;
   179539069026626259202000241873960739585248135627676833596761800000000000000000000;
   (-911651301290744174692227312933801140907549289398868158820002400000000000000000000);
   (-225937251421899622069515855461420461097620485119548917021959400000000000000000000);
   3111155431954246180810318298644662465180042749292370227009409000000000000000000000;
   5255791920096491971882691260862499824764740619924123678110320000000000000000000000;
   3169526419329032746356987532605638232939637480462148442295005000000000000000000000;
   (-261157166636540217151056304211933624029714964941645878591194600000000000000000000);
   (-967595485366750793519763199867046582302920191429438367212996900000000000000000000);
   240994700946062339947152381219678047114887692901419410106257300000000000000000000;
   480335321849804401541606007300447338588141657590807729660355900000000000000000000;
   (-201456122999201429712214251499224208136543549705059547922692700000000000000000000);
   (-258206166016195068411095456903920664794896905259928653268199400000000000000000000);
   152927264025330824008410921953175605645988364367418333727443400000000000000000000;
   138807139746783291237305911586845315122107962313813628575056600000000000000000000;
   (-105722110534511024680281750634146664809528777431405418032238900000000000000000000);
   (-73027626534382329012276891429505473295381408295390782894878080000000000000000000);
   66795254791556709445343881452446007999045568671957715096879130000000000000000000;
   37533279101752616170616389836985973546051968491126213759769620000000000000000000;
   (-38735020442384942092210750630357752737730187437604714304735270000000000000000000);
   (-18937326062694407972938696299568896683622033623835521572389790000000000000000000);
   20725430248678951785592728352101614850560772812531665101396960000000000000000000;
   9410418747008923962829724903349867736584130840706583199324136000000000000000000;
   (-10292362085966133880682253406038997344350601018855030414262920000000000000000000);
   (-4591014336769466560134513688989777037625141817691452272446129000000000000000000);
   4773008760819621131157362935521176506345390013016953367673484000000000000000000;
   2178204082961996755621953357319268908714183698410765755733914000000000000000000;
   (-2078309675413889310430737904787028903664009273165646558840663000000000000000000);
   (-992999704256220006328124972248258788222879245713557008663046400000000000000000);
   853021400577587555734484540183093643418486125924942254496292900000000000000000;
   430312701833860012687114784398452310394076254240717889029534000000000000000000;
   (-330570198725783014594684324072397547609853420544665909590228200000000000000000);
   (-175882965086696397177691878416163204037971907860607737272102000000000000000000);
   120876957784369732704060340927481445121782664381235256899226800000000000000000;
   67464676751209628671476709373197397597338364797001166797712340000000000000000;
   (-41603551873163420192709905975954198772162288736828329918047690000000000000000);
   (-24202549046489152540149557408908412260838857442919470050916570000000000000000);
   13429942496032503430646786898110240777535838284889872180459400000000000000000;
   8097294554089061667504430331210249043842934823174097650144144000000000000000;
   (-4049444940788524829884048775715404594466969342774847971126013000000000000000);
   (-2518965167469206882003809454171378587968607051431751373150446000000000000000);
   1135553617795151208855033374367694728763504841965654332076720000000000000000;
   726165191755869786256663716189638592815419243606500174463309900000000000000;
   (-294798028397859953380532152693437092314198599577371868798980900000000000000);
   (-193236191036883590623402938893367848162494318258203519349563200000000000000);
   70503211936909297668558936252375237244773277437514481485200060000000000000;
   47255408986268384537337977732198531199975679594541000936538070000000000000;
   (-15448902716541048148993533482261280823573379201944648182065030000000000000);
   (-10566161426004327928877328601286522004941751657686676820696910000000000000);
   3082594659999300699574359679210901640096775130739951087627160000000000000;
   2147504833829198392113195006888709994262573995228896673552773000000000000;
   (-556128689462004208696494366816155845240950234270441547148676700000000000);
   (-394014349618344024984705724770487990065336618752739785903018500000000000);
   89956435804133857701100487971799207908595447777777469103120380000000000;
   64727872213531412919379002140243398974508010453137396909504530000000000;
   (-12915296808357629051575650164133334403306576044083041921144840000000000);
   (-9426669651972276882689445158605509492502686267040217113580068000000000);
   1625527264466347733962941488626801955710436180523082414371005000000000;
   1202192377372031845627082725619201334357843245869818759928528000000000;
   (-176551845964447156401880833009625516018588880025318854828158200000000);
   (-132177901547595154286280416449308363399038088244756533683259700000000);
   16210752874276110936361439914295350876752015718423379016721800000000;
   12274980879320533408761253262183109225211502439468626773543890000000;
   (-1223432402366205698930334886661193082730379267225732134795174000000);
   (-936246493163920034590624118404371267652595678024293208169546900000);
   72863074514003769465259010967537188884786706614838024527251310000;
   56312449200894366745737944055137989193344470458455290380349910000;
   (-3210669220728058803342344742726907080377349121830123276313938000);
   (-2504389307995414770751414118526232971373346964470499339128194000);
   93053809360998568081277039659798971971716954808316304038849880;
   73214577940816500021233764858180671540290266138751789797781600;
   (-1330546671429478643380151195298922795778536160301584472334406);
   (-1055408614665356789775787814731337905514088897800715301399902)]).

(** lines 2676-2681 *)
Definition bior1_0_z : positive * list Z := (29%positive,
  [0; 0; 0; 0; 70710678118654752440084436210; 70710678118654752440084436210; 0; 0; 0; 0]).

(** lines 2683-2686 *)
Definition bior1_1_z : positive * list Z := (29%positive,
  [70710678118654752440084436210; 70710678118654752440084436210]).

(** lines 2688-2695 *)
Definition bior1_3_z : positive * list Z := (31%positive,
  [(-883883476483184405501055452631); 883883476483184405501055452631; 7071067811865475244008443621000;
   7071067811865475244008443621000; 883883476483184405501055452631; (-883883476483184405501055452631)]).

(** lines 2697-2708 *)
Definition bior1_5_z : positive * list Z := (31%positive,
  [165728151840597076031447897368; (-165728151840597076031447897368); (-1215339780164378557563951247368);
   1215339780164378557563951247368; 7071067811865475244008443621000; 7071067811865475244008443621000;
   1215339780164378557563951247368; (-1215339780164378557563951247368); (-165728151840597076031447897368);
   165728151840597076031447897368]).

(** lines 2711-2718 *)
Definition bior2_0_z : positive * list Z := (31%positive,
  [0; 0; 0; 0; 0; 0; 0; 3535533905932737622004221810524; 7071067811865475244008443621048;
   3535533905932737622004221810524; 0; 0; 0; 0; 0; 0; 0; 0]).

(** lines 2720-2727 *)
Definition bior2_2_z : positive * list Z := (31%positive,
  [(-1767766952966368811002110905262); 3535533905932737622004221810524; 10606601717798212866012665431573;
   3535533905932737622004221810524; (-1767766952966368811002110905262); 0]).

(** lines 2729-2740 *)
Definition bior2_4_z : positive * list Z := (31%positive,
  [331456303681194152062895794737; (-662912607362388304125791589473); (-1767766952966368811002110905262);
   4198446513295125926130013399998; 9943689110435824561886873842099; 4198446513295125926130013399998;
   (-1767766952966368811002110905262); (-662912607362388304125791589473); 331456303681194152062895794737; 0]).

(** lines 2742-2756 *)
Definition bior2_6_z : positive * list Z := (31%positive,
  [(-69053396600248781679769957237); 138106793200497563359539914474; 469563096881691715422435709210;
   (-1077232986963880994204411332894); (-1698713556366120029322340948025); 4474660099696121052849093228945;
   9667475524034829435167794013152; 4474660099696121052849093228945; (-1698713556366120029322340948025);
   (-1077232986963880994204411332894); 469563096881691715422435709210; 138106793200497563359539914474;
   (-69053396600248781679769957237); 0]).

(** lines 2758-2777 *)
Definition bior2_8_z : positive * list Z := (31%positive,
  [15105430506304420992449678146; (-30210861012608841984899356291); (-129475118625466465649568669819);
   289161098263541773284036695929; 529984818906909399392234421792; (-1349130736077360572068505539514);
   (-1638291834340902345352542235443); 4625714404759165262773590010400; 9516421218971785225243297231697;
   4625714404759165262773590010400; (-1638291834340902345352542235443); (-1349130736077360572068505539514);
   529984818906909399392234421792; 289161098263541773284036695929; (-129475118625466465649568669819);
   (-30210861012608841984899356291); 15105430506304420992449678146; 0]).

(** lines 2779-2785 *)
Definition bior3_0_z : positive * list Z := (31%positive,
  [0; 0; 0; 0; 0; 0; 0; 0; 1767766952966368811002110905262; 5303300858899106433006332715786;
   5303300858899106433006332715786; 1767766952966368811002110905262; 0; 0; 0; 0; 0; 0; 0; 0]).

(** lines 2788-2793 *)
Definition bior3_1_z : positive * list Z := (31%positive,
  [(-3535533905932737622004221810524); 10606601717798212866012665431573; 10606601717798212866012665431573;
   (-3535533905932737622004221810524)]).

(** lines 2795-2804 *)
Definition bior3_3_z : positive * list Z := (31%positive,
  [662912607362388304125791589473; (-1988737822087164912377374768420); (-1546796083845572709626847042104);
   9943689110435824561886873842099; 9943689110435824561886873842099; (-1546796083845572709626847042104);
   (-1988737822087164912377374768420); 662912607362388304125791589473]).

(** lines 2806-2819 *)
Definition bior3_5_z : positive * list Z := (31%positive,
  [(-138106793200497563359539914474); 414320379601492690078619743421; 524805814161890740766251675000;
   (-2679271788089652729175074340788); (-718155324642587329469607555263); 9667475524034829435167794013152;
   9667475524034829435167794013152; (-718155324642587329469607555263); (-2679271788089652729175074340788);
   524805814161890740766251675000; 414320379601492690078619743421; (-138106793200497563359539914474)]).

(** lines 2821-2838 *)
Definition bior3_7_z : positive * list Z := (31%positive,
  [30210861012608841984899356291; (-90632583037826525954698068873); (-168317654213106405344439270765);
   746639850740189951912512662623; 313329787073628846871956180962; (-3011591259228349991008967259990);
   (-264992409453454699696117210896); 9516421218971785225243297231697; 9516421218971785225243297231697;
   (-264992409453454699696117210896); (-3011591259228349991008967259990); 313329787073628846871956180962;
   746639850740189951912512662623; (-168317654213106405344439270765); (-90632583037826525954698068873);
   30210861012608841984899356291]).

(** lines 2841-2862 *)
Definition bior3_9_z : positive * list Z := (31%positive,
  [(-6797443727836989446602355165); 20392331183510968339807065496; 50603192196119810324706421788;
   (-206189126411055346546938106687); (-141127879301758447558029850103); 991347824942321571990197448581;
   123001362694193142367090236328; (-3201919683607785695513833204624); 20500227115698857061181706055;
   9421257006782067372990864259380; 9421257006782067372990864259380; 20500227115698857061181706055;
   (-3201919683607785695513833204624); 123001362694193142367090236328; 991347824942321571990197448581;
   (-141127879301758447558029850103); (-206189126411055346546938106687); 50603192196119810324706421788;
   20392331183510968339807065496; (-6797443727836989446602355165)]).

(** lines 2865-2871 *)
Definition bior4_0_z : positive * list Z := (18%positive,
  [0; (-64538882628697058); (-40689417609164058); 418092273221617240; 788485616405582900; 418092273221617240;
   (-40689417609164058); (-64538882628697058); 0; 0]).

(** lines 2873-2879 *)
Definition bior4_4_z : positive * list Z := (18%positive,
  [37828455507264040; (-23849465019556843); (-110624404418437180); 377402855612830660; 852698679008893850;
   377402855612830660; (-110624404418437180); (-23849465019556843); 37828455507264040; 0]).

(** lines 2881-2888 *)
Definition bior5_0_z : positive * list Z := (19%positive,
  [134567094591187160; (-26949668801115071); (-1367065846643291400); (-935046974009388630); 4768032657984842500;
   8995061097486484200; 4768032657984842500; (-935046974009388630); (-1367065846643291400); (-26949668801115071);
   134567094591187160; 0]).

(** lines 2890-2897 *)
Definition bior5_5_z : positive * list Z := (19%positive,
  [0; 396870883474054400; 79481086372403219; (-544637884682369070); 3456052819560334600; 7366601814282105500;
   3456052819560334600; (-544637884682369070); 79481086372403219; 396870883474054400; 0; 0]).

(** lines 2899-2909 *)
Definition bior6_0_z : positive * list Z := (18%positive,
  [0; 0; 0; 14426282505624435; 14467504896790148; (-78722001062628819); (-40367979030339923); 417849109150274570;
   758907729453654150; 417849109150274570; (-40367979030339923); (-78722001062628819); 14467504896790148;
   14426282505624435; 0; 0; 0; 0]).

(** lines 2911-2921 *)
Definition bior6_8_z : positive * list Z := (19%positive,
  [19088317364812906; (-19142861290887667); (-169906398676023420); 119345652797292600; 497329034909407900;
   (-772631731672041440); (-940592034957364600); 4207962846098268200; 8259229974584022500; 4207962846098268200;
   (-940592034957364600); (-772631731672041440); 497329034909407900; 119345652797292600; (-169906398676023420);
   (-19142861290887667); 19088317364812906; 0]).

(** lines 2925-2927 *)
Definition dmey_z : positive * list Z := (28%positive,
  [(-10099999569414229); 85194596367962140000; (-111194495259527800000); (-107988195396219580000);
   606697574135113520000; (-1086651653673588300000); 820068065038648130000; 1178300449766393400000;
   (-5506340565252278200000); 11307947017916706000000; (-14895492164971559000000); 7367572885903746000000;
   32054419133447798000000; (-163126997345528070000000); 655430593057514910000000; (-6011502343516092500000000);
   (-27046721246437250000000000); 22025341009110021000000000; 60458140973233040000000000;
   (-63877183184971563000000000); (-110614963925134510000000000); 152700151309348030000000000;
   174234341037296930000000000; (-321307939902117580000000000); (-243487459060780230000000000);
   637390243228015960000000000; 306550919608242630000000000; (-1328452004362293800000000000);
   (-350875556562583460000000000); 4445930027575772400000000000; 7445855923188062800000000000;
   4445930027575772400000000000; (-350875556562583460000000000); (-1328452004362293800000000000);
   306550919608242630000000000; 637390243228015960000000000; (-243487459060780230000000000);
   (-321307939902117580000000000); 174234341037296930000000000; 152700151309348030000000000;
   (-110614963925134510000000000); (-63877183184971563000000000); 60458140973233040000000000;
   22025341009110021000000000; (-27046721246437250000000000); (-6011502343516092500000000);
   655430593057514910000000; (-163126997345528070000000); 32054419133447798000000; 7367572885903746000000;
   (-14895492164971559000000); 11307947017916706000000; (-5506340565252278200000); 1178300449766393400000;
   820068065038648130000; (-1086651653673588300000); 606697574135113520000; (-107988195396219580000);
   (-111194495259527800000); 85194596367962140000; (-10099999569414229); 0]).

(** line 1698 *)
Definition sqrt2_z : positive * Z := (52%positive, 14142135623730951454746218587388284504413604736328125).

(** lines 2929-2968 *)
Definition db_list : list (positive * list Z) :=
  [db1_z; db2_z; db3_z; db4_z; db5_z; db6_z; db7_z; db8_z; db9_z; db10_z; db11_z; db12_z; db13_z; db14_z; db15_z; db16_z; db17_z; db18_z; db19_z; db20_z; db21_z; db22_z; db23_z; db24_z; db25_z; db26_z; db27_z; db28_z; db29_z; db30_z; db31_z; db32_z; db33_z; db34_z; db35_z; db36_z; db37_z; db38_z].

(** lines 2970-2990 *)
Definition sym_list : list (positive * list Z) :=
  [sym2_z; sym3_z; sym4_z; sym5_z; sym6_z; sym7_z; sym8_z; sym9_z; sym10_z; sym11_z; sym12_z; sym13_z; sym14_z; sym15_z; sym16_z; sym17_z; sym18_z; sym19_z; sym20_z].

(** lines 2992-3010 *)
Definition coif_list : list (positive * list Z) :=
  [coif1_z; coif2_z; coif3_z; coif4_z; coif5_z; coif6_z; coif7_z; coif8_z; coif9_z; coif10_z; coif11_z; coif12_z; coif13_z; coif14_z; coif15_z; coif16_z; coif17_z].

(** lines 3012-3058 *)
Definition bior_table : list (list (positive * list Z)) :=
  [[bior1_0_z; bior1_1_z; bior1_3_z; bior1_5_z];
   [bior2_0_z; bior2_2_z; bior2_4_z; bior2_6_z; bior2_8_z];
   [bior3_0_z; bior3_1_z; bior3_3_z; bior3_5_z; bior3_7_z; bior3_9_z];
   [bior4_0_z; bior4_4_z];
   [bior5_0_z; bior5_5_z];
   [bior6_0_z; bior6_8_z]].

Definition builtin : tables Qcring :=
  mkTables (map dtab db_list) (map dtab sym_list) (map dtab coif_list) (dec (fst sqrt2_z) (snd sqrt2_z))
    (map (map dtab) bior_table) (dtab dmey_z).
