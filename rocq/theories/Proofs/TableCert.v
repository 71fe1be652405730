(** Certificates for Proofs/TableFacts.v: intermediate points of the doubling chains between the rows of the table
    of base point multiples, and of a computation of ell times the base point. A point is given by y + x and y - x.
    Nothing here is trusted: every number is checked there. *)
From Coq Require Import ZArith List.
Import ListNotations. Open Scope Z_scope.

(** For each row: x y of its first point, and 16, 32, 64, 128 times that point. *)
Definition row_certs : list (Z * list (Z * Z)) :=
  [ (46827403850823179245072216630277197565144205554125654976674165829533817101731, [(9150700901396372002955937811386093231723774689136611388824386579046465544694, 34803470282035254167861749748857734223267880134292052229384783022034440302067); (56998634480820689224812234692604884713596111604412395994047877857290066665871, 4701998613811609213925887888520231796251786686876732362708225031217252696899); (30340318798711838421951331556490767266021685221295035303866716430611579841841, 24932384703262992566065740342801154389079494960625337105603301029363501065499); (43664744203255909200148347263385470436435959511557546844847502698877724353667, 51248953256284332391137700317245717899341492317885220006567182830270196459874)]);
    (45190082622104628312424241671176328100266152815574825809524629283795790963326, [(39233217367744944082743727234989693259911533177309831461716904563803921446866, 41877302029680014373540696028369248887210931711892764634228302435410547329496); (4904412209339761180286532618738770454062008006295097537062582753237850945914, 41239042376942260444617941012969620388890361950357076602629139995446089147819); (55158454346054694268604020441458183612793129258730060795712830474277845193867, 48229813147520468874845442934964023824873336539479111945131626172356501781879); (12770184574188621644851783046033290637998250387524720053955675690325502037083, 45959164983013416229143330207580281711029926589895765798082217843103463476785)]);
    (13664361721323129802210938873361597552783530985243995323016058555419267517089, [(6480549826064741809328337591895651998028096356534587962948998402906599594725, 419243865549101221419157110606488251204777884130019979821866502075098115851); (27018923029239457803657209244752977129985739328242490994714711393904947298267, 19632441190381254804107326885484740810708219443602643718345157432467126378702); (47749627333136099083567916553369945239553804462831484396119836325094428303541, 51659565042808725279805218003850710368305926169517330366945025475058608489002); (22496070466863838813376617589410879623201825320060904330061763859239383415207, 17351779753683168135768649016284636994486862692623638310352723970068194639084)]);
    (35904166375489452817137140598001589045575754508954150922190349373018797885359, [(20228105077580605391615089861383477902948651093110614018006228601212829812897, 50739262438981618138604305768031224265085555730473399623413823829986446560312); (11885723816838583074018792554219779064684285046928521397444516138233066886525, 39531560762888920858585255896256030388577182770913576037217881623551806533277); (55309097900275244595540812102580096223347468140752878775874983984975695891697, 47208749773804116322606667033397203501950472200820296195288268210573616930236); (39919050734813992231405536031843928074009219071754640599537776056399933191789, 45945320156859477738353994360472793303317240314119916523532935872320061970583)]);
    (55450006886699097850473134521998543461614749775831529049808198832293454998897, [(19238310624339690010350409627550275976108757237013722313670832090412456009909, 37855451600702306380738652731348760260954121750363421172459211694831619619074); (22958599478870231972095435491921071321727680888093042925691344798628485557660, 55915739696162086463960047236349335733189403447425121245282808522811266327585); (52019434033050880042442439734078393879024747597924613565229610236293041437434, 50920055369732224919232050349233188227485914693700981097206687687163029446124); (47093895857636168066134732782191630766523690668151907855819373751482162168301, 14762704846405861073613058002013227688437453808003631442089919367483943000822)]);
    (18408639415301046201686838874843235575286973466641218752632030265278046338872, [(36918196726722101448933678860889797205635177955960663745753736684877656398356, 19792759282461516403059541435426745796444315754794010916384367072719942928773); (57726455918441732161374379422646745280029098034021934091605343996147553407603, 43139791409575482953749655001329897935535251830029924309400815164876474272278); (47063537400376592821060118630994932899449334552213294216292381919649384968588, 5893944201089945755336144099942436442471735737646293838675905175387005565628); (44259017990347534984166074681467696190053556812836312064916650787395165441259, 23885545767277264186013334580522072789574641086479308799797608612291276282014)]);
    (56583979703411916882932154846613088400979015318514747688785230390140028694546, [(51956654281199107032646883520755456670397495165077329721678721562044747830153, 51577943930390623687170625002526342739440813934914707538124030955323570748481); (55114293388014710577873181270176368153397891935701164450115404901685262632356, 26793374489195845885521166144532151671940485951270675431551017925683726708212); (21808955024583456816737303744330158092622569902218896451330150923923000550685, 13672431629770178892865604500844231025015494962039128962368344144847035232979); (7968477510007827606435445207869657988360779403213970828173573668398676677500, 42216988583537334385361187201734478591033608839682085754733510060674011191937)]);
    (38317642312210954027635398252908819991782675198528889188269792595252970193743, [(30093125196965367685981526264725504754332396466127285897228009251475038571580, 9052034251620205706827156185663229978504786077326025551089469078038877155903); (37269293509374695477101338646535471344399171896611579258055354116231451016863, 8000984971521348259300721087162075508022068305263762918653175743525410303157); (12579719060343104455282808057167670779768942604076651371217747838342772269098, 47702712675269339434589082051757801648304104337832424757743333112946205248406); (53546903703359431094648424818051869487029327402182101913279052438002554153131, 49829415220052758663960833463479664041993077134458006921345767835557035854439)]);
    (44572319132873595455842987266297020623526171197071652062676750099116673206361, [(20020780039529006300845947799009066733379107699593845039647896546874224898398, 32980252754384554140471826446199976879444157450147215177201146178318733946092); (12404633805603550874724628254851313373558443696608222607569189903119233983682, 39447725265953999306382624543315991042556680675800157205432771446129763497561); (52398358348779610509342589685866162170873741105110226567791376330472334500349, 26973241560935523488720356593300373175214142520019630742708363487218803960237); (40557425522788986321441778293671640794084726215204064503883067145245730589812, 26520050914473004359684359514879290922112345566569427120432001634940482719187)]);
    (4975509444067247565308788967192026903932001450383679535544650631823633154885, [(2713392604461861686723734081934261555305819703129594204603676725602510667418, 29050895300783521808049570404875149001510403583903130624611990717819265733359); (26149337995024683493709316671756158759073952828742209801586076066953975534338, 2279560492307930322974539460671633030905577003235254436334310157346744952968); (37350604812291711739792023108357612565341869762170544755481144045416640066852, 45755846414585105445672620688326532201349422910799802274291305585391877538109); (17530766338798746851383918061560411741631057273203184466619043942756004356822, 3251282321307115286448521645722997306489322493944037482195857979136664638322)]);
    (29692651458458722651386678943218269027918203595633553304967606314881341146280, [(35905976425759216951032961192435556430844196618167511537329817914065114522144, 36398842653090509339062756880536732468749778493576125882477939014127250597385); (29627051913227713816332507458185230140323706499467651432590251247615080541013, 21540843015634029490841174471559232856665002667821908647205975174421615849839); (3768659024341117249491098723584122266706344333981622657919620339066347168351, 27729876039901811366790817540567895862704159966852391093122791842554353918162); (18483503046857252429375645563637754951587132532205348576753810508712804608332, 13324204498244154729700179562847089505007953015145942743907926454844256606482)]);
    (39953339698486268802200929093615089845653556727898565227043544080495690841023, [(32364399508626710899416853671937516916518441965696484319950818283868609368731, 5040935096316101636470438701185741236436715863683671398107770716543173862999); (48730502736573766327320742472093931472030717953993328008002161838994460789109, 37268943610949337775671098878598508810882793289621511950706282659034249070262); (56297996893969707610871067331604571443081171123708602659922814047193196201398, 1651466092629576823795517277661286170299574555301276048970089213918242743453); (16334867078389064885109837060467176931969929372189737577955599726276904395315, 6451277858413706921351461060238480843995938592018322958137771311960455654875)]);
    (35111111540984543632653740550983724599536402332749403350774988695760688040209, [(26135278318867212160009877132759729477683821448533088453593545567162306742068, 26438595769799614534171280426746668914667059326668886443774027154481945892503); (42363118222225576852150967470876969773177173716850687553237061623958791951450, 55954407209457526793690411706780560375786115013801438265594667524299894869181); (41685755285441343534555699146164460473739804412644429165592581933281107039532, 12339900863810792922652965807427786040792475232367501540178739227893090482169); (41936275459278513892028662869335319825667417788472248668580578659898212719895, 14115791234651454395533986752642788355257831724545871947750268436768458849437)]);
    (38107070727229784885304399761175946507407664445189676240769926092787827351429, [(55908560528115313337331192079572976987930751259182231978092407972406010699860, 47349562114064199049455505554885199492921087886151761769310924232981104345321); (24470320021653743288553553922194293610598963554618716086300327973575442987602, 48629386808616182719844028849663762289686733341344123443681278045224005122266); (17657945628621291754587269042775545983098884255332522933504015958020196600278, 9438494402160282901937930369681759573700187954581341631581855985215670587320); (38460449615910280820790371532023959880302718778121194725079464555426341357048, 33007988241098964107613687859081433524086423507854904238311567619436896863889)]);
    (35187445115013480584449630665796615226086542422399353313325934559210743563421, [(10900974192870607829506680138321804199832223736972419587654320297717013979204, 29127498398513059995201066728023877036458859343387648328547598024354676306984); (54196495570350908130021642504342204676574505042192972847049886452688053817045, 30960394061703469359134176601206492187446853585948505493804462451446073650241); (11019345097139622798046187073698087066922447256226608826017397481896212846698, 5820588615245511894029881504402697299026606688306343668786589928163656000629); (18425506961570116601076841601121607329149390959536277088383869194530120247554, 24407579601905941680390411050991728340348529633567968510055614570053217688801)]);
    (7409144969870103820524925611972696916688721049115307139576546451753046568819, [(37583486322670922385075650426941623920333460018406542018305976867658902089840, 27473891086016360242188172993954430383857498731478941302716607143545663554916); (55114361871029474583791782900429903947017484378419434410898145812375177598775, 48881569455427526330309077598344390060411467144275677227882526686965354578365); (2386219325892276317613181682198878642484654272120126591129717828453063674239, 32171283028294928957618712681864902579454458872470737206281973259095949669668); (11064828440827513439192054732080206607063733165148357433430908542043450520071, 42449541200173318588816647462408876714678726888269655963682424126372307544782)]);
    (2546723617105803217066704043024384113612712956060210350476893017486688072586, [(20816729283658675737597874036244755459432213712673199674477249282347378100896, 2827949606557303530010123966069536093977590432613525199209174913470026768421); (36511472298295012127396655300198627608903407811442367844317986604725477306880, 2049459371736403135779843290437168998981580157757276183787500159891340169366); (18247548468777541579077707199359291630115284164425204758606959352497720204546, 55853818989352991694607642880542386300394405856725876217546564011271044744392); (34070137386085787140935864285329930047141558283481057533817158218051891634046, 3928786710474104009979167246778220749017877503289432662664261553658238913134)]);
    (37215819195597225906733077543471374188317177722219007369409545129793948129206, [(55989946456375606165439889472714594603251474029621175557852958440037431409651, 4852155834875781035877814565700700976527240076930227074072174229123474226148); (15909809889005867367524421217021395611098073719597511194365816539458545952757, 52519748445570161924676083189383330091158973481611635475076288369743788279268); (6059527188866542658016599743332346683163647449751212243298345282584149418412, 4288220273164369139669691076631629742933809433970265176956193674551524398836); (33490582160136352298205960007176785250765553184288324526103394337424832587710, 48143600437069407810929624971159813590810271814525586759515201515080337562413)]);
    (39899686957124757334732424715163183046072775688984097252014070424513489767468, [(17279665776878985509061503287402832131092299927060323084736802279902406091845, 3306260197984012910550852117722600455708043411683630074616054469981948222071); (1603252189693514200902836888633976284020425251894517618753390580396146059671, 25411064537158601855213970699620911270833333634014082500972018180278739139406); (20600504367505484203057461901161784472066241766941208779371989666659434493518, 7098305492863900506006884559307921724217379589603282693945235625946394799753); (40942007598391606525189171542550556186072591535757963615424431466718506100027, 4290193919999827367609371556414440590369856465845806411492607867449813086531)]);
    (49963983796323580263993243533601747270429038215005018188137038993379644188496, [(18388968933670730423038532679662466194727041094044865682447630165559128990185, 31366969531515944374680028337748424705468284538110937420007479319937322716490); (21926981049716112996977877809627457639611289691445095337165325461747052687645, 7001130238901181337406480340068232848747667334478599866866138006533212958216); (39928331414003193465574104541805305912561569898010815477573106249439896683471, 6928194428071063405693926470819083986924596131671323649974629715273334255241); (2004007499212568899640847024972257222276518915814652305359330117853481912562, 13760699813379818001621948699440995358454632119560173289455180029817859405708)]);
    (1968866686843775686290887716911932262809511996620402674886445561697688625696, [(15669390887261996972541097573251699316363194991460993510930253774376039431216, 6481441604434674251722151301237027149677047898677253351625433079023270820732); (2722968881390638976469219772442544614751530397103130960257335824061931079737, 9417721599045751748513382216692679512054964631246943476749673742477908188722); (23427663464890778024067346444622556718943200713457476888478104769170624042391, 44457564966178680015057142836551689365367193763011300229631294647466358217283); (23578284508170805760193573125312691893812639890759519912979700868185590011016, 31662223357703339344075706230948549309295719547938186608589445522277417090097)]);
    (30529205466975385714812549513861014452090337118143516453664072507857742619136, [(39589652964703051311010156079938073430224213513671413038802504024600042758727, 33092651885666017551082980031645925108353432371575483520112963503106501512510); (54562577767967502916953760097564354441606670697613794243953460922464355435652, 4621653946844132742844938987227170627273714099982874117251665840039376566638); (18238172509766130572838371819374335860088620946317495108545814980343300822932, 21643524156319915059511342994765532945143539962542425124476409934529155488163); (52480799574212018296103641750962407459123884676888167027445524858425752156689, 14208282404154888024012111114010736524516613021305753100424949648820480726467)]);
    (19894888738178213129913547526001517380443060205018269077878681434722593234648, [(4162636603363898912802506016734676141302414346069497572792082195277430623166, 29485708941827416286782376064401195135545585102276699998591977987442165037807); (584785219525950170676989274521865689357439769128629296953187445640918525891, 12718425858699363827577874084978253374127524126829559947396777360829723782093); (37882208947317627261499830191132446807833795029824373210256954531113040603046, 13795079075399559508321400535529164627214519095947643547813099448947406064111); (13164814998635651238619460631778212018370597159231378721179731891801191967134, 57733395054077155839536104799605618049007161755081628201792019399522427573739)]);
    (27530807659849847188101740647952712239550753242740479481937681435443989417878, [(14433019317592528827773217842492832521107225826321098069369329761560858171167, 227672649292312309415764748418086519533207076911048037684098263976604341455); (3678591536329768490469544774394264647023667859065529436585204355656801411655, 7825969676466478768104460439023688335146841082429203154866743267161198034783); (29219774217519919237616767847596595986648303461023267385024025762354624769694, 4956209539947775781733061279772566262893608593857496887743827680501502625231); (12701313107394580236461066638023179145754036828323517951659941569561363932896, 13520382171601208384746513767643911738542836919401653198664014423115357059373)]);
    (11852089489538718050497412370591090809284399797098271593925664457585805673159, [(37082884071409217501735151535403647570992630841419959116788654210139848164120, 31100210456026919531916348943250374513916212845570508096479695019665124044395); (43104885622705402498154505883974980259039242488210938263351972323294601588872, 20426769793430046937181187186233719697257896322123931651835130211853678797137); (16472312606931799614462687861414478365019134565195084351702505064177113490667, 1365701217766719994936920451083547902972126480076447240913237261518942286471); (3620847422797225669537487963319878510813625673143035314029197444558642153340, 36663129096830406075171095727813040888201913791218274335237952876157861170529)]);
    (34411454693318473194917641548200099393007202594856093974381551392238794648136, [(38783356964219415375645781364262308018092770963392205222937967533997272217041, 22678533783332769283518066353569282344909020900274167896713555998620046295535); (10288109288710099540577935307677531526790485646522926317432048976807234400697, 4364922251525628581494613500081028063970727019104336939667859836206272383453); (15727983632476638182451520826513661402533897723074407862301705423650622255106, 45877133668321431389195312204756837428802659643331086295868502764495316201185); (28562869187466168498640582431584942987797415593409072045358731303432973060869, 15091173290662772602690633677319909585428287065061869122681204129258476992966)]);
    (37492465648051618533825547835386104286162333036525561762972543216307660676529, [(43594231771136442136094965816583641298161020489686436999243863276263904089785, 33051610874198922080982482604453403334859782594328968818476959913458527014793); (14189163930693848432445340001705335395883947071273862638638669783718072458909, 30094033088927857442264362537016824592195079176139370639527272730208234435559); (32921006601579269615287127502588407560473237926026595130655884862625244837801, 24424008761609483666573175042797410838386815567707576163479997011583271966974); (33962611175564665715001837609414466463402438498159316145003109237055609177953, 27305339667428645735374322966654452619102130613795864263748104615612890625953)]);
    (51927089703120089390827029690929960398159411892872994731820667504885558299135, [(27832854809531511662862783602714758429526164500954632379799562133232916579964, 51418622689808890706635443146519623072625554248459772765825419210408463641599); (49495772910442849424074451708097707017262194806722126632275873534327354241460, 4688470781828164278366985277933962825622285795353936395549900233168636985161); (12474331366584991714999019701053372545799100062343268005147684527042412626600, 20746308809766386159238458318721613872967392788396486019368163727586869430964); (1354421441581127864437143372844274388062292350084805047329018238299116064940, 4033167163859822565099887202523422255672122363891288449300509405037201589007)]);
    (47247652363584691408596820277011469711095476638227716151186967762488710644228, [(49831265648554118747685820721973823458577493163060200746569221726630404071316, 23077157235356914378873484756453138728644366839534587614646314572727004430125); (49152655319555372452785886828827469752396599742259064798778741111564452654797, 52740450865667615695073023517436065028575728038533627196805527444393643652980); (37303035324417710806228205694856778879414324305008795273875467397309778274898, 1258535555772718541888056638049710647818343934237270462674396242496019157742); (30758531348217361450337043610517545298754540113453746274790369766109479450015, 24910881755874907419326692197349751587204977193176943348392000587523842645596)]);
    (27049330572775041533432068825505239039963816317940535506022702151290148666415, [(6430532214216149554950348023358696084316799088601797015209567690648516583223, 30322201223122403826127455594300333551541257185699563395547082893827709249240); (17707678709431441740796312502228947141759712046994646886320995672656167807370, 42506015023840556909185188466364193940361381177434955063535640630236822343469); (42310777656441672165026492471518106159156591743132589613336444801957382778138, 37486352030118086490759872767898519986857419425356506178016422251200379369888); (39306634100331586063981346355324783787820955619114068241464364989442572759172, 26711796470308455756864362514543153807575698509175159871339700746320331655254)]);
    (49192919210657974925942560458328182177623017430917591554969689234155051080676, [(9925372191369641625717209887142929829113479974540003484809610544838332465070, 45081291718892972053610960471043634902162773061177354597816898258512878818962); (43298818252979884458779503446001170792277737215950639946241576434297071735366, 32885302492636357337969651944743929671217233735528765023502806038958990179839); (40908834010304197468160851031127877424448257579320042728715265499429596528118, 17230079505965457121244686059484871101072114115972065439100393062802893693556); (43327427631895362924044267775937337724168450822941039679875606992270203484662, 10501226826826265774465717125561499058927078924957550610636003438377880931444)]);
    (56449159845156832713850161799398571731738147939289379270626210887147816372235, [(33277189743094545303882532097907929966119417837421197542108392802026778269367, 53134630703095029691812158711319936722676724669092750862972130045271134203577); (28090120048100048398605124938049210595283164015013463570201052772271371382948, 38430772676882282169835417475706422173491793070590940069745464923091167995809); (39097314162016990660255057714010476369904684691109364898362995863073181779078, 34238387385703425688335445545091791060893275129803758953879391826914026502220); (37769465865260764488641341342657496572877821943635617017522361236405370170074, 21524189283659296697922248818038271190802922901738131595620300666771256994818)]) ].
(** x y of 2 B *)
Definition w_2B : Z := 16552979481334663544878610556091376071931149008662153799327195285289362371585.
(** Additions of multiples of 256^i B: row, digit, x y of the point added, and the sum as y + x, y - x, 2 d x y. *)
Definition ell_odd : list (nat * Z * Z * (Z * Z * Z)) :=
  [ (0%nat, -1, 11068640767834918466713275874066756361490786778694627043054626174422747718218, (31204614345391077396927242593886631629853981173214368409736920319215404093758, 3533012425803781230144052908719740726127014226477800802100354883158534798213, 7658430290429433199253656808231786248588514975978872815715289361970058581381));
    (1%nat, -3, 54566723943596750019825760036993183994204170657010414019300358212818423886841, (23769934497292281415068266250522778588250675138782825606066635695741658135318, 2511408422714480769584490509596494832914033984958994768506794335338774122969, 32454253673496270605165905430233385252994373078193029819063943006806548969116));
    (2%nat, -1, 44231682897334967909574553630982356373851461347576286696712733448537297302860, (23254611565599062886139510587948190010283958254216996436599648515530766058433, 32739744448561158768806472604817856462049450824936739026153714154203473994406, 2713578615114025260195609658348236896188018203423718489329371046980804543021));
    (3%nat, 6, 14466642860843793828326513800482303337136844283713173435212251464585920991184, (57328412721977361350265095278693779573751008664563873289513732429127803561416, 23513752573035684870248689495247616313452945848925349302576029881992527828706, 33368739081280722499942323771597675026403290886028827265070205318795239909268));
    (4%nat, 2, 6446406076878883164533341186824663052309953784530127776470524942864456901624, (42273407689856938701276356271294635820120416579362207474619734898936195955642, 18817712211418263836268321905412530548007768814347513530919909910919210143674, 16681652061950203830562910791108150179170700164126293054352269344693435598254));
    (5%nat, 6, 23603707594390156937820040200570745020678187759173725370682006724400553413413, (46732569423180168700360225083517689892642804554676917873028002554444957551840, 46788238892001171678956642771047324882153300901172708163761666249166080686482, 30096431546955878491675216776338557403404079555335272979325862631333995344719));
    (6%nat, 1, 56583979703411916882932154846613088400979015318514747688785230390140028694546, (45545153275626371251676599726579726086462259730598158532604927674414685335624, 51610601689831644342174483056112756335015034862407620356590813910273742599353, 43366109115806372944338537772013684735306490181553226405798853559546490903411));
    (7%nat, 6, 1005716063392904791883588418592187279850541718168339086822847286010445058131, (27841983640668914515783099841457273385324646371453463467383589864216648893390, 29468367418274213942538003380590907266892574523755278284256296246411014969411, 56924024881296780871475052814410923952316795063527481289490318162062419277332));
    (8%nat, -3, 48908758957891507573566480741359796853160853916129190436365817374467318549478, (49667855326572341156022901352796759287731348302224301391468338711092117736555, 57483012314300104886966278729759256634819245021283212128254663611140054897575, 48983529170490465940684985061490047590016021674971200162063890466634537127123));
    (9%nat, -6, 312869764958933243538477093232005585276512797229559817353376378575849917449, (34920416063009184667561104264244474191850314824750387082513229016851261260854, 6475410939643401146916159465690856633830347003235172420372298372372370167240, 25626129856516525769207079477001131523861292062674246115557221970366440155260));
    (11%nat, -6, 44829560493688433586041765087543075324324561040121246847295572294305783207923, (1944446088064296526805859545845470830683399249089401450084932511845429621012, 18504441826022666952570455914635592408248919411801123255336554204817552372353, 46493110044112865868423887364292896891488229767466378945118757854988147939119));
    (12%nat, -2, 28691892140761192502468760164564506282367409993072871994896063017389481355006, (42240967394034522053167241790781840253356445140729877732946982415157695741490, 45220593545827139058046227160857416834980677183186787017530462608719072873836, 10837970307685530892353126932571259239452618207535952322497244345793815012185));
    (14%nat, -2, 9364195788160970520868033601456262187715282951756917772975257169995102547205, (44078991216147909283336602064193777521662524293525817444129141475833185371433, 20926390140756918021611088029898442249602938718110589796063747244588594108906, 19366765318750826785640628759797710662605558373183795844371801724229580889292));
    (15%nat, 1, 7409144969870103820524925611972696916688721049115307139576546451753046568819, (45054779700693596774389765381231063503720158240720039232490931992479853045062, 14928099142899104824745428732235906910923502541888833538990742762926976039509, 52837748784765816826899662073630192121883914734434168307604743726106844198318));
    (31%nat, 1, 56449159845156832713850161799398571731738147939289379270626210887147816372235, (57869446505068314610601904294923772605024373448570798802866756073293143407537, 12359880288858709079646766968929507952372311200598033660620969933797079185822, 45258049525408135450995934291943071643506766872399732874371952747326581550738)) ].
Definition ell_even : list (nat * Z * Z * (Z * Z * Z)) :=
  [ (0%nat, -3, 38762841451633757555627591198634298522135647531852303714663802850547208051667, (3132450942032237508358114656660836103092642251672179532941139712255974148104, 23272383291410231625103189187545661844875506271902476879528421725291072844216, 24881966095410790383143495687600946428607880357560456135760413376549677412474));
    (1%nat, 4, 46495268282186673125544095118715147387064133624640828383339661155530964615084, (21975270715363219874293106659967944663398502923445671955352665484322004926317, 55537034693196002304688848609567142958409957851468991055052916535029778443287, 39440337739347565320922762830895744367136891146761987737480798233796145339902));
    (2%nat, 6, 69674151141597923353344493756058970072375098855219609870826513892159385832, (31484555465107411116520763968241633183631823697454095273763209414349028195844, 35847450055921730167491163800751818403455341625901144061011214725913052916323, 16549503601598933856785833528913679448026220672106908393379522229030324209291));
    (3%nat, -3, 4872066045269272569726317448450898456214015129458387494748466924467852647445, (56976053154927087479777988532112920380157519043124616011348938064940766551981, 44531072585047759677199949966314513882939048314576306984079571367526484169604, 10748666617990037022748188398257744856361891638317981034968413293102876249338));
    (4%nat, -6, 7826598731753061357260225478022675871789406131997737324161559372376455421921, (43683676908140134065463002039207386984161843598046349592987843979944318855916, 12908737086259838061152638714556827824119462709327260327142649575183594059703, 3772444148572433932886250519935817514418735052192776853403820331018119480685));
    (5%nat, 3, 33825002540684133839576157126471860058530179080646483925646992326648569471192, (43924677503227219681198142415031687900143190874636743054170287035792899144261, 11455992669340851729462823695642906349599234305958193355512332163904810672106, 25978376655115254778316100000705454669625302852409142574075903875856102446425));
    (6%nat, 2, 47329309199468658306920108621065283293181324725226367159337271290951929759119, (12865756915979028833252984157582379514214786825079369915977078475027971502547, 32052124351368325496467528575550632224395744998607792722726897362429420176394, 36699155618279965481147682815852352292030796525422762904432384793995303336706));
    (7%nat, -8, 11102855551803264785253636534300822105368742686767757554625724631176658020068, (24693234832678970840258312985885831328341432370391103171556072604607418605600, 30004479565675312130854123304242235392671621175410918569504921586619577127603, 28988191825644167858937771195197325997927200345409739354279735992135160094654));
    (8%nat, 6, 26006868771002328881253046589605913386852383210104504704200133552093254321232, (12800610481162377943063339040739563070113722078815727259331068548412728336755, 29862446149353270271215634839590755514686386559477401745956204125099716930555, 40131686766387236016019860449298674636980574681933226453862382534286151828464));
    (9%nat, -3, 9947495166372066061568045130594230081524385400118788588156627571435679169709, (17744131542358940594368266931548520355315518888568141246589447446892858948929, 729131288797232673261232354359178009491618905189023475540228767300330104668, 24214112939323570495868808893209839203628733195834909505260677548365176056689));
    (10%nat, -8, 10195851104607187755225442088687725096683707603970023653427090988451202452939, (28493989781165141813293306711501702705433726738340420920310781482753814049860, 57039802160124928831241083172038420796459608869136934494186237447752360138483, 46063574767860468362047528835173878470265507928946995669696048783135964837026));
    (11%nat, 3, 53339238954999528463949887567909179086803728789600452032752821993754350531161, (30389407094781839978679536600161752568330499708168397255923524632013965902751, 37651010881980790919500829829050770246316296181411632204362596725516086714197, 12315872462908018689024701519650173808598700626132440192617119301291917492749));
    (12%nat, -1, 22784933077673554079131751953360229327098590000070878668953803308195876779740, (3785983381603345325555338744229471474747932816916576245526461490604217618022, 20715642461819095220473027510832315905294408781545720116351057733955931679440, 45776640845803416796272450386211229755483471439574918953324273762656838221892));
    (13%nat, -6, 20987342293555741269443675099888171486381004748371587029790144928255895254024, (7752347670847702026646159315808463773755277552470283208502086554182062892369, 53908146328104744421200955975353030961313870816896386998860265289451871875258, 5142054910913963109216443549530684358877798735700873001252670680091199804416));
    (14%nat, -1, 22708599503644617127335861838547338700548449910420928706402857444745821256528, (14686752640617727957740574008513279264329522201164121539804021955502855013400, 49030967473513631966479914884452848228230344046822701221766659759411016827593, 5396571949828114544030836361800420001196164413024657641718571500766958681569));
    (15%nat, 5, 31136917600987456766602987477434005872652995368688897319538880761489406355531, (1, 1, 0)) ].
Definition ell_dbl : list (Z * Z * Z) := [ (53551608736477036404862870425843590066909312860498476955155042584575949474384, 3987682410316351760826371374923597980538829894974428944496622313241866897674, 55831637602770712043025046607151498366607467265387893010090831571129165168486); (9877600705795838951372431878406485537949353265945219091872320033201003447884, 37240261701353801445981034131504749114014099399035931518062192336416533040345, 43943602637433446961884052982474056031134966866103949287125833091476225185632); (20134978249843924450053311311182596591699180148546674645319483601858732632677, 24514696404162403159742426931783356873960771937496464029861403480179576849822, 39763384646873347264232469940464892864319288102539606187425017871456720550167); (19100356597079973727080657519870146848945169958120313652252503470550571367473, 11723151006328308389382482369982795819050390350494586997738645337366381628820, 34840292012276314253324623306187587855653237343410128497232833131786451852512) ].
