(** The field modulus 2^255 - 19 is prime. The chains were computed outside Coq; nothing about them is
    trusted, see [chain_spec]. *)
From Coq Require Import ZArith Znumtheory List.
From Verif.Proofs Require Import Fermat.
Import ListNotations. Open Scope Z_scope.

Lemma prime_127 : prime 127. Proof. apply trial_prime. vm_compute. reflexivity. Qed.
Lemma prime_57467 : prime 57467. Proof. apply trial_prime. vm_compute. reflexivity. Qed.
Lemma prime_75707 : prime 75707. Proof. apply trial_prime. vm_compute. reflexivity. Qed.
Lemma prime_103 : prime 103. Proof. apply trial_prime. vm_compute. reflexivity. Qed.
Lemma prime_991 : prime 991. Proof. apply trial_prime. vm_compute. reflexivity. Qed.
Definition s4_a_chain : list (bool * Z) := [(true, 0); (true, 0); (true, 0); (true, 0); (true, 500); (false, 1); (true, 6092296); (false, 1); (true, 4571164); (false, 1); (true, 21599); (true, 53551); (true, 6277877); (false, 1); (true, 468071); (false, 0); (true, 567); (true, 5078200)].
Lemma s4_a_pow : chain_is 2 (8574133) s4_a_chain 3435729 ((8574133 - 1) / 991) = true. Proof. vm_compute. reflexivity. Qed.
Lemma s4_a_wit : witness (8574133) 2 991 3435729 (1014251) (-406419) s4_a_chain. Proof. split; [exact s4_a_pow | split; vm_compute; reflexivity]. Qed.
Definition s4_b_chain : list (bool * Z) := [(true, 0); (true, 0); (false, 0); (true, 0); (true, 0); (true, 128235); (true, 6883626); (false, 0); (true, 7724746); (true, 281918); (false, 1); (true, 5828028); (true, 6125902); (true, 105315); (false, 1); (true, 4377212); (true, 4818938); (false, 1); (true, 16454); (false, 0); (true, 5193399); (true, 8545764)].
Lemma s4_b_pow : chain_is 2 (8574133) s4_b_chain 4321357 ((8574133 - 1) / 103) = true. Proof. vm_compute. reflexivity. Qed.
Lemma s4_b_wit : witness (8574133) 2 103 4321357 (3531099) (-1779671) s4_b_chain. Proof. split; [exact s4_b_pow | split; vm_compute; reflexivity]. Qed.
Definition s4_c_chain : list (bool * Z) := [(true, 2177960); (false, 3836830); (true, 416235); (true, 5756074); (true, 5241445); (false, 3755929); (true, 585228); (false, 652767); (true, 5389509); (false, 1702179)].
Lemma s4_fermat : 2 ^ (8574133 - 1) mod 8574133 = 1.
Proof. apply (fermat_from _ _ 103 4321357 s4_b_chain s4_c_chain); [reflexivity | reflexivity | exact s4_b_pow | vm_compute; reflexivity | vm_compute; reflexivity]. Qed.
Lemma prime_s4 : prime 8574133.
Proof.
  eapply pocklington2;
    [reflexivity | exact prime_991 | exact prime_103 | discriminate | exact s4_fermat | exact s4_a_wit | exact s4_b_wit | reflexivity].
Qed.
Definition s3_a_chain : list (bool * Z) := [(true, 0); (false, 0); (true, 0); (true, 0); (false, 0); (true, 0); (true, 2); (false, 0); (true, 920314958071172); (true, 575131851900285); (false, 0); (true, 1458086505860193); (false, 0); (true, 446662734664136); (true, 666670737639295); (true, 1816664587145774); (true, 100778426374213); (true, 720471481685335); (true, 1046314874568149); (true, 27663020749752); (true, 998775100878461); (false, 1); (true, 261275430339817); (true, 351998656793099); (true, 1232966499207536); (false, 0); (true, 1400365964004865); (true, 982260639543366); (true, 40862988108194); (false, 1); (true, 932557725746660); (true, 228087889215254); (true, 522704582871222); (true, 1720890307650717); (false, 0); (true, 69185309437821)].
Lemma s3_a_pow : chain_is 2 (1919519569386763) s3_a_chain 1059928654987441 ((1919519569386763 - 1) / 8574133) = true. Proof. vm_compute. reflexivity. Qed.
Lemma s3_a_wit : witness (1919519569386763) 2 8574133 1059928654987441 (-628972351238870) (347308685415427) s3_a_chain. Proof. split; [exact s3_a_pow | split; vm_compute; reflexivity]. Qed.
Definition s3_b_chain : list (bool * Z) := [(true, 0); (false, 0); (true, 0); (true, 0); (false, 0); (true, 0); (false, 0); (true, 9); (true, 284295492895693); (false, 0); (true, 275758094055179); (false, 1); (true, 1166619674852310); (false, 1); (true, 1380400805183587); (false, 1); (true, 117065305877349); (false, 0); (true, 1321091186692593); (false, 1); (true, 909194381574220); (true, 49645792294407); (true, 1054772724053406); (true, 299355199495); (false, 0); (true, 1733158629643266); (true, 79022812739836); (false, 0); (true, 88932302274112); (true, 1029650320722758); (true, 172329690432796); (true, 563850530332194); (true, 1578106994494671); (true, 391533969647063); (false, 1); (true, 1020670076851067); (false, 1); (true, 3492781189914); (false, 0); (true, 608160520515949); (true, 504604666804580); (true, 688546692896661); (true, 63177088511839); (false, 0); (true, 1834955101739687); (true, 226460718759342); (false, 1); (true, 168475133951706); (false, 0); (true, 186234965509593); (false, 1); (true, 251865964282952); (true, 1282861287604675); (false, 1); (true, 909022928579780); (false, 0); (true, 1859393780627); (false, 1); (true, 792090246896294); (false, 0); (true, 49733298571023); (false, 1); (true, 1490722946492942); (true, 902762998214125); (false, 1); (true, 2328866408184); (false, 0); (true, 1530524648703138)].
Lemma s3_b_pow : chain_is 2 (1919519569386763) s3_b_chain 576774792492622 ((1919519569386763 - 1) / 127) = true. Proof. vm_compute. reflexivity. Qed.
Lemma s3_b_wit : witness (1919519569386763) 2 127 576774792492622 (-49370792198991) (14834872683724) s3_b_chain. Proof. split; [exact s3_b_pow | split; vm_compute; reflexivity]. Qed.
Definition s3_c_chain : list (bool * Z) := [(true, 173308554161386); (false, 306463110284087); (true, 960587928800259); (false, 125455877672296); (true, 300479663698404); (false, 345150634565688); (true, 3206582020358); (false, 538483156457196); (true, 908483512977205); (false, 15676062056764); (true, 1494899165728531); (false, 562065407042555)].
Lemma s3_fermat : 2 ^ (1919519569386763 - 1) mod 1919519569386763 = 1.
Proof. apply (fermat_from _ _ 127 576774792492622 s3_b_chain s3_c_chain); [reflexivity | reflexivity | exact s3_b_pow | vm_compute; reflexivity | vm_compute; reflexivity]. Qed.
Lemma prime_s3 : prime 1919519569386763.
Proof.
  eapply pocklington2;
    [reflexivity | exact prime_s4 | exact prime_127 | discriminate | exact s3_fermat | exact s3_a_wit | exact s3_b_wit | reflexivity].
Qed.
Definition s2_a_chain : list (bool * Z) := [(true, 0); (true, 0); (true, 0); (true, 0); (false, 0); (true, 0); (true, 0); (true, 1154635); (true, 18390568088419540713180144552603353); (true, 0); (false, 0); (true, 5845373972); (true, 43884161760493446304720381539470685); (false, 0); (true, 39589236369298232014301996017866213); (false, 1); (true, 50306008181764098056474665348533242); (false, 0); (true, 34874600400109785010110741815565865); (true, 66641755962130575733192416723226737); (false, 0); (true, 14259769805182405020291244956113789); (true, 19821583851924905080392775313530784); (false, 0); (true, 54519448695864916869544937987946629); (false, 1); (true, 31993228866829677464604812351954812); (true, 36856026726665311569831140646019472); (true, 37558755042300401026910323427360228); (true, 615760444218744780521983962460186); (false, 1); (true, 9915846538991804092978480448020986); (true, 17579763701632442834351678143176982); (true, 8629543046122224655388998502785386); (true, 44271505154735219577410419876966371); (false, 1); (true, 51203725768512740208766088776196223); (true, 49496801234080189199802786389654346); (false, 0); (true, 73418749640311588077528095093038375); (false, 1); (true, 2236470025910010689164230430725332); (true, 1076222725761530537195566239847971); (false, 1); (true, 22809566161055617308630171418611432); (false, 1); (true, 18138563752825011389988221154025764); (true, 3492398888294961303385950226589); (false, 0); (true, 8355422685563742011965376336700514); (true, 31547866995117440496841778213199857); (false, 0); (true, 7351247849111252030066748547339441); (false, 1); (true, 15496460349782741374426957909312839); (true, 7461042150057713313968240002043828); (false, 1); (true, 73140260026178284946026360103387949); (true, 37386986428869317886938646893687); (true, 44396450073493546711210718716058969); (false, 0); (true, 63361663935280002367080630589162172); (false, 1); (true, 2132879317460624957399322414670445); (false, 0); (true, 2299604436452138328132867476993393); (false, 1); (true, 19938355793717465847682208159383547); (true, 189683712955438751293392766269164); (false, 0); (true, 20033851381388641281861481842955776); (false, 1); (true, 2715908353627319623031256456902274); (false, 1); (true, 69604568864888641168444927591077276); (true, 37124984734424324294785152761527766); (true, 25283313481485823676523318387740688); (true, 1722670923328116432722926982379213); (false, 1); (true, 4752556248222889451123733574281160); (true, 48803706555019381439432200266206036); (false, 0); (true, 23061994967837303253518528843825627); (false, 1); (true, 565476164982231476925123345839256); (false, 1); (true, 2532703817080747243557279080460146); (false, 0); (true, 68880706720798111363682571039351209); (true, 47283457909877309068746210012120); (false, 0); (true, 61147586567349870743199647966593842); (true, 26475140829181573416469200498415960); (true, 8533707345012022015661890767769502); (true, 57406289184049389055471778293765177); (true, 97303796875390224746540460292342)].
Lemma s2_a_pow : chain_is 2 (75445702479781427272750846543864801) s2_a_chain 56747016255153332959347766392083459 ((75445702479781427272750846543864801 - 1) / 1919519569386763) = true. Proof. vm_compute. reflexivity. Qed.
Lemma s2_a_wit : witness (75445702479781427272750846543864801) 2 1919519569386763 56747016255153332959347766392083459 (-842866693317702384602976973559126) (633968117129599619351168283154509) s2_a_chain. Proof. split; [exact s2_a_pow | split; vm_compute; reflexivity]. Qed.
Definition s2_b_chain : list (bool * Z) := [(true, 0); (false, 0); (true, 0); (true, 0); (true, 0); (false, 0); (true, 0); (true, 0); (true, 21299265451065698846151232); (false, 1); (true, 8302795027212855711539266651471154); (true, 42432513392496505309019012912703873); (false, 0); (true, 3658354727346700791659368); (true, 2667849116986611795293650679997269); (true, 34664529322815938034415672982567991); (true, 28621653472452636738302808173806704); (true, 62739656690867980549186651123673367); (true, 4189307748747627281285879544883499); (true, 21451856674007544512826447089137044); (true, 30183714449809856732446077179896575); (false, 1); (true, 4520969836001003900679748253625498); (true, 7152195383614750067164213714572512); (false, 0); (true, 14219789170181279006204956882104889); (false, 1); (true, 61431324927450983923808694074680668); (true, 26928092168460576221933193705226614); (false, 1); (true, 24474762238515003949023892223821416); (true, 30022547943908435447259870133669255); (true, 31464805404663310242618611998768505); (false, 1); (true, 69611828988489061774049281802505016); (false, 1); (true, 12076827883274706985625121635754540); (false, 1); (true, 24716340006172412435986870060725532); (false, 0); (true, 7887890683891978373509544749820297); (false, 0); (true, 1047795152193649141149779394994449); (true, 7379664102229353439890419172914504); (true, 57832244051600442884978381402323044); (true, 44154527369277141808815778026096699); (false, 1); (true, 6662491482986933654487359501823941); (false, 1); (true, 25514811895276353835763086803845420); (true, 36555056747964862673904225145655279); (false, 1); (true, 23017570225685334937338381101219959); (false, 1); (true, 14113825893619568221663336485811347); (true, 3704481903190661039738367594916301); (false, 0); (true, 63657797269895790317850869510991839); (false, 0); (true, 70794147521086347508754190589998360); (false, 1); (true, 2267939648515745310803544522701920); (true, 10589805407777101781270735695413455); (false, 0); (true, 13197286429531351318576906812024137); (false, 1); (true, 1947462728526048184292214382760023); (false, 0); (true, 4733949500363028341509326040690640); (false, 0); (true, 72117314128322162403284579015954243); (false, 1); (true, 48902072400990691901204820823912574); (false, 0); (true, 42186483452095184558002310308258728); (false, 0); (true, 64404175019794119751199604989613906); (false, 1); (true, 19113101717918116403234521038758524); (false, 0); (true, 4702207616770633932781980091802502); (false, 1); (true, 29749395488445921237199068136613824); (true, 60277323932945120608381249281617278); (true, 3680199053013209352763500625022216); (true, 912515511614454180348157563316120); (false, 1); (true, 520014875445519891172401512401641); (true, 45548923375916762083808296582432069); (true, 73525046423543032264861020780146923); (false, 0); (true, 17980289031712465092295591059186233); (false, 1); (true, 57218559552748677058132096720211090); (false, 1); (true, 36332863201614143283045847432757229); (true, 74483223873408889408329764703885701); (false, 1); (true, 22261282317579841980344365832942963); (true, 9165050982753043382534953011130485); (true, 58621375939958829550933299778228906); (true, 31157859233304834676317237177767605); (true, 29356564929708554240002834510010923); (false, 0); (true, 51225082392004169399235201478950101); (true, 26463041018943909249617272303175254); (false, 1); (true, 64253120142912308790176020758710737); (false, 1); (true, 602351870904156057548680590328059); (false, 0); (true, 198465679183560344730876567836453); (false, 1); (true, 41585352751759800338489724529190251); (false, 1); (true, 49763542875877996687565308300948617); (true, 32201962182761859629536317834776164); (false, 0); (true, 307192414124630606058953639170362); (false, 1); (true, 19522499521252126118821796045585167); (false, 1); (true, 12559061473222603386811763705783); (false, 0); (true, 905530333777643494620962777424248); (true, 6280110778495475687989399131716830); (false, 0); (true, 3531414260932896163581913804611494); (true, 53002789588143948851952649505038705); (true, 1780486718425140689908568698552712); (true, 3072316057586049127130979421515337); (false, 0); (true, 29614730737443967349956313674703867); (false, 1); (true, 56233516469942094744841339316465065); (false, 0); (true, 41652372939868397960863323536678491); (false, 1); (true, 29129223845455411647602210920147); (false, 0); (true, 37292278198141208079881155389365953); (true, 68572963460901854302367187544883949); (false, 1); (true, 71168363187604645030482422116349029); (false, 0); (true, 12909713878585247628338140486312281); (true, 7634716299552524949442524331308874); (false, 0); (true, 1068187378328382064407749740254610); (true, 39216144650552132506400627819584633); (true, 2703475250322989457919249483072732); (true, 1921681221633491320056724558244172); (true, 19406902927420250779764491783849811)].
Lemma s2_b_pow : chain_is 2 (75445702479781427272750846543864801) s2_b_chain 58781699294900834553279248901967638 ((75445702479781427272750846543864801 - 1) / 75707) = true. Proof. vm_compute. reflexivity. Qed.
Lemma s2_b_wit : witness (75445702479781427272750846543864801) 2 75707 58781699294900834553279248901967638 (8986369574106813140303762220009459) (-7001513097443202581781503170404782) s2_b_chain. Proof. split; [exact s2_b_pow | split; vm_compute; reflexivity]. Qed.
Definition s2_c_chain : list (bool * Z) := [(true, 45798343158407497127110698474487382); (true, 4922914699937485409093593917388130); (true, 1562407330492874243672395367803483); (false, 5594366890784051144258406127307009); (true, 19000215729530029768929209346235067); (true, 60296421032894417933556479848271721); (true, 6917569713853648614867514817242422); (false, 39190283342360239958493722273490157); (true, 2251123314352267030480506031871003); (false, 14610333115554965468130289858081024); (true, 42156724831270544294755543110527998); (false, 51524550823215985355971974326648900); (true, 25203992194771766636310515096247228); (false, 9683021259943095362232876689344398); (true, 22550685474687461188533698279991918); (true, 48152206643333589497237093668566556); (false, 56647885753167783215514198391044019); (true, 4263890881591438292096267642235410); (false, 21375277442470514930759641923292021); (true, 3578369285089823813784694148513567); (false, 30091345266560862173574969199297830); (true, 17743944855969348485054655524703778); (true, 28827331252394096672055531469096956); (false, 20847758858929449262312963289540681); (true, 10641487448721832804665174764400243); (false, 48148993342020981095484227794596083)].
Lemma s2_fermat : 2 ^ (75445702479781427272750846543864801 - 1) mod 75445702479781427272750846543864801 = 1.
Proof. apply (fermat_from _ _ 75707 58781699294900834553279248901967638 s2_b_chain s2_c_chain); [reflexivity | reflexivity | exact s2_b_pow | vm_compute; reflexivity | vm_compute; reflexivity]. Qed.
Lemma prime_s2 : prime 75445702479781427272750846543864801.
Proof.
  eapply pocklington2;
    [reflexivity | exact prime_s3 | exact prime_75707 | discriminate | exact s2_fermat | exact s2_a_wit | exact s2_b_wit | reflexivity].
Qed.
Definition q1_a_chain : list (bool * Z) := [(true, 0); (true, 0); (false, 0); (true, 0); (false, 0); (true, 0); (false, 0); (true, 0); (false, 0); (true, 0); (true, 0); (false, 0); (true, 8313140759174391779718174581384026376896512); (true, 610753); (true, 1157159573946271223472362913079106073065108850241654650966611886786580); (true, 24752366511444457889588512937582753344158343999700394018332682390794398); (true, 61249970677330893116736242850468716450020030937707364335321785208211564); (false, 1); (true, 17123759091196427269329279244479739589582780847857044783382366549303249); (false, 1); (true, 4580709802609802649694377758614016532721444361670007055497436936751638); (true, 33782054036747424839297698973719863258308066103519762821863724293689116); (false, 1); (true, 1581020839647386328200544932585097837298665051318182793897979002137636); (true, 39202663809886529253829340683248242738319684636566099630114377491659839); (true, 12998728410037856559383389039278423275684310698596745005302581405835765); (true, 30076141997688162823997292473437509283637200505164518422086079105512196); (false, 0); (true, 17784719167843759080248451890735372301385571443822841055181066035614389); (true, 24896385086509921744862841070624148716353885941463597992278476515437269); (false, 0); (true, 27864567034871860577519570032741016091881146573544984347461671156536517); (true, 1531393189851146376704041272811734152287088311846553906206315285154993); (true, 9459616343473491872186722402854785856365201024208269919546477494574811); (false, 0); (true, 60242627797371324493242166261969561603175924461237818479876146840370868); (false, 1); (true, 73390411519929622829017518506288214258016127354227274680845614202410503); (true, 30158870963103383167930169422001574142469989357132966553994989329114467); (true, 11957739327336786597327235324653976696163135693943667233022294295144470); (false, 1); (true, 3257932060404814781495536640905195592531124416747258221046633874827047); (false, 0); (true, 14733405230344411973430351538323323339765696225906193190308549361745885); (false, 0); (true, 580310620417641459525475974167622508573361579427654252832687893387446); (false, 0); (true, 7209031751886025387357323333454626263696774267179995147736760732841760); (true, 1316475695001682542167986561671121258243376367067240650357315609133576); (false, 1); (true, 42313811444796023202370748919742865668703487680867558775908639694333434); (false, 0); (true, 213067984648652667888695575887775005151598457333840810512887737073155); (false, 1); (true, 10406702405973120440071808626391267550161248942626407204129970970994042); (false, 0); (true, 39500950871114295143440728316281270050926568457830745950227210798568014); (true, 52313077441074672624183715521083514587340275789277486460515344096561948); (true, 35153951393554941235147189430086615163186688036328760545643930766393754); (true, 69205131942167348834494792891651398504143035842936485687543629456703339); (false, 0); (true, 20916417971994870950865063327153701769196849927945391536380516992940625); (false, 1); (true, 73930440481580744435799074345936864942051439576694983790330593887400308); (false, 0); (true, 124040740800502784159158201309001499428680217044235259742974989680252); (true, 5502118735217848572772976548618763168088411846233689071287546854155947); (true, 13043840599541018580168978240870359714695520357917785382636793627611607); (false, 0); (true, 46116359130776036980094470469002402379129588183396648892389458352352499); (false, 0); (true, 23273337411225795358767099616303026732747990835538151662667852410099132); (false, 0); (true, 43640975046147379448907198182990012079866321109616377133488698686605918); (true, 48456997463544719867909454559928946468186936934237557375888140163916022); (false, 0); (true, 35966503527844003029378274477109145875613536457707873368619714971706678); (true, 2146249219886269937556622963374904200622371454628674252860892787264945); (false, 1); (true, 789026550744237461417279879360768391737729621402180595280289091941320); (true, 180545085764386863080941208067206450607736793694004694604330827698515); (true, 27234178984970315423951535377792266809645071647881362967567485789275780); (false, 1); (true, 24762576096899098336158060060456886499967271944551491259875345372347245); (true, 26415014557319269354969579381474410077524440398545516613213450453762340); (true, 3332277669552274439986146704874254702288430677915795500904412771491518); (true, 56587323233587066496277858691136475818689270052206261830675480492579315); (true, 674962037541390138351376883722733609075421040135303444155864791234674); (false, 1); (true, 71968932079478055315296276992791203272264952216004335977554269019187034); (false, 0); (true, 9312156109758469703849824938210800892317925220974681000635591841851007); (true, 47265243583904223145013619581696671836578883974948807760705274166544755); (false, 0); (true, 347749991847549650111835462083637654481009403032134019260908499036193); (true, 67054075072251032263986933927948862439647103053025031552768932082185748); (true, 41180981408973794870941102491021225379444826167519209874220736658769210); (true, 2016134584357279112242983195126470851096276769161718543283169414290431); (false, 1); (true, 25427960548712934334171120286223613186118492328037670212715551496433161); (false, 0); (true, 41246440591215224387854183769107645143015597121762276314351387414069189); (true, 13355489776682415329489866032965129616121053900198373837916608007368668); (true, 246227579357851317075455987431865500671034366236726367794260962849371); (false, 1); (true, 14216775334734902284854741485048253965239136015444041419028832683728650); (true, 40817667000119834925826402937336980610323989591027980675470980466773374); (false, 1); (true, 62357960439539771786128189601645106508750870812756374588267956349195311); (true, 57153412699306839625973651182967669345816692900568340219861985411391345); (true, 7972844923017628498152672707855687140746831316570683182453360606784238); (false, 0); (true, 54364411914724758443541641883992307341046508006289583044300701856578485); (true, 6895402717148043514959193901617493506645197422235451317313759372319685); (true, 22740888042010760031754550134738071144892501565620546614805772040026926); (true, 636116976224624835242640782764911953451289397404194720929224986675347); (false, 1); (true, 4194169443988190489616816030318571095566643610675026899510492393227081); (false, 1); (true, 32676615189626696606969688926059182374810154778338336992834428126877671); (true, 51201068624161522796693086448446449429537990654770489420832469529821372); (true, 227634609924105556505695070201995370181179909042028064268988017474773); (true, 1583446208157453459346846715429142593546838221267196059767629125539316); (false, 0); (true, 31561899298008145797706081370360994443202422805003922511586819844195260); (true, 29903802025433582900323457948355307970738108896316002842234649276338173); (true, 22354964892793509691491052911460174674276674138938529269381598747491505); (true, 63634749964560386232307763292927082494068047116729103197086784769309071); (false, 0); (true, 4286990787593299595491906668542369805482750200496535850283039585344912); (false, 0); (true, 27073377783657990536289482450905791165106677081299306402268125540162761); (false, 1); (true, 21314219541077787215780681680441156076396487056065405556911207908716445); (true, 65672347171621120193570498494865922817473758878848551752781865057494426); (false, 1); (true, 440904244309287667153166437186660481486210696506512803525611201829458); (true, 1085655977620320063290744023886737844277678485243321116528451044092305); (true, 19583668578362602228646318839586376954814896778387803256201842160079850); (false, 1); (true, 8689478828987572993110311928901123230866055973423086339394887392139136); (false, 1); (true, 1627932767411631588307233418054944401095146811406811485250101346226510); (false, 1); (true, 1523647730576110213594933186907281066440748405987681965224829732422963); (false, 1); (true, 19495699106117413293659228086568135897741783729818842181805022009766896); (false, 0); (true, 6450336405518695044013380563094093496530333780109494457729848819461479); (false, 1); (true, 6402583129307733717762468072347783353048882562596280557838598256236721); (true, 18693690739884231610947064479541990446272770776452991158272783965359205); (false, 1); (true, 18552234429708552230906066971278449227825349130870566166955128734613604); (true, 58155301079529712686891825227722310086196770252801774077643867699556862); (true, 8868581067276729861581762215257052451582395780095799798314015796982351); (false, 1); (true, 6664360210452402490315611173150786364623480370785771235336876870711858); (true, 17183246477998790248640666963798796068560927665391050837232183657209882); (true, 4750010102766806230431803517511613170983253752263693371141295202694); (false, 0); (true, 58819197280462360685460293366817666672279025779735201958445338425775591); (true, 8525961415556822751429961544556541119070489617166438859227337066592683); (true, 25636448509019969165787955557011178289176544816317720794359896182483672); (false, 1); (true, 56054913101500797078504486632617290810907833942075047478446719477245190); (true, 7729532211788723764370905299584102419029197451862948795978597123968739); (false, 1); (true, 48402889535132930508019078859868383743714294425918361666937282781272564); (false, 1); (true, 21330397041878268220440035344430235221085025770882907312885155271526734); (true, 13566044117957799365699617454590743681062505894414847471459530730802467); (false, 0); (true, 27051543909748800298682990317910115598901721947196911740163252889717035); (true, 25303934544211778746843941191839136442641794326079795919498942296824363); (false, 1); (true, 8836431135896618987616964895708495005000121305835174671583745728515123)].
Lemma q1_a_pow : chain_is 2 (74058212732561358302231226437062788676166966415465897661863160754340907) q1_a_chain 69490809710348678725736597923071784769591275419387514694139338586948360 ((74058212732561358302231226437062788676166966415465897661863160754340907 - 1) / 75445702479781427272750846543864801) = true. Proof. vm_compute. reflexivity. Qed.
Lemma q1_a_wit : witness (74058212732561358302231226437062788676166966415465897661863160754340907) 2 75445702479781427272750846543864801 69490809710348678725736597923071784769591275419387514694139338586948360 (-3594884028760813294013554313900112110983031014837035776973246868006387) (3373176218490540264342856145421925747107023832160459778726734207506162) q1_a_chain. Proof. split; [exact q1_a_pow | split; vm_compute; reflexivity]. Qed.
Definition q1_b_chain : list (bool * Z) := [(true, 0); (false, 0); (true, 0); (true, 0); (true, 0); (true, 0); (true, 0); (false, 0); (true, 0); (false, 0); (true, 34050624549578308729725643085348972039768113152); (false, 0); (true, 40986948403200); (false, 0); (true, 0); (true, 0); (true, 5052); (false, 0); (true, 292828816640400016392821341447417921428496416472102161749838737812723); (true, 52135918844331017947159035859009832399546008746152840156186944106450321); (false, 1); (true, 127919099778073994451250338099774390577652564501796592438579691298303); (true, 44820135451024201675816319117450747393967916954151813243373715823180090); (false, 0); (true, 11396724665278916386298179341459037250517735755490062591319213714445868); (false, 0); (true, 2096626701597090446987648692035627231036200266463824427945905972908012); (true, 6812616185517446685397949783238273561313948415132128221337428121660525); (false, 1); (true, 62564686467778283942304471057082807071048195401357064287990125483715893); (true, 9733528676333560832458169423660350402337277851682276645879100966330435); (false, 0); (true, 6447304641885635363945200146077933640569756359251951212575406820141459); (true, 12931225612718946620992558818447570421371335115519649090170968965479209); (true, 2131567230964215436445242885968572882712766959855286013562446484459201); (false, 0); (true, 3265243397422868901525224949168510855084539193150224169610616813788039); (true, 65079185544702291167549157604559673675720552534513808088295488174455312); (true, 41103749353661407567595843649405837979343622915405654135345745377330487); (true, 2743500146599607382416230293123320979091453851346920433761049968164579); (true, 2971382206488029500777455768861781532317232771294421185406400344389562); (false, 0); (true, 3251814874364709624991332375559660132774483013525073566928125984802131); (false, 0); (true, 6543731822627726309443106433265483533312962487326597734697896344526803); (false, 1); (true, 26941255825769342446632901708034681155860445594446180692130453864448907); (false, 0); (true, 43446890920544473283210553925111086282524121713404383118734547442848592); (false, 1); (true, 43678467894199198930075393370679788651687396902890960349920154768489388); (false, 1); (true, 72588953859348677978789333234557978670359865660415315786726284312964540); (true, 40114111055329005384447036265078466377336345763975935302511159131236); (false, 0); (true, 50467428208370788279398442415174009107586645114051695293673933132959947); (true, 42659420867691873221738418756755049932900069807679752525514849939600104); (true, 27372192523920365382931441995481523572174518850999206063731714753205553); (false, 0); (true, 27362258123000856626891952153388550816130010862742898365879782034485708); (true, 69955646597893976436027540030685923660404142641333356536293354415431457); (true, 1400414185740912864667596874903898988228880603944285932837735592524152); (false, 1); (true, 47042275528828114413791115157912510695393490918583772166038001254758155); (true, 42721675163732853227664984461683349490600500780726492966937282255581806); (true, 12622800917981178003812378789436927177811662421167909505950450947290916); (false, 0); (true, 10880473855712304464564696143932060483689135182070072612253683104912831); (false, 0); (true, 71507568541453340522214644367263498068310375465398779473869005484381269); (false, 0); (true, 245134483943035867124236038144002741674484811201578630752876643269074); (false, 1); (true, 2393545653466607242766003453467510758754419469790768643251092830711667); (false, 1); (true, 2425193241954578632385026057719389152135241251058549574033036625658); (true, 50922252440699625019202734229183470804507109429443258373711403890322322); (true, 2499395048735052353310811422710170990038615469760941545885610455079049); (true, 9664012426890969692752313402329665642453293635042009095517581500314464); (true, 10470958655107724205416287136292686239887126576384124728013227676745874); (false, 1); (true, 70412374883991945073207883724715732775421844587990649123404051199677136); (false, 0); (true, 58498482813177336453237162414855368532027747729264382529388356920065287); (true, 16426811093716507451180659213473240369831947718337543153306554321590311); (false, 0); (true, 5533274485268905327699452422975778874651236669076575466470635557533511); (true, 16219551479033338559643575058830092805271445979707558589777974835473); (true, 23451957737233048406281470991062486152153471880435896223373398625987961); (true, 61886554546110335121022106018298670650335624590053689326144063751795303); (true, 12261677305155707960581283972175720451057052801376767036907048400401881); (true, 1542510804430209531329481962639668537870135869661339355118542553805991); (true, 713801248918435888280479518689047867269508432362956089204917128813090); (true, 7485341991379162549357295581669364881004352206694724007711414338892222); (false, 0); (true, 1461426993268353592185159696053771843386491391444995873988977121063566); (false, 1); (true, 29083281223284086726316514553009244754995785629025534596460044151488016); (true, 8502169833042164930020829013800012445305021704644086441022272054912117); (false, 0); (true, 1502366173072399724607294818481006826427278044976965505257099084550); (true, 5992798119278502076822545239618943860632539550912570578084213338120649); (true, 17087506728594044371875027243921311074070590708574153516487950035837366); (false, 1); (true, 12919675546069551630386923249602098874372259292733645436451098673776641); (true, 17482009912794942769189926575510508623670640170146503232994023137288797); (false, 1); (true, 21526036719792712698851079726318423955664824629399440578703222826592512); (false, 1); (true, 518704202791265133255522981838261660462644946308831391993967140676078); (true, 942431261351381300438717267573630277821052008830417052266802697427301); (true, 59230671928942123112165023648952918325232063797675982421893143044904); (false, 0); (true, 565406252378373545647105010162476906745662322941010481851337654653016); (false, 1); (true, 16703230076025917360439910830756259062976804768735283819961561937048773); (false, 1); (true, 7551783658182905559207156889945468076399411763795199798817441409440184); (true, 10796272642042610595075651748427339869521610540389841685587017968309036); (true, 1741802699726801540733412476210009336994520224506796133351351950357692); (true, 12237580751592231938709608257920276765150672661195802213836670291547706); (true, 2117238052607971658011738797482281917026493981651047975361273382905686); (true, 11528453262616708665676486594480731793449812048690891456499173452276256); (false, 0); (true, 10660017068762583873132284905644743399362173974000569756419368627849692); (false, 1); (true, 4119944945428911866753286000878840743398104502148723236026304525996240); (false, 0); (true, 2819426288887324592061963610287362644435397944467891277149938670701372); (true, 2843217106048370810805460925067355831590524393382189940705287478996124); (true, 120197076194149606602014809264560301709994574281829751991781465062038); (true, 9981320058296269853716081790834701874109616582499691411480939278009326); (false, 0); (true, 43629461585635460467124941106339703897235157123129936747743835138388015); (false, 0); (true, 341539850062095821551709200413393780836607046507489622845246177643873); (false, 1); (true, 43610841341041041907975315645124225343121425377190898326453299047927006); (false, 1); (true, 64263160114144842558187466419453650010735765848752545379360153636891035); (true, 29029885661160745803043922824445012535520695188076203822440856056720477); (true, 5248855010577261329841170845838524198117474015059412407324226288348021); (true, 8799545601831927961641429055471888948969557009459413660910209304529377); (true, 9379136942882874030681349673346374014354467880316473241094722320592775); (true, 13811152364077677822612218204443021351125703304670314553692262648793894); (false, 0); (true, 54621645690658359633953622815623692941794580412754143021161524679638157); (false, 1); (true, 62343364247960456029819375832962244976496261006665895715200941240180293); (false, 0); (true, 2196709601163482813736949822404975630827149577556423731311449948588502); (true, 13720804456537370215761840919342326793635460438122353293408104708593646); (false, 1); (true, 24800109621594003108616382002347781451064369507923368746055924663637348); (false, 1); (true, 2168606320798867878863991663754174434828657693822047805615700537310583); (true, 15966605978716219206503026694931624933041392990217362229175549459689916); (true, 25249657328723860469927591744649559805493410183070104343565855385935377); (false, 1); (true, 52862609041594457174577076750272384049893803438510042865622355351395819); (false, 0); (true, 72784051545828530594502713982924801010380189907389115432864630490807579); (true, 15328366282674097790031505895888094135802438003809744091069636790684536); (false, 0); (true, 38344480275803151198288341271276385412765680227406918075787271835332060); (true, 44462047046387225360461951888528286878928244774859144545051493305579136); (false, 1); (true, 28679111460372374275286881269120435542178097347003668507210256306641045); (false, 1); (true, 10579294319783874739773166846980641516985375526420564633424857798266601); (true, 63578348772230246843180220408295418172917260467650448951516064853876108); (false, 1); (true, 61697256453266593906727034119279160068056039612098774812397913232677559); (false, 1); (true, 3665743839557873282599914932959343252247900326991993856591748181058258); (true, 44447478857332859969468230238748314228997547669807291165584558019040802); (true, 3269276587975283458091069984994886011675883586912910024412502828297458); (false, 1); (true, 58377836324458587709676088076469583967341236603035638199006135773719580); (false, 1); (true, 50853532505168758584097112140364542160016533275632222770295850390235768); (true, 55012576199160295923754114973999148788599535866489692030857810894386226); (false, 0); (true, 31023728531128612808487599617564535784905823174688192171885034131812137); (true, 31134108155515044891711453136916810032045779385017830076601840548598467); (false, 0); (true, 56477136093252549254766415118532450730714687175575404721708596465313836); (true, 38300531611672368758698047192340566878997012147425351762929181966044994); (true, 50894638923668023992126449455131654872019002473433630770055443483639640); (true, 55159243091681167973420794682842627404857849416263538612356604464854211); (true, 22810359797825211966299272707602746987016471623642700895240959497985028); (true, 19566533674912866288151001074220907509355670745889479825613977265302650); (false, 1); (true, 8892776694312438012916240377265969588294939738467841620498605078460975); (true, 66079008576841393513962227743476921019438112973364444988434627435008608); (true, 4882217272112756138470601239492600593259787771825446752232644083150931); (true, 16282109451601884858287063196262088154872451402268793376328481936775981); (false, 0); (true, 810376221697852949439865051033863699679155782141534437838352719327608); (false, 0); (true, 30312503851836923906137817962909385133766923998541501891735786855583455); (false, 1); (true, 7007898396233913168381186483047858433176193627679255100026255772791617); (false, 1); (true, 15206376006315232428781733115670801269457010009008272643930125689452981); (true, 54814281858303880804299705311626318847218105676027439554580234051764156); (false, 1); (true, 20588356201182226021866779850423715286470956284755037667334165691539477); (true, 21889129696439783914312544074973457714074926060332072854686576074131665); (true, 58404477200818495141086752018380599283765422214700927056950785361279828); (false, 0); (true, 47370003183725015258484396222286268515317267368024232622078995772925960); (false, 1); (true, 40661393397295032025145882247287235206659490934709501505920424726984735); (false, 0); (true, 63764423497658825185824113559728101048897912229624415714449751298121088); (false, 0); (true, 57269488486252026602794463921852012672082086034272881629091971210286683); (true, 66505684711972474636949937226105755951090231302513372058296528477777709); (true, 8889030715035085665650201503576755425827984129283938151813618336824606); (false, 1); (true, 33208284814124591805513510180429700448436334437648083712261524951467509); (true, 31804820558835478928644021370382026088051348930736665554408249442466469); (false, 0); (true, 70276766358425967342509538266593558505299318889886611810655535762092625); (false, 1); (true, 26578806476774893436897219415430031905674482569127743345320888802461679); (true, 18020943794888174903032584625178264725747098035322785620926194715042702); (false, 0); (true, 22115927114509953179942060387145699765935978723126481436743889571623346); (false, 0); (true, 28305769852679093890254634829098613070592886429983409504417000752217433); (false, 1); (true, 70210245949390112765164595443240010772839418316287862008022219692651718); (false, 1); (true, 58436936864098026575414486229304832614722401846941384517440259764037640); (true, 15574407759098979142158357605128209921841982915502935687210496762741490); (false, 0); (true, 55548071147807944756590697334431211727599931595806089762482514413915353); (false, 0); (true, 6189634967251096711842607306463190036199306669953126598864937635632247); (false, 1); (true, 33515967246110117199310518793179107195872950933750235360158172739262651); (false, 0); (true, 24481683462753636082858143486290144877916690748967807394380898925715253); (false, 1); (true, 34323112339294857949265257602065539006982099603434598705251083874343884); (false, 0); (true, 72044559764359595718918693437711250600345623696253984515922954404344481); (true, 72521955396331764650818906431004336486908560419278661147183704849015); (true, 7448198534227647224033643530373418595474618737205746660696412720123866); (true, 72180505722417886707730543408089695623747991248063134074855529534888143); (false, 0); (true, 5334657613681962368456356829797853315972945958363726809270530883040613); (false, 0); (true, 17841381167725831779556923410301657088905238926638272446238698754659310); (false, 1); (true, 2185454792734974081411102067557233882900642210776943619588756520697515); (false, 1); (true, 60112536537404504896505102889927041762549974480105644907073502614365309); (true, 69246873189251777646262248644360528633554663072226976428929382677701521); (true, 35920989189540065773235265875047604496003938994320576490338231060553808); (false, 0); (true, 18943230724496939458385792132690725734135646998362717304738132916467424); (true, 53876875191697767141230872517706420321150838205460931429273659482256322); (false, 0); (true, 427419899258759151499910359933263385290223335131773898087708095851480); (true, 8573575346671881379988938017460391688793581422995596342486254806480542); (true, 5484285312137825679425507850954824743635355024581423116530774221800886); (false, 0); (true, 40324124054433866086332541534096526436528837095618197649333231116997963); (true, 6790482997295298745110651259707571248502980134256547049117584631992194); (false, 1); (true, 64898729689080887684199178745099154937539256579824312576990161620915522); (true, 40129495307380002973697591978993034891782553562002423534516810298434874); (false, 1); (true, 49925694629465412625785924257774063548779268517419088043671511756130242); (false, 1); (true, 17579053844049665093402218259909724233477904114293131280340902901010063); (true, 30377028735905976608710237032862528505126996207035677192495067925864822); (false, 0); (true, 18268049598583936099044351615657408594282146064267221793500956549063226); (true, 3363338113440792219596657021498642474506360128491392660300279293663379); (true, 2103127189258394253648317002685444059187360397768846606715338963975971); (false, 0); (true, 9039808747261082762477670083399100393949153403195245080079488928953220); (false, 0); (true, 5051125432513629533474475709135871395790534746009747576405508676951083); (false, 0); (true, 7166562442306402128591350846862690175054061871785553729096187462006294); (true, 55919597468741887915767145935723122761356431378097707047513032407109157); (false, 0); (true, 7950336609300827517051098938897006919405376556647151129984157797349847); (true, 46415121278406227449107864510548779734900215796336475181465474704561627); (true, 25879355708460241885767723078726089460770584565036735981637916050482290); (false, 1); (true, 2924932582380658441960495157341347823030694924225078761069791390750779); (true, 2591212975426539746426542150038794460058875337059657923439031425222350); (false, 1); (true, 39585034132361699901478247858795400080869274417123726998505810904636616); (true, 54348553716075677550638422015363343599429716513124039887305747284314807); (false, 0); (true, 3240113906900827701387993132733940934274200837200596982703733735221705); (true, 65851504079621091861904964151927620975174795984467681284333373715553080); (true, 53587760134636306260737903437361040338887497096516726884870456938547932); (true, 2849461347808453359387033626807473217624680368423090696104648538732674); (false, 0); (true, 3650150507228661766072598391716612468286807218593806203601631621900682); (true, 20962720942951908567039544892395701512645101619426271469254064213248034); (true, 12048345967321612027681960552924368732070068766880771823528062022768635); (false, 1); (true, 69266226145150130847279526371228826165144650765925059242486110496966078); (true, 4853861467676821018591485464870725275783080135927209366973772852747309); (false, 0); (true, 2562686935787610655913644359409050652706432846349144661738481905895535); (true, 14321246951341318796396500102412226073146094826750198016871914361881905); (false, 0); (true, 25226365836850190789451590541689341176401603489151324577633555715980229); (true, 71437899972284264271318839421877324430246065185091017580440391543082398); (false, 0); (true, 10200293246427718358925973083854542129802400152546077168809447258568195); (true, 2319217059504901950966623455094578759273172347065814362570634649407001); (false, 1); (true, 13158607778193077216901501203559488550700316211779039652091996643552507); (false, 0); (true, 29890160898367932812205272885145165466142412532296192328165308605779886); (false, 1); (true, 11197193098240862837753269786232416665666062557282299768710533460557061); (false, 1); (true, 13358479312767598698521424136635174130158116063950487430855832021343008)].
Lemma q1_b_pow : chain_is 2 (74058212732561358302231226437062788676166966415465897661863160754340907) q1_b_chain 34423717228876157273670922671787235583289084632054732964365754153055025 ((74058212732561358302231226437062788676166966415465897661863160754340907 - 1) / 57467) = true. Proof. vm_compute. reflexivity. Qed.
Lemma q1_b_wit : witness (74058212732561358302231226437062788676166966415465897661863160754340907) 2 57467 34423717228876157273670922671787235583289084632054732964365754153055025 (14824715564668784131283553449357537219684777824927388968274202049879618) (-6890820042330064149542463937545260745556921872819213328703980731288733) q1_b_chain. Proof. split; [exact q1_b_pow | split; vm_compute; reflexivity]. Qed.
Definition q1_c_chain : list (bool * Z) := [(true, 16000822381885765840930574410114974680972934611488798810249740007633274); (false, 10368634247679171946911073012187517602486995340112090396311477700996395); (true, 13113344888702514866349377397737752310091286709463241573066394895492587); (false, 1129356637564715900290390394894576091909478132720848257493503513950617); (true, 14294737247497698466192097397018611093811800759463210811565545387855477); (true, 26048710522632434081495230715926238999616559900128901012847077348225680); (true, 38459909161148849825310808672463388589098855226582906339612392014830924); (true, 47969280590265907079550085030582513812126182675796077281117337781390700); (true, 497095682998222201225798091936807605200634192788278862170974386752094); (true, 12052250275283698825507984588238717513306926220373675821335885647066678); (true, 14159245037385165192904142096351007166025926067764303327715172853042108); (false, 5624929578250273616629736495240504021486750302556903957362101022437811); (true, 39024945094823684884553763801587199556522386927315860487195076174512664); (false, 8798635467601818393550360151267238424935576516639280865080895525909515); (true, 72603293516111852188923184544856535248679308212459464600940319848211420); (false, 12982751472862117652221129750319491597076043794630488553816965306505010); (true, 2586652491804807582317440334094605907571559599613590614031738316217398); (false, 18055233708732516573847002677705250989498045367543394228788550467560842); (true, 47021722010956323598586862060708937360617788158339925648125201158792701); (true, 14458362457532115203013186038216722349063113281025672640524459824250815); (false, 28856670198296578285483833327726184141760005775992334056959589278921823); (true, 27415898243751893704923526076453366241896670911757201272661566475298115); (false, 876343834590019473579634885325203960732405550698470510354270303189782)].
Lemma q1_fermat : 2 ^ (74058212732561358302231226437062788676166966415465897661863160754340907 - 1) mod 74058212732561358302231226437062788676166966415465897661863160754340907 = 1.
Proof. apply (fermat_from _ _ 57467 34423717228876157273670922671787235583289084632054732964365754153055025 q1_b_chain q1_c_chain); [reflexivity | reflexivity | exact q1_b_pow | vm_compute; reflexivity | vm_compute; reflexivity]. Qed.
Lemma prime_q1 : prime 74058212732561358302231226437062788676166966415465897661863160754340907.
Proof.
  eapply pocklington2;
    [reflexivity | exact prime_s2 | exact prime_57467 | discriminate | exact q1_fermat | exact q1_a_wit | exact q1_b_wit | reflexivity].
Qed.
Definition p_a_chain : list (bool * Z) := [(true, 0); (true, 0); (false, 0); (true, 0); (false, 0); (true, 0); (false, 0); (true, 0); (false, 0); (true, 0); (false, 0); (true, 0); (true, 42535295865117307932921825928971026432); (false, 0); (true, 45); (false, 0); (true, 3618502788666131106986593281521497120414687020801267626233049500247285302104); (true, 2035407818624698747679958720855842130233261449200713039756090343889099084589); (false, 0); (true, 6533800445550465250799034157747312671530035450646038907133699743997849816392); (false, 1); (true, 590038059651765437572058142766407967583679313528560775747282836245157005982); (false, 1); (true, 1731074615247051634489172293683676124410868977223555680707173906843900652117); (true, 43324204993500061597826158612414131961250850909546105626879919447147686421064); (true, 3075446206036701470872393826992783401752763128678510908850634197157076446817); (true, 14548071881403119631352764353181880382398089989767971878400320788394391368918); (false, 0); (true, 802028749036987574340757424989663227075669220565584140869463940457761020232); (true, 27665405654990747157847101006816744579137975244959593346139654333549227807747)].
Lemma p_a_pow : chain_is 2 (2 ^ 255 - 19) p_a_chain 427094198651976259540344842774561673889945192655078505504941250475370961481 ((2 ^ 255 - 19 - 1) / 74058212732561358302231226437062788676166966415465897661863160754340907) = true. Proof. vm_compute. reflexivity. Qed.
Lemma p_a_wit : witness (2 ^ 255 - 19) 2 74058212732561358302231226437062788676166966415465897661863160754340907 427094198651976259540344842774561673889945192655078505504941250475370961481 (-2355212522539319667277716899338243677401872381675335205048650927450921550865) (17374202531356705828138125260963565265097131870064656002554684858717382349) p_a_chain. Proof. split; [exact p_a_pow | split; vm_compute; reflexivity]. Qed.
Definition p_c_chain : list (bool * Z) := [(true, 0); (false, 0); (true, 0); (false, 0); (true, 0); (false, 0); (true, 0); (false, 0); (true, 0); (false, 0); (true, 0); (false, 0); (true, 0); (false, 1); (true, 0); (false, 0); (true, 0); (false, 0); (true, 0); (false, 0); (true, 0); (false, 0); (true, 0); (false, 0); (true, 551367670776701298155427); (false, 0); (true, 471414969316188648141848639006813204435988828222960066194344599217544846819); (false, 0); (true, 3407866525535113841503589958590043906304684900224015490269592213704318216751); (false, 1); (true, 57439662719915560291373545344443833537373646235871341729621994764941448309096); (false, 1); (true, 681753867153464181348223837870738304785322068099057849246025648789500588844); (false, 1); (true, 30140780313742161155396419962120358507516903967009827777469622225609662425203); (false, 0); (true, 2665846952031364783018773992346036109755330739932224151481272086967524792203); (false, 1); (true, 17532646752736644488336190803563533034752971851389345505774727054966930617267); (false, 1); (true, 15509559174461008539748278554160429396862810706560140114212042739307338367687); (false, 0); (true, 23928397935920379955512007785372125661117788988114052563415782363179742778646); (false, 1); (true, 29995918788439421885777272135886007940012791219569977310675264767072719019753); (false, 0); (true, 3560633884758025642783116627152126157595607415593531725726976969355407985118); (false, 0); (true, 53923294150705828565368826338412799648856659163320307707260385703557986631583); (false, 1); (true, 1235234172882584628249313673354012824984394170021116211577481021113809177623); (false, 1); (true, 10563484444000787080455850838234529262504645344155767667428917929153249540107); (false, 1); (true, 36064717420400496868797383468781490120752121379643404363755979831011341627); (false, 0); (true, 11943372357400507443348253884768913886339676427623192579885771269647908609); (false, 0); (true, 17118158802952081792840531496358459117685652362575403783107487690461445687328); (false, 0); (true, 24709034407036513893469611482550692409285213297551637500997077279735405725131); (false, 1); (true, 12444762835729318066524959310067099907997868637564430909268825779548056274978); (false, 1); (true, 16954911944722734197908026556333291998674323778836775915075824716386807986028); (false, 1); (true, 34352610009419735350854172045681890811915190498087363502535753245138100639); (false, 1); (true, 16826676613930557735903622366421311519038917592729858495351001711235484241060); (false, 1); (true, 92340478675085526800504084742116125932466276802044894788384080465255364319); (false, 0); (true, 35279873049037812512565726277712980084699254382477131464931400566541688700090); (false, 1); (true, 349835569185303571319079199780739689596192820108190978432828949262136140056); (false, 1); (true, 22993364852554380946801808245168976975102678898950562889380534963287142231); (false, 1); (true, 28830763700179775617594995080857797956077985964875443078573607651524637673933); (false, 1); (true, 2797055126514170144399362458386044168724273961344527254055236037515789445727); (false, 0); (true, 24862898105970042728676350278165755353319436010562400292967723280651932833644); (false, 0); (true, 36756802728729600531726087272816562406879448001401373929296461274828077918209); (false, 0); (true, 25353755948197279762666397291776098037850158119451351272397113091492710097640); (false, 0); (true, 17267853914048470939510667104009318908096613854289526590354665844674996902411); (false, 1); (true, 37878881788006300030445288744121134904456553040098412894109348162504968556389); (false, 1); (true, 32694241610420042422251861122951185903324893975318323855256164497065771498028); (false, 0); (true, 56545821938332486596338455774468401319511776608686621763375388645032594878943); (false, 1); (true, 10975799456395812507397241022480449687004406884192803978230173285558504202747); (false, 1); (true, 14955635226437396430402153010800040069223150184737950401518349924573864831844); (false, 1); (true, 35049064865463872774667179110117118820951907059508573811110802264654073965184); (false, 1); (true, 19447298753099445045266624378779526336736888194893200538196059327598470360114); (false, 0); (true, 34422222935773790789221719152985076944217531422821043890868592406458989673625); (false, 0); (true, 3416869186076979195408381920164290471325947390330921693883783041443971949873); (false, 0); (true, 31018060762638393180564791363989257063490167008424270573819926845480746465267); (false, 1); (true, 8244279646395915221718616788133255170661839671843952439445707160320597026071); (false, 1); (true, 45337650413438285128982086794934816107775610526918214602437431979162391244879); (false, 0); (true, 216993017772033689384262862465403142376815705483762393638856128480548642241); (false, 0); (true, 2101788537048623504834225826970024310125226859702642337824896622666847082892); (false, 0); (true, 8895849337796095116237439385236547701306024649220891067205138747842128736268); (false, 1); (true, 13843786319297051527352961814461373358019786972149774702532048394340819540301); (false, 0); (true, 28716442226719068658824201779832814513948555602308443333381501604034730554785); (false, 1); (true, 15216957295603043327804147114381741638021873737356048762723977611561914079952); (false, 0); (true, 6156117443938301231651341101675042404686267312950665644128134936757225832879); (false, 1); (true, 44858114661869234178148964399991575260353105293497282818833096525639392082426); (false, 1); (true, 36996289600990098088566976532462018208129054144927311919177150382540015711781); (false, 1); (true, 31225245210360363182548236512687958730695150534851041615263258511598342993015); (false, 0); (true, 2005854012335102823452386618730604052206372791465906569940142631229222519647); (false, 0); (true, 56394399093030582784116056142707547306765342825094149589393312074902729611212); (false, 1); (true, 17984292288347075365901105328956134908051212179861599288261440887958096603309); (false, 0); (true, 16889268194537246083546811622875068817563320444935747414666215946854964529888); (false, 0); (true, 20271194372806737709706397760980942583095928173480030371678826465406616475614); (false, 1); (true, 18470423755380768524759651161880168284709457176877077409454806328160800159350); (false, 1); (true, 741468330531982970754361881519117431185994018240333045173871706556405885482); (false, 1); (true, 88648929047477289487111243874596381586229783180417793915837448436614265660); (false, 0); (true, 8238681424565225299266751844842172828830319530783106852319391305803976409971); (false, 0); (true, 5125327568877541968277300888667609251811230513338575116327133334009327585); (false, 0); (true, 32810657055960282412915668423116061619604332494211937948208326053481635288382); (false, 0); (true, 42478910719567388165630751140420056710130867903138243429110777701021205997733); (false, 0); (true, 7441470672782062414033008806004242560997426410117646686610180934616964641086); (false, 0); (true, 33083944380557139164680023649838723823417951100109305745401915458196770814132); (false, 0); (true, 20495068566402154533996930702740369191874096542995655459154539015486809862467); (false, 0); (true, 5246741201056289111024866886637622140431735845501473962723609422724845124280); (false, 0); (true, 41443819575429813992847694542229700650807284257762212720407074675022320139488); (false, 1); (true, 20170950242698253405313267443962526660499144515278700862905154055998028682597); (false, 1); (true, 12174277950380678928359748829408470593476285554145203729363273671539020385); (false, 0); (true, 16517996319079680939035277194410652253408612898022229499751467114015036503646); (false, 0); (true, 1799340772909007023266297515174663813619483123011053940376182594260146381225); (false, 0); (true, 1754630476524522313018920235930529268257876301723027533041273703982110211587); (false, 0); (true, 10648461558475622927153850614471661281652948811336516426337006870186985945601); (false, 0); (true, 1034271305318001520074328570813269074977029292833347339148016836995778925998); (false, 1); (true, 13917576183450801434606887604435169071334650078203462365447956740147877245585); (false, 0); (true, 38067900130695651748110003085237792188281905433617146035129549670715134913379); (false, 0); (true, 53510761388665855266255731527967176842872209147895899016884270317280663115512); (false, 1); (true, 6452500134285685584051015625883191233017407451713898791845602875273639794769); (false, 0); (true, 44005011651842232519099550985716175337911880197539896439079776174424641785853); (false, 1); (true, 16634318873373543324650453488739661093720122227926540638555137294578033938741); (false, 1); (true, 21030035802856571126689419792466193616243153339009076325856992706267799199627); (false, 0); (true, 19919691482104424180167033635695001762613040171910525325451729788372670287925); (false, 0); (true, 51175435815910854108613489174731959111783900121188198938522937440608348970766); (false, 1); (true, 10775612208481536965979086827984598251291729169529850033485814369813776459165); (false, 1); (true, 34460336119800936063555219373758071689644608768054504466596342885380843124636); (false, 0); (true, 33308572655475613267824929524615447545158404722743749667789010782257256126453); (false, 1); (true, 57321461973078596589881473694837401284031183082609763144402973457167757206231); (false, 1); (true, 2651078701522913340909963445686884778469291602657480224658873678479077475073); (false, 0); (true, 55045489137399753797307129082151059155970630100215495574175533899729989412223); (false, 1); (true, 12705366735425338807878452228648570761259659756644484150720585876974500801978); (false, 0); (true, 1305356857864042216093128053004413470165559933737798444605362411755619934485); (false, 1); (true, 886911899320074462485655455831715172404507549133964813313089228843265065179); (false, 0); (true, 42822734160677456268782020039975479586999786062461677495271803848438877882926); (false, 0); (true, 17479270358499966951829612130829889493870552014460528968525281941893056375130); (false, 1); (true, 8269283905651079070705597456746497936400561552214083417079857293040528320240); (false, 0); (true, 57280462650310105513029781631875530915670216750908601058308989745216453440192); (false, 1); (true, 59263886623715842385250429463904328851837976803549306884465521943944998951); (false, 0); (true, 155437939264828345724351925613946908598813954555858217016461531934135824660); (false, 0); (true, 55610682512706337873978188305924908538426245872387794536059947164666703719215); (false, 1); (true, 48487395028909860930912657133367596061898400429307182406276295950004693233733); (false, 0); (true, 9491349428935541543091274868150239842983114647560533763528427765929777774290); (false, 1); (true, 33773739942223710330393727030435301779400832448402398536485359657839624976810); (false, 0); (true, 54045269050302048059152120362555340436145570186392158687151863763997198656325); (false, 0); (true, 282381374628920295336720119864987421737720455350748927113257984068709065777); (false, 1); (true, 15549584646399421811025348070478260725530196510919910901891089640209329113495); (false, 0); (true, 7619079073400264538558131946985180192059335542748408178470356216476381908686); (false, 1); (true, 5401452398078660195667632557630494837342912018018830410169340176934427160557); (false, 1); (true, 19581169453013039667607667664152337172343815417783051552108111633941763077640); (false, 0); (true, 2220394316333216009624907998909708589796079744530080656945614047445369212804); (false, 0); (true, 44055594435348127377724776487204696907507211677472191898013562979475015236604); (false, 1); (true, 12557451762293326913331157669484857331203261036770097494796029737875140579109); (false, 0); (true, 302875889030172730835508257261864954711796571589235523116062309692813122094); (false, 1); (true, 872432115734924987056177336061072530496776948103951588060341170229236816343); (false, 0); (true, 15027475222894196806802994833546260369442219777489806240295755017393755663346); (false, 1); (true, 43181665116713136698188955715367298198737136400026736929180695794292625843473); (false, 1); (true, 16744129403857983848880883224029527869202234408615216835714324570386937728630); (false, 0); (true, 37850068221095201532609376676004733302243943230204913968569519245682065798758); (false, 0); (true, 27783503836313571807364827048261448516099795568732763446431612612964542792142); (false, 0); (true, 19288325560055351098889800220833346942179413715957681929084313983125243625437); (false, 1); (true, 5379880503608603015662645011603275270871747347862936585646052422776881928169); (false, 1); (true, 2969883641676465715992858182867023188013124387053393547243056511855074948390); (false, 1); (true, 13371936354456643101186921399860507608603025770859856301392683399373286973561); (false, 1); (true, 7057754991910066312719021241026275583892148745792910899088197018028787708689); (false, 0); (true, 1421292872991446808646562041911757268817083506367382179209222248878657864297); (false, 1); (true, 16940990405518270736016949251736900332249812412177729217956439095135253022257); (false, 0); (true, 31901151257899211189622793396592987097555832481685917612352131763529641104); (false, 1); (true, 3581006348395142399199090156170830424737054952053116381839638324209366930550); (false, 1); (true, 57180090737190906568920278713407716585513430123483498344643325457052638228632); (false, 1); (true, 28397388997746788010120288781175245795404461247498157395448019787066029913299); (false, 0); (true, 36503755027782280052174913481232021732654902378845063409453609783886748585528); (false, 0); (true, 13237873840041991748115054468211995668817644001014138344461492588407372645449); (false, 1); (true, 22083802961553281552094008111795423171972614510877806518147529432230595158987); (false, 0); (true, 25108486629058182604762270031537733901708592328946374186925699484189209197230); (false, 0); (true, 3337776304540138305622174871086675732482979236034894874141310488944279510669); (false, 1); (true, 513862221556723360922574698963374218844709337260391032506806727898197464371); (false, 1); (true, 52940261889387949324894721141935558497499586075030821149194200714525062094852); (false, 1); (true, 8182224398707002008467721216908575577451536385589501723190639146609883214852); (false, 1); (true, 814837354505072890783862455537010697418578298349000146755849739960538568166); (false, 0); (true, 8013994009874995333984039403712644238391650748239393515630351795945873323694); (false, 0); (true, 9385496614479507187584469048759426146413506831694861778511263412886577289468); (false, 1); (true, 1492491473136353278865038247794101705871711909059171547512691974993202294582); (false, 1); (true, 12028168302554133967131361106541335711110597152217697072855604135757257361578); (false, 1); (true, 29859110114238887901715269932784988182246388782121032217376695927874080775770); (false, 1); (true, 12204559049162550310342150530237665829074927673651941421712830138095960084116); (false, 1); (true, 53376498681951113637923116555672486227874296169243416286995799017973545913985); (false, 1); (true, 880117603630724050700458535054791890545038521341248147989132133754900587260); (false, 1); (true, 7883022977623546853432583830024466241380435645787297700012473398221202950969); (false, 1); (true, 13479290758655103539274013111791317852558241150374412919600780887088754389195); (false, 0); (true, 21864989942314422257480581979992467344513913273228370487913995907076453880776); (false, 0); (true, 57837776185654502373325086475270774786881495982195931778083657348047190318992); (false, 1); (true, 32474809420744721242729531283519825114436460525674695294224115819169719552929); (false, 1); (true, 4248916381885951387519045188649244076209307491911607757082007758231270047393); (false, 1); (true, 40777322094351150943021912184370417759920186012382985939752721218442368815); (false, 0); (true, 1788129736276094883269277072266192172362686574469800587421772222119860461196); (false, 0); (true, 48961047126477420790218079424981091007995122616194173222455379438002112610048); (false, 1); (true, 3398899746887470391157670614969521676539078835291630453772772893246103953723); (false, 0); (true, 635446124032282505865965989614742290174211606865086957036102317609105133100); (false, 0); (true, 4668783131598041720440118816469797946176876587635082111330651932063688609895); (false, 0); (true, 662871824790663965045266821083179359229307001827533299905971075055140474104); (false, 1); (true, 8095492746796962504169350804592242480315270392527643371529363499693560158); (false, 1); (true, 51049375474192631807774339902978894389659290942252532444025867333186886931203); (false, 1); (true, 29584616252783592152710584921613924578248142612472545122836982004889720930990); (false, 1); (true, 49441934888995795846100201658037444048930550649111897559989518682795523584105); (false, 0); (true, 15307365246307946825888782069074061503845253185377170402705130973837581168725); (false, 0); (true, 736113097430203663969703056262875552398608309654522277504723814038480845259); (false, 0); (true, 2853835703775373041814430622580177504821342000060573621834843227735012260527); (false, 0); (true, 9968141293830594758694910010595223938172889029391105051455219086464298847516); (false, 0); (true, 23656856626744453021404170365714492677656079249781751917588656858403608676649); (false, 0); (true, 29002193769811042582141368991701903873985953348237497178160956160036688512245); (false, 0); (true, 16025805420470702356980109020037825944744827483279515371612276817194112396895); (false, 1); (true, 40313943010096725604978657066519115064450448772752759771083834588728587163151); (false, 0); (true, 10143059592201156448079252101130233593246221336884982653971847570617487538313); (false, 0); (true, 34269996010133816910242579591446204853061184422688904802319599167086009614733); (false, 0); (true, 50033084588199673911362795555644721796856196302409271924337780299531018011640); (false, 0); (true, 17753162181929155995660559730414894553899061379696090683567942518943299940293); (false, 1); (true, 45123333897517496002146365200501894166590825725174564979134498200985678548707); (false, 0); (true, 41056464178956021426237172540911978800556768914410975287109404695535889887707); (false, 0); (true, 22668687174690027022148091007487442172845448044866169660372733519085068395032); (false, 1); (true, 25903362345611556602350185493311707386778783350568718685551649468018491919741); (false, 0); (true, 35725605773954585153145063544328669121686136131410331139299338493408085414441); (false, 0); (true, 32157101960039852532919172217768695617160610907562041658670797021687981852936); (false, 0); (true, 43527744272610477221211999656933677195064112105245543227958281890375059869743); (false, 1); (true, 17830975233416458840558922693887061014927155157904067838837850249921974713727); (false, 1); (true, 2111490717563912097146416840835614257594110674041268261542899297758636914347); (false, 0); (true, 524289447139529778917793415707730929095413079782405100777026495409155843146); (false, 1); (true, 26517566816462354567069292143190799371166365182157201151564094938096265070317); (false, 1); (true, 16919805980330138813471674108096281338321907953621997941436402001618426624384); (false, 1); (true, 4430862675806366589999777138736540462055490873201406554485523486290739888683); (false, 1); (true, 814573483647853729916543883522152256717222885559289152403727339608340524824); (false, 1); (true, 118919125117368502699720766645318730207407478380822292918531151451510408665); (false, 1); (true, 12862865885897449683777373318762225905272488287763929343080205799553241388142); (false, 0); (true, 10605825627066352951803434514399964308762033143118146136327543324251785925598); (false, 0); (true, 33551778071489997975838705634357012806679398618112868929646474427764971831086); (false, 0); (true, 56274508726450328418800403730263863898771161063705210646891764198179012486912); (false, 0); (true, 162996856616292076201891652863387925010437948595685053996819233349703661271); (false, 0); (true, 5076815061863441977300191284933751533628984561378253438405334233103365032924); (false, 1); (true, 173118387392141024491143598253971343710024305382891046658014345443593318610); (false, 0); (true, 51991457958631342045856910769726130599711200470649081369015971756292366147018); (false, 0); (true, 25162183085703531035957969185654340311238534096717633862515072500407943831926); (false, 1); (true, 28624016607073208339502447522523985442656821711648186554217440658225591322018); (false, 0); (true, 2303228600572644604515441976407479583840467241749730231922181880756343400006); (false, 0); (true, 1443758593206892706073693312445564359926385478822933483050614370520783624271); (false, 1); (true, 411835771530711295269466736941711751549428244444664349807287502835999053759); (false, 0); (true, 9809639751662067775868092497712082155571803445972882665476354908580563145197); (false, 0); (true, 55555083487403914971962245366740448323310995147541568388744238947045138589601); (false, 1); (true, 7848548512452245011657322428155540755695092003728040721540142662848135844649); (false, 0); (true, 10457125170669700630404733762268851047827608662724064566027709665050957541279); (false, 1); (true, 47952287254136167527364817374228602055575478964344435742379624018542151779471); (false, 1); (true, 2625748989050924247962147908193502335475020836248935745885877350463653197723); (false, 1); (true, 489089368520581831981221823733181162067762272436095115864495588177096581); (false, 0); (true, 39441496655223303039759417915861689489363618844380879985731524478113090040804); (false, 1); (true, 6569948996693813866186563993342092115179788708656831190911845142749028474803); (false, 0); (true, 4890451554444173848410957734683484733226051917653238714885572708029795535170); (false, 0); (true, 18456520398370488039843537567843724983955339456682546302112090673107915846248); (false, 1); (true, 24560671024029498101409192014039894381796529323936523725532495340502637117851); (false, 1); (true, 73148946875973043763945049487472204489997368460169253866132612661368775116); (false, 0); (true, 7082043758824245724250220596714854179926743030333258907231048198507040482565); (false, 0); (true, 31303950045713125514061803103590566770527472272055125651918955958412523154392); (false, 0); (true, 510267628463283979229419957349098934725685364919538872042369683079085276097); (false, 1); (true, 19828752345965033556457973704773249036435263245855922458473013709663383726348); (false, 1); (true, 45144037633531199567604977608352691465566095671607702490554084595641157793117); (false, 1); (true, 32263100127185969989696863398217510727881883296173420030945626229160108472455); (false, 0); (true, 51378671528608940569087741980960467593970222348428561824640594976783518703756); (false, 0); (true, 24355948021092395447979661187192218210830508252954296606083603713466683562101); (false, 1); (true, 249926607672856961756551730160719850325956690093267497362037028807101497174); (false, 0); (true, 253336106856337575822702567059325284535630038361273611531628918011000249141); (false, 0); (true, 5588740563730558779593242541589981380428579260506075958851115525931187564087); (false, 1); (true, 15908618963214150858240814599460018417688716622806265845449828260147920293585); (false, 0); (true, 4156740446654141806491148504172307452323988466306753580168007149530713070092); (false, 1); (true, 18566237442335113046999040178649889375261089450630111591423940033251326048036); (false, 1); (true, 11395248118616388282373711563576680904769273097729715614726816996477730129580); (false, 1); (true, 11596236460477929545566178131854128722048574112252601996863912492986552378007); (false, 0); (true, 57488892892568471791421702514207109143894690784151447750986744052104094219481); (true, 9106281343991085101820925239539015584070553017230308605775087286567541147175); (false, 1); (true, 25987193640288435910976862739541649081626749552148071297187051997361557318925); (false, 0); (true, 6690407189080634018507799843845558368979872843924222843531373839242004886244)].
Lemma two_half_25519 : 2 ^ ((2 ^ 255 - 19 - 1) / 2) mod (2 ^ 255 - 19) = 2 ^ 255 - 20.
Proof. rewrite (chain_is_eq _ _ p_c_chain (2 ^ 255 - 20)); [reflexivity | discriminate | vm_compute; reflexivity]. Qed.
Lemma p_fermat : 2 ^ (2 ^ 255 - 19 - 1) mod (2 ^ 255 - 19) = 1.
Proof.
  replace (2 ^ 255 - 19 - 1) with ((2 ^ 255 - 19 - 1) / 2 * 2) by (vm_compute; reflexivity).
  rewrite Z.pow_mul_r by (vm_compute; discriminate). rewrite Z.pow_2_r, Z.mul_mod, two_half_25519 by discriminate. vm_compute. reflexivity.
Qed.
Theorem prime_25519 : prime (2 ^ 255 - 19).
Proof. eapply pocklington1; [reflexivity | exact prime_q1 | exact p_fermat | exact p_a_wit | reflexivity]. Qed.
