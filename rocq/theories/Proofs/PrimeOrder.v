(** The group order 2^252 + 27742317777372353535851937790883648493 is prime (Pocklington certificates computed outside Coq and
    checked here), and the base point has exactly this order. *)
From Coq Require Import ZArith Znumtheory List Lia.
From Verif.Spec Require Import EdSpec.
From Verif.Proofs Require Import Fermat GroupFacts TableFacts.
Import ListNotations. Open Scope Z_scope.

Lemma prime_531581 : prime 531581. Proof. apply trial_prime. vm_compute. reflexivity. Qed.
Lemma prime_1224481 : prime 1224481. Proof. apply trial_prime. vm_compute. reflexivity. Qed.
Definition l5_a_chain : list (bool * Z) := [(true, 0); (false, 0); (true, 0); (false, 0); (true, 0); (false, 0); (true, 0); (true, 916); (false, 1); (true, 430775269143658); (true, 263836722024486); (true, 471448016996297); (false, 1); (true, 90558123337947); (false, 0); (true, 64848907248985); (true, 95007002354538); (false, 0); (true, 152014982620013); (false, 1); (true, 151131391013581); (true, 1200623509277347); (false, 0); (true, 263702514189284); (false, 1); (true, 395198969597656); (false, 0); (true, 116712453299282); (false, 1); (true, 154770711320983); (false, 0); (true, 347508160804405); (false, 0); (true, 497300464251979); (false, 0); (true, 240974986296115); (false, 0); (true, 130476759390420); (true, 20881838908466); (false, 1); (true, 167584930872783); (true, 56312568150775); (false, 0); (true, 420739868253294); (false, 0); (true, 164858000222592); (false, 0); (true, 41066581094208); (true, 619966417070637)].
Lemma l5_a_pow : chain_is 2 (1257559732178653) l5_a_chain 1252739704402215 ((1257559732178653 - 1) / 1224481) = true. Proof. vm_compute. reflexivity. Qed.
Lemma l5_a_wit : witness (1257559732178653) 2 1224481 1252739704402215 (-466659544684812) (464870912375773) l5_a_chain. Proof. split; [exact l5_a_pow | split; vm_compute; reflexivity]. Qed.
Definition l5_b_chain : list (bool * Z) := [(true, 0); (true, 0); (true, 0); (true, 0); (false, 0); (true, 0); (false, 0); (true, 938795); (true, 550379740793149); (false, 0); (true, 850619598535320); (true, 546292524668647); (true, 802506941234211); (true, 769194293284805); (true, 29024414843316); (true, 596195007210629); (true, 73352453503857); (true, 106277204268342); (false, 1); (true, 1231495942396064); (false, 1); (true, 76306218291486); (true, 3459325330603); (false, 0); (true, 1052561014711525); (true, 972229115019529); (false, 1); (true, 318856647819356); (false, 0); (true, 596381985619053); (true, 320513340019370); (false, 1); (true, 485305281558); (true, 5053163242902); (true, 488145105186710); (true, 855371772495272); (true, 1000246359533674); (false, 0); (true, 327112612109483); (false, 1); (true, 210334659241653); (true, 910242507055400)].
Lemma l5_b_pow : chain_is 2 (1257559732178653) l5_b_chain 1139842034583224 ((1257559732178653 - 1) / 531581) = true. Proof. vm_compute. reflexivity. Qed.
Lemma l5_b_wit : witness (1257559732178653) 2 531581 1139842034583224 (212927577457398) (-192995844966701) l5_b_chain. Proof. split; [exact l5_b_pow | split; vm_compute; reflexivity]. Qed.
Definition l5_c_chain : list (bool * Z) := [(true, 1033143659547655); (true, 1033389706031293); (true, 29434860469345); (true, 344345522391675); (true, 234571036879296); (true, 898920601745929); (true, 1246741447942681); (false, 531600156475240); (true, 1176990609469456); (false, 484375951480819); (true, 898573991598234); (false, 674900905946715); (true, 68725316284310); (true, 577196500950127); (true, 449888501215854); (true, 130999306742224); (false, 1035131492953797); (true, 53444963531022); (false, 765014309915066); (true, 346057153406898); (false, 86637918199376); (true, 28967883766854); (false, 762409456937697); (true, 969251077004364); (false, 306338159612095); (true, 804230350312); (true, 626686860596106); (false, 379686329281139)].
Lemma l5_fermat : 2 ^ (1257559732178653 - 1) mod 1257559732178653 = 1.
Proof. apply (fermat_from _ _ 531581 1139842034583224 l5_b_chain l5_c_chain); [reflexivity | reflexivity | exact l5_b_pow | vm_compute; reflexivity | vm_compute; reflexivity]. Qed.
Lemma prime_l5 : prime 1257559732178653.
Proof. eapply pocklington2; [reflexivity | exact prime_1224481 | exact prime_531581 | discriminate | exact l5_fermat | exact l5_a_wit | exact l5_b_wit | reflexivity]. Qed.
Definition l4_a_chain : list (bool * Z) := [(true, 0); (false, 0); (true, 0); (true, 0); (false, 0); (true, 0); (false, 0); (true, 0); (false, 0); (true, 292744397614004); (true, 928038625432216325); (true, 454092319897711611); (true, 608175378743316196); (false, 1); (true, 1086492094801039756); (false, 0); (true, 1726834767139209811)].
Lemma l4_a_pow : chain_is 2 (4434155615661930479) l4_a_chain 415787812636281767 ((4434155615661930479 - 1) / 1257559732178653) = true. Proof. vm_compute. reflexivity. Qed.
Lemma l4_a_wit : witness (4434155615661930479) 2 1257559732178653 415787812636281767 (1010501025739283171) (-94754006754933215) l4_a_chain. Proof. split; [exact l4_a_pow | split; vm_compute; reflexivity]. Qed.
Definition l4_c_chain : list (bool * Z) := [(true, 38988145685783810); (true, 2168660459386835020); (true, 709128946809304511); (true, 295929619506954832); (false, 333606034026749420); (true, 8259269371654279); (false, 118536632533739317); (true, 2618207884824238319); (false, 320483536934927575); (true, 10337769381850986); (true, 1816521569926774513); (false, 188643525851519143); (true, 1618342046069862044); (false, 383741947152563606); (true, 468699241117475012); (false, 301202801224519845); (true, 634425572434400461); (false, 251999939044415836); (true, 925161259330924683); (true, 2793126400371093715); (false, 294044185540207381); (true, 3325389000088569); (false, 120890093446599748); (true, 3901942085879530807); (false, 283660265431536154); (true, 2182524607293165084); (false, 151988090482875776); (true, 168514519224321195); (false, 22544473330808157); (true, 98401769852529808); (true, 111101843477005418); (true, 64672171764836934); (false, 303374292701010482); (true, 5885147759391229); (false, 349448076500465681); (true, 91751564317765870); (false, 178100256833439789); (true, 1410851453400278058); (true, 260845990336196921); (true, 1094403485901184250); (true, 68657932149691553); (false, 414895825648975120); (true, 695058069263618765); (true, 3763947446807398527); (true, 3712280126777353989); (true, 2928582672572478410); (false, 294765942090434199); (true, 2826458183837772743); (false, 237368638903119223); (true, 531699912271068671); (false, 305985530163664813); (true, 161498845004624799); (false, 179116162205568318); (true, 3437742625414003500); (true, 47474031293803448); (false, 21776060118289060); (true, 347960752195421366); (false, 335409266607526531); (true, 2878683691154495391); (true, 795920841955488090); (true, 1114841889048200093); (false, 215405190570903040); (true, 163095298063739380); (false, 83950011362401862); (true, 292549482259423306); (false, 295670688076389721); (true, 4348384103015511732); (true, 259544196147993163); (false, 25374619598236290); (true, 20882427071519069); (false, 394154314408168320); (true, 4401185454543871089); (true, 2092675923053036358); (false, 332283721032843813); (true, 253311866192073519); (false, 294589260241842530); (true, 764727770049787289); (false, 189759311474266117); (true, 1438912276679212276); (true, 3272119203453620944); (false, 5040770686072401)].
Lemma l4_fermat : 2 ^ (4434155615661930479 - 1) mod 4434155615661930479 = 1.
Proof. apply (fermat_from _ _ 1257559732178653 415787812636281767 l4_a_chain l4_c_chain); [reflexivity | reflexivity | exact l4_a_pow | vm_compute; reflexivity | vm_compute; reflexivity]. Qed.
Lemma prime_l4 : prime 4434155615661930479.
Proof. eapply pocklington1; [reflexivity | exact prime_l5 | exact l4_fermat | exact l4_a_wit | reflexivity]. Qed.
Definition l3_a_chain : list (bool * Z) := [(true, 0); (true, 0); (true, 0); (false, 0); (true, 0); (true, 0); (false, 0); (true, 0); (true, 2073829677966472774); (true, 5945665732273380560698350); (true, 4896226848661359734432396); (true, 2280509885969109424278951); (true, 130790614921432972698007344); (true, 114790229982582456155186612); (true, 503301867151590626831184); (false, 0); (true, 82133495764408352887561335); (true, 120989217545099543588439385); (true, 47218051299916904018079417); (false, 0); (true, 100166145001173924076201018); (true, 25588256111379539769822923); (false, 1); (true, 3113899218594167203600917); (true, 163028808286365832866562148); (false, 0); (true, 11584815471947457057136124); (false, 1); (true, 4988141698745784251597480); (false, 1); (true, 4394650487145635868415162); (false, 0); (true, 75882946509272374081710185); (false, 1); (true, 4877625889379437891713874)].
Lemma l3_a_pow : chain_is 2 (172054593956031949258510691) l3_a_chain 81982237619807054769897707 ((172054593956031949258510691 - 1) / 4434155615661930479) = true. Proof. vm_compute. reflexivity. Qed.
Lemma l3_a_wit : witness (172054593956031949258510691) 2 4434155615661930479 81982237619807054769897707 (-17779243434318459953124787) (8471625932319896702492053) l3_a_chain. Proof. split; [exact l3_a_pow | split; vm_compute; reflexivity]. Qed.
Definition l3_c_chain : list (bool * Z) := [(true, 39063689789463345546060664); (false, 28504413862090453214229184); (true, 137087627865599777022477352); (false, 29764136870856029594057774); (true, 163679330576659421555561623); (false, 57514539095231945132207111); (true, 13552867836759487319478607); (true, 20780727943071821398366854); (false, 13282451754645407095611663); (true, 138358068139031404634018294); (false, 15624422157287135126653998); (true, 121906496237014564497468923); (true, 146996382167360070926361721); (true, 36904083715818543859524362); (true, 147200415124651142330656840); (false, 44299662676301864143763739); (true, 16041394422961108190086408); (true, 381864230957890148886695); (true, 115101729233883037754107477); (false, 57438924968543589985395899); (true, 60578967260846283519112747); (true, 50882004417800593655183328); (false, 67999135625771359346221928); (true, 132690517624064099618900820); (true, 169437686828596750329128291); (true, 157465650453451195486612543); (false, 38206562537214512849965914); (true, 94573789497187853380165676); (true, 30850070827488313313375146); (true, 132900336156597231789513633); (false, 11799979529040022152820893); (true, 12956240839502961208240659); (true, 131171193715746322205540787); (true, 29155242803136539978118516); (true, 18521094785632128904015690); (true, 6337975060756231043227233); (false, 30732900935134995120113377); (true, 1237051548284055817736735); (true, 19251143222773442877278202); (false, 54176837978605200919197952); (true, 4999436828270092462559770); (true, 9738765200344478370995770); (true, 107886725007970029302043599); (true, 40227903326724553618307186); (true, 134139054390448042607113321); (true, 75564587553965485803022261); (false, 37378558105975581765468738); (true, 73174201653979405139346643); (false, 31027469841337584060946914); (true, 44494778751406971161958759); (false, 79266010372165746899401141); (true, 85672394167575313349904186); (true, 2119576812725669415305071); (true, 20547632179472578377213131); (false, 49188342903895187125360215); (true, 39818262448998808579127328); (true, 52188428678702872509354); (false, 3985514847554940314665430); (true, 20096979291331631176750995); (true, 118220369632617647457059362); (false, 75817626694744199016460182); (true, 142259237929883036678961599); (true, 2239391272545463126392601); (false, 60892290444354006578065779); (true, 66527318387931958980525732); (true, 1022727534333363426741381); (true, 26824502665074068657657251); (false, 62926948635631632933667371); (true, 33479093244526022644543884); (false, 31900977312417755366069299); (true, 69983278023212704030163448); (true, 96740363082248911152171299); (false, 20048520229274744079072388); (true, 30692818723055476042663860); (false, 3266789651837970227031422); (true, 47179964460397667262627057); (false, 62157478963723586932843948); (true, 32626517616352923836480); (false, 65530336686291595163438176); (true, 8560566708928127444744696); (false, 12760207150977578159935991); (true, 1973775079671798141201592); (false, 39645604655676810522789372); (true, 72081998967149083000320197); (true, 55315933164444310797057847); (false, 63978100631342092492534880); (true, 4026245871895001892816899); (false, 34281981265846075105802411); (true, 10017771164456452133291458); (false, 30286201829912625371804878); (true, 27376246063145504057759464); (false, 9579738641135691137266134)].
Lemma l3_fermat : 2 ^ (172054593956031949258510691 - 1) mod 172054593956031949258510691 = 1.
Proof. apply (fermat_from _ _ 4434155615661930479 81982237619807054769897707 l3_a_chain l3_c_chain); [reflexivity | reflexivity | exact l3_a_pow | vm_compute; reflexivity | vm_compute; reflexivity]. Qed.
Lemma prime_l3 : prime 172054593956031949258510691.
Proof. eapply pocklington1; [reflexivity | exact prime_l4 | exact l3_fermat | exact l3_a_wit | reflexivity]. Qed.
Definition l2_a_chain : list (bool * Z) := [(true, 0); (false, 0); (true, 0); (true, 0); (false, 0); (true, 0); (true, 0); (true, 0); (true, 20821443634461049522097); (true, 17791363975874780569836092239253423999118); (false, 1); (true, 19685280787277343650790919084414502207243); (false, 0); (true, 17280408984759717495443339153166951651993); (false, 1); (true, 19293079453473215695698998085832837987456); (true, 380288709916973613942502556697489333234); (true, 16635008556631933400475953206080385080329); (true, 17907292299602302366417758034714585391413); (true, 14599048782307286849932576057763754948145); (true, 485715841123822471004614345256312469363); (false, 0); (true, 1370965788785077018286373018622158657); (true, 2693029782297834319678592281953184878289); (false, 0); (true, 621341792025825074763924189761980434907); (false, 1); (true, 2630382719010991443572685526520117421222); (true, 837263356213712444687325741322744717274); (true, 5155195491443198442158526092245048909277); (false, 0); (true, 793095410892489958220729624720341293921); (false, 1); (true, 7666898685170038292600220041457734787029); (true, 4586977729341583436068330096275624907348); (false, 0); (true, 14474487556995738480880359279125802512652); (false, 0); (true, 7921587675025660510635613342582440063952); (false, 0); (true, 2659666646197729244138036022980969550938); (true, 10931878872139756447079595860793793847077); (false, 1); (true, 50695180837350458632971281200459796036); (false, 1); (true, 1564287817366282619059731248455431668964); (true, 14914390583757871482382153348021740317504); (false, 1); (true, 2004491109024907095926051150151104034344); (false, 0); (true, 1315465279430743797455166017096987517963); (false, 0); (true, 1395691641171629548326246902906297595646); (true, 6607785709320182381223143520816606648848); (true, 6846331703076140755108023687774845741971); (false, 0); (true, 10300406029903040098874055550223465478731); (false, 1); (true, 17369563211928101446291711985387282284901); (false, 0); (true, 19491737482358789991289569573383607547672); (true, 3748505885309745822216199319014899900862); (false, 1); (true, 7308585297401317084387724670572847442742); (true, 1582728664036369908457436297281939119257); (true, 43636335472665227187268112103372379886); (false, 0); (true, 1465126052215926352310822062081955600943); (false, 1); (true, 11899491259521033692969125360158426181743)].
Lemma l2_a_pow : chain_is 2 (19757330305831588566944191468367130476339) l2_a_chain 9148758478138211201771971577098600188172 ((19757330305831588566944191468367130476339 - 1) / 172054593956031949258510691) = true. Proof. vm_compute. reflexivity. Qed.
Lemma l2_a_wit : witness (19757330305831588566944191468367130476339) 2 172054593956031949258510691 9148758478138211201771971577098600188172 (-3385675872469944473147229741170731090145) (1567758921019043986448917253982060556964) l2_a_chain. Proof. split; [exact l2_a_pow | split; vm_compute; reflexivity]. Qed.
Definition l2_c_chain : list (bool * Z) := [(true, 4236391273298746611402238549188438187126); (true, 15417173781568564210561653121962861287832); (true, 11780722223464859236345281243913721838396); (true, 2613980744248246522637280337014931526636); (false, 2794091919013043026866550645884742772397); (true, 314864464605302021602958510219121219305); (false, 4891681408521513921016986813238661224174); (true, 230081769036305464861955683711714186733); (false, 1531350585216052659636017941648198199337); (true, 468109793402384656648378078025365294686); (true, 820530829687286955125808394458178773849); (true, 5290636453025593644464660588006038399840); (false, 5211970546110174630122572865935670716015); (true, 4399234750277663199167485606072938565837); (true, 16674417148993222104672095584171729779268); (false, 4337567534464237874726510799339397519996); (true, 1057094676373851752617824375212565915078); (true, 7795535237181309466171003130490948373257); (true, 12622856591951353055207389033554592777106); (true, 14803904783399803929156615645462798113122); (false, 8168805888513733555463277552997538171937); (true, 2190336726006017349541038452076805464057); (false, 6425952536155908013868517304269555522170); (true, 5434645694788947713446075353947901776194); (false, 7274351960947401350376593782833488939261); (true, 12237983402053096357132700828785517709025); (false, 818006273928014568743212123543969578149); (true, 1123120287327195451338074038893543569575); (false, 5377194358115570065750608837417941094991); (true, 10360124019970843610746339959134261015880); (false, 6496029519039526517093072237723055664703); (true, 7354436331188238621826829290923741554165); (true, 2490321171246305916380229024093752); (false, 8285221161270624143229335128940668840918); (true, 4931989058680588953381910537073999790406); (true, 14214409016230994624507171178327948943627); (true, 482532095826435760931921599856373044293); (true, 2130613841505455256118270811840511880029); (false, 6103092953855951798993870150422638838848); (true, 324410640135337891734276690148086676296); (false, 528576019531325430715903392017243429648); (true, 302669963891348112670852155463871949111); (false, 3902817795113065593616894688911257719563); (true, 4993238162968133089162321243434113761119); (true, 4025708943946954177425946863640603490307); (false, 192972207706770110936824514822635946900); (true, 5011916988028368999698573958289977870373); (true, 17808618264383130683507726946746393169489); (true, 69853525490641729505980002821613589611); (false, 5415165433234761019818911814139852260576); (true, 3611478674814019573345615334646401966279); (true, 18689086940409309649784099619741173708430); (true, 1545511189487263773218875558602909754142); (false, 4516484273949259586256394781033341355836); (true, 658030946242726880537513252082518870244); (true, 13646112116815933099821591760631044564084); (true, 8962319446999477733431638706293949066303); (true, 3536158237433519623361016102559509628825); (true, 524608420669439197094801224653359505104); (true, 12966120484392732332014891111197785093768); (true, 14828245757208099178834165450987258904324); (true, 8897288641814826844775425267381076512175); (false, 7541683832494626570115966373757922684164); (true, 7532141585522193072869455860321088392485); (false, 243085632963121365614219688983743479471); (true, 14134657810117811338865891374325717310546); (false, 8021851335256358846307569200993402187948); (true, 134674038042111676292744456722710307028); (false, 411325545826775851566405502774995352013); (true, 9307614681408013338134732455339642628743); (false, 6944412342958251668538341247076502441305); (true, 237961007739882917162343846677209072604); (true, 73424507241340002115109568944033799744); (true, 2354447830234052108946289938035055879621); (true, 3792955765984266220330170555442784460287); (false, 4971958675646274629430965073871727511391); (true, 15355420874713764203954725010286503912577); (true, 235788386079596123584302662496265832264); (true, 2428118333420750171379693859689417363774); (false, 6871746552042010732411930182982301573662); (true, 3459898615350419089860549540162443531648); (false, 6288840726086119390668932959489678023048); (true, 11744803854025645688363958554695225511818); (false, 2039692210536228996319910237395936443316); (true, 15650646533919517004181007156407942172428); (false, 1263884876854780730368251246153816674655); (true, 8657591568857959411763777557448718352051); (false, 7862102543291292334694902087212027889036); (true, 3165044074004852473201345889027914294627); (false, 8947623084155292222334462136922208930359); (true, 19075037432644823740488737407416326595733); (true, 15395491376611376939038112018637165767184); (true, 13016792522709210971854324190296085636844); (false, 640823937818295693655172743860817987888); (true, 689398934276333369162105566786572122963); (false, 6699406323044902490883825922656334602812); (true, 3444018779029087867345609384108587661653); (false, 157128705482224429485433634429411080743); (true, 2886368233999599754445450120898905115241); (true, 2832221830998989038894386682882705516078); (false, 6120900330459046445118751405574280152546); (true, 6779781443634314512883592514474417607089); (false, 4006300066268714798508812477825572010135); (true, 14328778945577348893284526475178483416330); (false, 4594769321799300571626102743647683139776); (true, 5450429295230541856678324391338201792282); (false, 4848903373772401318794084375675904100418); (true, 8441841290075034788106197075579208363492); (true, 3921974699088665985198002163900556784358); (true, 11457626525350755733952625665194536076487); (false, 7069443551156353641920988273674133784284); (true, 3748414049612424187842529392904439562857); (true, 15567788928475971103913395051233166643775); (false, 8000787393850281932736003428309677185946); (true, 19045844315879036247579492985711681105911); (true, 18270808287322287326087914534497112628218); (true, 10041633358580865940406532577607399350910); (true, 91062412030152203404303416849835261953); (false, 8924137605779738483368637347121359120329); (true, 649074474159834509435881065616635276471); (true, 2149317534567088855226392935787610006184); (false, 7319511586161233465330410401656224152519); (true, 5932093664252924590904600017324188214760); (false, 6754124288334436625863031195307854729336); (true, 1116186655296276555875092427053869893770); (true, 19714221638775835368057155291873208206769); (true, 11785388429824274548871147654967716654131); (true, 13539644700394889884195285439687114255939); (false, 1795194892140768484111516416351149141699); (true, 18365520821462277189670397278128911320426); (false, 9072416214279087957832116199420676535857)].
Lemma l2_fermat : 2 ^ (19757330305831588566944191468367130476339 - 1) mod 19757330305831588566944191468367130476339 = 1.
Proof. apply (fermat_from _ _ 172054593956031949258510691 9148758478138211201771971577098600188172 l2_a_chain l2_c_chain); [reflexivity | reflexivity | exact l2_a_pow | vm_compute; reflexivity | vm_compute; reflexivity]. Qed.
Lemma prime_l2 : prime 19757330305831588566944191468367130476339.
Proof. eapply pocklington1; [reflexivity | exact prime_l3 | exact l2_fermat | exact l2_a_wit | reflexivity]. Qed.
Definition l1_a_chain : list (bool * Z) := [(true, 0); (false, 0); (true, 0); (false, 0); (true, 0)].
Lemma l1_a_pow : chain_is 2 (276602624281642239937218680557139826668747) l1_a_chain 16384 ((276602624281642239937218680557139826668747 - 1) / 19757330305831588566944191468367130476339) = true. Proof. vm_compute. reflexivity. Qed.
Lemma l1_a_wit : witness (276602624281642239937218680557139826668747) 2 19757330305831588566944191468367130476339 16384 (94074944912245044309966580483695483989395) (-5572) l1_a_chain. Proof. split; [exact l1_a_pow | split; vm_compute; reflexivity]. Qed.
Definition l1_c_chain : list (bool * Z) := [(true, 0); (false, 0); (true, 0); (false, 0); (true, 363097161594256583); (true, 59275720074348472298188294917894372743990); (false, 2680); (true, 163801594517078895452742343591837327292910); (true, 88640453581202786044539279840987789484414); (true, 5231678709735698669162930349942935788902); (true, 189929919191973753448342369342910802228849); (true, 104837896837418083797181255279412209498456); (true, 108149110017803177682194430388100377995927); (false, 7641); (true, 1315990872067651712660252637849224689672); (false, 3853); (true, 1559758506987082455317269687013837201886); (false, 9463); (true, 154913872438906031060315728105291646341241); (false, 678); (true, 52389091629160011446621733912437426472028); (false, 1945); (true, 202370937394094217651532607750986393939697); (false, 13196); (true, 124574680760259051321085286824209396237895); (true, 1952631185448635220546017909998970199086); (true, 125461263117969112920739630217029924906186); (true, 44223549631497797148830664353353080020855); (true, 161706715087753460665899231043556264620500); (false, 13316); (true, 15397838308002142813639765081154319761883); (false, 7886); (true, 73693044526883933548868922224786690580797); (true, 18274657683622570175228412041764203964808); (false, 14276); (true, 257051480737178020898524797544870795519263); (false, 4425); (true, 96960587908926479545478321153398959816869); (true, 138997555322200457431858808482552263172865); (true, 263324582664337541562215264162043513144879); (false, 10286); (true, 90577818761868735861929324148240006117821); (false, 12161); (true, 16321148332353978700293583753053025918266); (false, 3520); (true, 125554522740027482181534078298697172747862); (false, 613); (true, 104014881737907886730406462442880390475899); (false, 5258); (true, 5234917366630008644979915944392903503711); (true, 100852322822586270683778869227331415259278); (false, 14125); (true, 29757139465004272712281763724193576019322); (false, 10724); (true, 10212291500308355494680416155293846620969); (false, 3324); (true, 85371378216641349739390380498900830136794); (true, 139629509127226357126016143151406175465317); (true, 191051997440155166086342572401858090307779); (false, 11783); (true, 179920400614776441599025649407335260123112); (false, 11658); (true, 132417023861185784347878097714561095251789); (false, 7630); (true, 5851494140806512472406410044659973101287); (false, 1601); (true, 18496537685667828735865799137818552333283); (true, 113523678084011253926276819441624867357644); (true, 32597205395088213422390752958719246589226); (true, 100048800190863979491208303827303741288127); (true, 119667291633908957331787676819699677901661); (false, 7278); (true, 23451015473023855020948811156949036405665); (false, 3879); (true, 8340132559959126495365164481227654514958); (false, 4104); (true, 31255702626990199982605082156112362728310); (false, 2199); (true, 44077665480445599234757524061126779425518); (false, 3827); (true, 8903579527542284080439503095991361160232); (false, 12590); (true, 65622355180714919683924177378812216626728); (false, 9972); (true, 11510201473547719421117749073037810680725); (false, 1874); (true, 80757007169718614445655159218202654624669); (true, 233772004497847936150341266316948410675301); (true, 80747782096041599832063545892083566857947); (true, 262736247732431046616153534247274042581798); (true, 260542527793242695669200863894951856574262); (false, 11534); (true, 1419672743342964331782953157089332601957); (true, 116072505974043439558227072615814846175389); (false, 822); (true, 24550546842230121984477077021628486712742); (true, 33565195949045488298404058598685433395086); (true, 111465572142381033116814724958473790251794); (false, 6816); (true, 209724947398425641667988636390266337768472); (true, 60674287889725988585136932305238735100114); (false, 5065); (true, 4595961596533549079524519788809273531644); (false, 6152); (true, 132063979832736710985907303527546684754606); (true, 132431793876819120929608735951402236639313); (false, 1119); (true, 6493597842855624084503741333218917850750); (true, 250614241141894641125155855430851603776919); (true, 124119210578529517053081931473024691164169); (true, 140048138457839346973488952920570924459745); (true, 220821188391069196816884632689459136046601); (false, 11010); (true, 14601254693775052530050747298243378547876); (false, 8899); (true, 82337465404109271238249157444441921132623); (false, 9633); (true, 53144124732693220430253911169392293332700); (true, 229265056685263756472278603836109825938950); (false, 2443); (true, 74020134596368805870378310243988726715112); (false, 12566); (true, 10865605748425721599105139180916456658968); (true, 53456743013506596690401866191316916835891); (false, 9411); (true, 36806512621139943708374460516435321460087); (false, 15266); (true, 71443185208543454119144706518019195906780); (true, 29151352647992104918049081344336429093995); (true, 108140737173093293796198827343241660565384); (true, 263427447388250816929509491059946799754559); (true, 2737328587501100901870616233236699709780); (false, 16059); (true, 78741596003756710063986075840450997119879); (true, 66069904606890597961789573281443333757547); (false, 7257); (true, 86684157042780811110897811759597046620913); (false, 7227); (true, 67274137264000431921219449723216333868445); (true, 19206491478589697793799245435857141891388); (true, 22747476438200439059184939626688318388009); (true, 48670671480253313214092403555776351255597); (false, 1302); (true, 35869014706504416839368472512190790214945); (false, 11054); (true, 47959647113994689145556943025976440755389); (true, 224873956310552434106079871351737372080887); (false, 8320); (true, 46716347742980402564117413310512378336738); (false, 10429); (true, 122664752742076559112124551475102719); (true, 15287066446158765192797366356996484622); (false, 7314); (true, 1464280022454850607610237404044749176013); (false, 14015); (true, 120694798951871145570067797990428192251233); (false, 13550); (true, 183533339240316646477060575035748965915701); (false, 10276); (true, 87222789596715362674327429042136926282724); (false, 8937); (true, 121256632685360723093317741606477367460994); (true, 386927656401429335706808219237874068867); (true, 53214761660521011622977230747148032592189); (true, 37275137819936558703404039370929414418661); (true, 91552576118531438653720129524183774184783); (false, 14524); (true, 225877830287977342736771828116190173597603); (false, 14045); (true, 13336451915951266473917107755378654049320); (true, 17204462419377438813174512094079663329877); (true, 28935361193280208248788258068804819748638); (true, 41816618241987350208095912277862312801760); (true, 270909185120987337986091429923547959866610); (false, 4064); (true, 176370598338572525333372744700440557681164); (true, 228369504264493720143503771592434447789871); (true, 198839282571907516949005109339904583601498); (false, 9300); (true, 222114894265742442920278419714248552256548); (true, 66418619239990385262107662398243665684885); (true, 25840863857554874491183545822411125384055); (false, 15189); (true, 926273502592213080259174185665318310413); (false, 945); (true, 92904232199556046938476780822465619451467); (false, 15607); (true, 183772790526767388580763425934858959611527); (false, 2461); (true, 85917133618092695781746404092397687061207); (false, 105); (true, 46760332828017157339333887357458623973949); (false, 2941); (true, 72048260532310654094190799696553284996349); (true, 1571976575436633778117870794030611180460); (true, 78784190051298505409520327729949746327307); (false, 7094); (true, 156248040041746953031273477057906911807144); (false, 15404); (true, 155804326275853435103536572961268077530838); (true, 257583525633027705067681123853479943815982); (true, 172810226005318179131999812986065537171239); (false, 1185); (true, 165465229527854955665568865242952114329857); (false, 12061)].
Lemma l1_fermat : 2 ^ (276602624281642239937218680557139826668747 - 1) mod 276602624281642239937218680557139826668747 = 1.
Proof. apply (fermat_from _ _ 19757330305831588566944191468367130476339 16384 l1_a_chain l1_c_chain); [reflexivity | reflexivity | exact l1_a_pow | vm_compute; reflexivity | vm_compute; reflexivity]. Qed.
Lemma prime_l1 : prime 276602624281642239937218680557139826668747.
Proof. eapply pocklington1; [reflexivity | exact prime_l2 | exact l1_fermat | exact l1_a_wit | reflexivity]. Qed.
Definition l0_a_chain : list (bool * Z) := [(true, 0); (true, 0); (false, 0); (true, 0); (true, 0); (true, 0); (true, 0); (true, 0); (false, 0); (true, 1180591620717411303423); (true, 7237005577332262148468490748552037267540307668870186080822129444820427749816); (true, 942589363549410365945703063068934356513084744409838477783095633668376283440); (false, 0); (true, 2230230288759627000077307454041984854567991419081184616770743276079499765542); (false, 1); (true, 4899025989171891639209397003187161588318791553488424785136978895232058777612); (false, 1); (true, 1539642963378578556174315168629576682441745229306594841017503794013507750); (false, 0); (true, 3220349355522119098003041695098035881653664793448607003376446374517592885384); (false, 0); (true, 2007904495676897012902728017053565627373254847211179515839596671547031039538); (false, 0); (true, 121519143698457150148402787929160464601486360567607496437357575251095675679); (true, 170273368890437570478638994432586996835040717097131015203934107560572018458); (false, 0); (true, 1793236243103340414126070225649795135369080081690096111000907629793505025084); (true, 7016253630151781588002278827377174690965977742435972636204466652513986808610); (false, 1); (true, 2411595352733617499697169254344826259840174598567644808208549653819047825033); (false, 1); (true, 3207033544951858009056158839448426862777054053470724359593166971849725668695); (false, 1); (true, 926824016018996741492745982727328680681246040877307214473319008780870580242); (false, 1); (true, 4925537360523802348250306482711578556825987725710529495005551291821681464755); (true, 191066610328982834746374093136655894302694606187925785179162474035355085257); (true, 1918499835427985255930231457452197729189608629537182893618618577797591965733); (true, 1446193768160321056192111508599465381382692018603290509655761719511908233866); (false, 0); (true, 4774714877260027565980190382735362296140544742120560639491632620593014551935); (false, 0); (true, 280756686968156704846712376861593597182343207525296121786755047172131683050); (false, 1); (true, 621363596808176124213104158369480103882669841277557863243014924301439452903); (true, 34478461010864486414164181832085669198682133974463180794621591967677196138); (false, 0); (true, 179378352939275221605994312316747492950830748011258065255282512451272883394); (true, 285723025640923301885847356341468650211489386115224850691140514402050808681); (false, 1); (true, 5949388472594630545332160709364568037935585371662691464790518652376255911686); (false, 0); (true, 2816144901988471980501553293330247335125447417726807094060981947543618246968); (false, 0); (true, 311086482016230172209207561675350120740479166990311197301052764926877404180); (false, 1); (true, 1847973793100450425306685491289018232128916502312144300991235504254063972150); (false, 0); (true, 3250769737430837463636531989155289931974283705300339131187315501167882311420); (true, 5278714859490606982664642978658975420830951120585002706238739648488892265624); (true, 1593702518527699478232578782661590362687633959821591661271486741547990292101); (true, 128840745678602467138405855220016468713737447078864761406083986047778074146); (false, 0); (true, 4475876704338027998624871007508736375267014706290404123615121281778687730852); (false, 0); (true, 3543305494050396454055854364688179089667019924342262674233141187569137097744); (false, 1); (true, 1574901285426116034546009205495524138297729754386896180622023468516931474427); (true, 26248399910395354020782229867858275012688375227454362187330713354291711956); (true, 364422211618788128063474633165984783730450506736363556350818604514357633358); (false, 0); (true, 6726550870117802156694097575714680960338312170546408278903856663146167036190); (false, 1); (true, 5274956502438914085126430047546154230856629617472875915491162854315762654924); (false, 1); (true, 658301527014451109829854691313452611944479704495209599478895788792184262840); (false, 0); (true, 1150454081586262386348676895878636628212008360850242589283252171461166809912); (true, 3658791868794606438832004976534700331706402582304141592319406032491091711080); (true, 3108661678164168520737337316080342443339194705485222457090404415035264810710); (false, 1); (true, 169500587358624656894155601945132501026775287867436996849383824928927785796); (false, 1); (true, 4933410984810495884900883310532892374241443273171199011340747346120503123476); (true, 4292283841332098468300782335984846195238332294480339033367574273681282083519); (true, 197819584378172438452565870086241223158391154858942676408286465143828491188); (true, 5440469437448230911896072281930518227346105790091361431547023767154123331177); (false, 0); (true, 1866205933956523713182962175897941732283868657505784705369032126012576891073); (false, 0); (true, 3228622979208686183000597426975356931540080634704279063592100865512016026700); (false, 1); (true, 4419649073775282851911850544639413680037464361129072120896031457692106535651); (true, 9859750200850392072067140964230658703600417092451912546770534483947423265); (false, 1); (true, 470548160643909450458293598069275604735388097348512698308837971800601431403); (false, 1); (true, 706090907097179247293550381561455402981165374157121861879889569193014078467); (false, 0); (true, 1070413730959455653525368758291795756660876345783129608640980765195155138145); (true, 6249819215630905349406226164217829607423219158099593993524621257906390544111); (false, 1); (true, 3058607878570191230669949440102892589465128853872380280159117960008522611124); (false, 1); (true, 1055406577588106149488332422191575682362953718313826929550497532631790678098); (true, 4549728475112306675750671765248159351632932704229414878699194522252394264835); (false, 1); (true, 2115616133945088716176048083183160267073797868878887239833124768577836567285); (true, 1472395895331971042961989665402837039929198251734146586546987691000124761101); (true, 6003901465870679390730458512419635627139022350360233728578549963586878628690); (true, 76386373446888563696907795802901235523895681745275726694886109721522686771); (true, 1690196543236141280905447628689239788262711520194952425797987134721873849448); (true, 1169685707078277049825647014580870589320017032034156495523015209584209846875); (false, 0); (true, 1763620430272933119788907965765088727970825150503388170313453066208922855059); (true, 414365743233742665779160911601057711009836395510202707265620284724117782459); (true, 156410995667804080878366343374135399268399252916009773516485698474564425901); (true, 6819939870496095005322925672944012605034545869269518985248606905161258078528); (false, 0); (true, 251292286585877793087818090015627266219856693543330817636923578853829306189); (false, 0); (true, 1278887699568307342878325088615588218130071876500727340002880261332004012282); (false, 0); (true, 251178990077172473357949892755059379440916442029337427493208113508133250603); (true, 5755300727473065329696992663537679875207143582674824096854580513059594407632); (false, 0); (true, 2929292582547065039428247276158744096043704361985568080709066210623969999095); (true, 87627377815189135763551196719921277597252160498296968966491051925211186307); (true, 5302371019342069018214281194594999684423831177585825109857029367229435994749); (true, 530195062247937653007778490372419798165590255380640687448639360228105147594); (false, 1); (true, 2152075528102047896035037974632440611038202141365445014781359757570724937172); (false, 1); (true, 5896016387889827810156885668389368292044113528660142563938624360774503829329); (true, 6520153892830588173530737001770380532660938236562706778405053278242355480181); (false, 1); (true, 1883363356155802282691409421920283036301105847505899145632917045284290179410); (true, 1209294805221729489259258784278661786725633062622095712627083604501905116778); (true, 2039806375805254549394386198168017080211824603363800363264229445800240052677); (false, 1); (true, 6808794005067893418001365792221646053845783182317500270155761809772783997243); (true, 245498340487866880215618429837366470631266417091779108350769242608455356508); (true, 5614238870948737033508195673741085500858327650494163497212370002494426763410); (true, 1127093156573295002655926506521868716692431339208030398154422406438156775148); (false, 0); (true, 1438097197205190575254445470863279863950619527388047697091426734385625251874); (false, 0); (true, 1059179582302475562269853740525530299192733803870415800758982067796915118219); (true, 4762683734647311768470264414843641555356801115116255477675990479296423951281); (true, 259557693181198369648738819077756535156996077178825429362156898588489999); (false, 1); (true, 204966443223482328464602730190048245463009713519627649140264438131951466846); (true, 660247428258664737497265892415661221428139336523939694372775909520031518); (false, 0); (true, 1683049208251838519838532484307973073636472740648728926789370215163127538291); (true, 1327258994940687635222443791810248971963657050120301012717179684397186149945); (false, 1); (true, 27763502303565549735555363852485162495366731108471674319496440843172763); (true, 2426625315568100738865681638335291178347260821598965599967635582388216765); (false, 0); (true, 5783462129015891955269966291299480499029544717905330632872867950894482422534); (true, 3635657979810006127563023890795605377791458167194151074125861847802556028610); (true, 4115143857856858895954791169584997590115918389407396703617622322036876786367); (false, 0); (true, 2481057857746939199964201523464926043590231971919656365295098640739305944251); (true, 1249793947744797067928801553195984031559706199141510056794080934292803457998); (true, 1754432258692898357239585418871764500034893269313110597920198388853503020434); (true, 1444442501200721247126845533749189300986483830306053656095124464167206734486); (false, 0); (true, 18507836594118180807166378055642526409990205611621147499734710271072611193); (true, 1936176173352267343520497200905905078743049758970125478992980689367857384192)].
Lemma l0_a_pow : chain_is 2 (7237005577332262213973186563042994240857116359379907606001950938285454250989) l0_a_chain 2975531125133123119648879457563281269120703404158613135195788908093573672641 ((7237005577332262213973186563042994240857116359379907606001950938285454250989 - 1) / 276602624281642239937218680557139826668747) = true. Proof. vm_compute. reflexivity. Qed.
Lemma l0_a_wit : witness (7237005577332262213973186563042994240857116359379907606001950938285454250989) 2 276602624281642239937218680557139826668747 2975531125133123119648879457563281269120703404158613135195788908093573672641 (2233364593245673852815932892735013076939656528578070433728021143254617821614) (-918259049265850385831298250211759012539362291049224222049079815310237912731) l0_a_chain. Proof. split; [exact l0_a_pow | split; vm_compute; reflexivity]. Qed.
Definition l0_c_chain : list (bool * Z) := [(true, 1223404539630009807858973194844854119292758895955338460353160652115163499815); (false, 2950630609315200156635995791006631173264635579114444112916093284879610847891); (true, 1856286147202703521034691658378133180412219648999977872421384837026664486073); (true, 1116541447138573496756244542216926257445550410337352191787132663081528161829); (true, 3660086999155556437614529174692523347860243788378017673436811818684835372196); (false, 1455947418345301871733398916909564663023258525876226553574842332744004745687); (true, 4869136380596723629135004668979497428744714294526662175829914325404308405951); (true, 7115386781748305648093708235180346537971055537505191784540631883845703375691); (false, 1956760476140756781517529249769589651691211580712135983716456791307300528921); (true, 1214039052984689120161175967410767924289395506614671308827570444955232533229); (false, 444636186195808290539046098917715609697945547648828256137957040746155910817); (true, 6530702796494380958036772092722183590660751575243958592314969107719368813924); (true, 6721202369087294405032056121383726858328735707533238205183036337879283474008); (true, 5324499420045156998937815870691559654624652383636624290799198693831305967708); (false, 169257173465119068552726357923900362362245009598167917209104531875413777980); (true, 3578812138602782999535417358287869221358346342637854340830147215186593678830); (false, 433403066834304461920113237363733046516246079516372744547254292667636100435); (true, 1921607463429967667809556145294639673072208594375451036803121489188086983621); (true, 7039334727651398084320707555840286361784151835339341365545283433050684519464); (false, 1249313971281574858224369898244785595293098543411208992184678776636401173639); (true, 778165359578714434273548313369262879810661403732346162124944537590559234300); (false, 293262105974217575909046638449185698712885393494889081049963404929596057431); (true, 5670013680068910529546471936793725106806887565411382451778453745208215496732); (false, 1050271205433894239619339188411900088901744847037056183486282938217147805454); (true, 3730851735695499161156490637513609263680659906795929367355643579423586477); (true, 1171837837672005611047987902738947141008388906493256583163207695295041008655); (true, 127353158257846666874704891410906382507371860790079466085049410317112444913); (false, 2521582522661894288489101702973715840448054958656599086818206908471941062199); (true, 1220795812665738752155885365755814834380326718577345897402649771801243444300); (true, 331700772061161309903980633540666086175995672423896207000459768887891395684); (false, 1765223341090369703120561515250582912516635859376231941540930141405120994307); (true, 2864260648891947982711390605243575784521789788377565065203964152685569232708); (true, 132894826212989146993827852965090392294583827621708960103714901598148968); (false, 1797038422849381950009214623223656474327355187426374546829584763698460088596); (true, 775591938918254885356852958274652143178079090497669291337663473478550438181); (false, 850918400322740583357818075603831626839659727632649862254428689308642027591); (true, 1293652609656569157818254235488014428462287207490244184663870945665019154895); (false, 1765367809847943896944512869579033661233184275462227010247546690925786619529); (true, 6431626729615867501659773433832380505736411321127867505449063357685952142070); (false, 2564196645737535952347229564610585653519325875885816416206595013348755799503); (true, 1053273780298014099459103631855690576668274396077016369518736536781949068068); (false, 742752116893378523348557365947068244961322961244379838852611912608335193772); (true, 755933679590923200887033011987710395872760216082926049791289029456494440696); (true, 1460105106922040506280355827651633562006011030731223608020648819616313143564); (false, 1031130926119054819274717623389352683541240922864480528931223990068074146931); (true, 131425882986506371543942433220121700446775961755452269854245865830429237934); (true, 7227091166527432233223905323099713756222008375846874575572412231713732760838); (false, 1920306785085999797723712429947018894850910842183295022508842571292133535032); (true, 248052765113680186288975291931189069818533107561330477003909656307178830960); (false, 954881374302915893203271672459983739490725410912065040194084263401176220985); (true, 2043850567172580605471271658559583074000740713189496632594737819431480671637); (false, 1603017405981677502722317162596630877424631718084466377005950725651491756023); (true, 3155253459778601996912076142123649843035912347955642230564362537576529457652); (true, 4135298359553468975073297255326008238741000191859994337324905737550950952932); (true, 2036184623466834588207301016058619848368236779177303026559188444695860941584); (true, 392637469913028535260627730986011382077298659467445801535194654383169889051); (true, 277429483005114365925915278671059940991942959864572907264496424678802935875); (false, 1755962103911605789471940488193323573747822235386999641253021632034232177949); (true, 716812601487722469902900389041882016895582883544412760554003577086253172289); (true, 7002741569978456782140403600207593719266526624225834163175131797119233603196); (false, 2930790513010813314490211422683089491067322790634491406664267762552290487810); (true, 5200112317338540982636670031215766069954188795339230590273917206478165979241); (true, 3922945487775645612285739257514774171796919289860372583771955937066707889348); (false, 2616611210778733905267125459646343383602540775377222459148977472808873811515); (true, 3549226212270068182703716758984459870079339640861338349672047624635202732240); (true, 408072970822675715363920531931217984721970428692002349462506451863086918317); (true, 6555031426920979465726890045551952640543792296000967222081559353160313609036); (false, 2382115781304370173954708708920410111468107001805138588304142021257367242736); (true, 4219541877838082121441762594916122368405195940579732129189064588038712902622); (true, 13562772700829398165733940107146954611386857527015993317465042557294529883); (false, 2390342585245126451841419983564017222873470126644338563103012418158808131967); (true, 2245960886253427914177941862208024733466472884531677566093728289676552224232); (false, 1446220746275499054008388679804918002107778371193354394604785105012087879977); (true, 6308009016525761942086344059659889438885383896634588053859806720120039198078); (true, 971991528850259774844494777839002903777600822289392452799716967879270120849); (false, 2097122791510168453906722284734879216724898078096091928875549095511671844373); (true, 29554363393458187230596082683604002135490111707584805840237313317021786071); (false, 2292053288884659595278156917276606095822471696025175970027577351909878331490); (true, 164810412761212920567031183820943993642608212077808652974193607012848354532); (false, 200550740487630734624233113501781553436111582644191885454669266598784197957); (true, 4061525880351888989423525878281173992431503158279923300122576676671856857862); (false, 1348900195640460989623342438537381671190863215446941998329134711199459460009); (true, 1463922013594510153256836476407375226542874484259252967283492368520753677706); (false, 12992168849565558306432591822028600970976230968176541621108036044532649558); (true, 232278544037743409402633742741489526635506798776761523179340927855640745345); (true, 3306378403655771368570170992535554617725090283218582325744078367960317885041); (true, 2562647436906956685481772205416967530020581316404415590476716690711726034938); (false, 257131587101974550921825637424301800794933683813534582401237609732613880377); (true, 901975484280853420466659436785117227143916469076913563689415826842162770529); (true, 243702776373862592870980370227237418415296797623640326153025887734745643408); (false, 1275595324739981723625458860392219693909346031302387647272630346964582290536); (true, 7033192208788082952306392398647388026080624450322344746904632466219176001430); (true, 4911033516764961113266410286131799797759606495754713068019023056507557161); (true, 4893413698050407829693401786172295903062401536081605471681103168965875794883); (false, 1198922422944418156918761443201619353299507877484854805758084124950882995364); (true, 23435122679320949360032882842855799009646141289690389997686380518512558229); (true, 7000093461886419640176658148028078817316447188587050307166264379662373591808); (true, 2199784689600125831495361533266038260089526768351229912636378657013665269311); (true, 1683389329714183580856839896279892454157958933544997528472817327112424247733); (true, 4622450692561054284216455634890906763871886167750683710024552198053614380563); (false, 1410902926263651918011343675203261905740915687941146206665237661512708357299); (true, 4743170010238900078109534198849891174957950081700059865654062636770547838132); (false, 224011698981942503253100991701791114713996889238774169234545070040356014459); (true, 113783618144087758657517933966341358615944850423026699782277667473129801391); (false, 2360472413312971884797971463864395028633707268573079355349655399688377814431); (true, 162381274001170965000799845407059922472698293384654856034619275644273123); (true, 378759355826820878345594724893836547824432546788591241395301222550484837092); (false, 1477429541754890596671988771265412914184698541558314076297453495415226016100); (true, 1690435814656691752178263479085687735226667816694678913231933021419754456663); (false, 2787878214588666193688619075768267382879358540957400378138606579809984202416); (true, 78463475043923782534844077036689421531659785746239363313539174710944100870); (true, 1403740494443339521931383484931413403334594172970454987664212240344266189212); (false, 2268599530604482661409537892344832121475043666727481994807810085115054082590); (true, 3202886379035659538757641351662940643453922475366219949285154581033983141856); (false, 2263542309888880511269557329367090766386647264230844666447528775496142743705); (true, 2601643953146822065534255971417295554936534287828202089982707621368655699635); (true, 4806331542610083820294542803007300119364608280262223087347577218968103422828); (true, 1268286804859673322241953301279363247926243814760452701159782607667596706792); (false, 300940083144908664242012244011906535427512079416916414125664776989084712006); (true, 2928342269768091857911491082063853075707128436190290350696146447997347381); (false, 835293411480782245517016289086106948188012048199305953045673548804180300299); (true, 83261373337687788258180292530069219217750505721482302410899607121071244211); (false, 2095056066857545852552301342001086044442929029972314451749754023261486382582); (true, 5554094931552227014700953559143957228892273437533817695215083305708434610401); (false, 1261070175135266861213003424608083398474037115359390105079202267119173807737); (true, 4852523861939150593210148982216968290003961049250626113387775977507386756413); (false, 2146247912105872428300654121391408464093896113845937896347157663135372760020); (true, 369269204574626169558874201713370662029397660654686131690160488877649013732); (false, 1872967844194496621813355482280739265029030867173720159920856887147072907202); (true, 227818650220237476474932432871507340573256914757070800796703889768355180757); (true, 3348831956395746618902778970989580580094998123205621462881804491978916544040); (false, 734704129051530582943857168117510610199005077299032593486396506566630090246); (true, 1115904923750968676757609721206614093961895383549915991110743907962918343654); (true, 4993561081924680758393833957457281075002495617837147344680136378595765843260); (false, 2880311894307979547004993429396631737687268459139407493263096641178650056203); (true, 43987384000690358115295820233127612029959401859484029928307500708485305927); (true, 663714775461865693589859064882312661038088246100156288787954061756344261347); (true, 1756800226375299681218827716875725276858980307439289960805619425854129218); (false, 1628488877743984856746515197815719372008690112158712499982150238244929680809); (true, 22211978213233168377843656586448773692155270275184065200929908852671626978); (false, 27315349616908230453089543643930833119782164721930728053639715722299705996); (true, 3668434888821424615769565064967887932506987442403155565906095170844044547799); (true, 2837048003093520140675140289243782963870674227291209946252968774290733373982); (false, 1835918570512017199587110809351066606809238299481217647639088222571432076548); (true, 4230891320197833998699652438562182395906583202334592693836647070633598449406); (false, 2011452839723148844607524273460510199749263602941777005244421412666702623087); (true, 6583435280061297218199427945101793812879190574866739891887062194290211146950); (false, 203988975118195261213942418643563685705929909077714876549245229401979492674); (true, 2025345983609897847431867966520685433503362266568876651933242385341722155066); (true, 213565599654751964309269431024550137844597512956908796027986471929634488461); (true, 353567306279545881068960754961806232935018973220824130962068308253273561753); (true, 1201950210391243580314786332575322805837079904720168831627650435218909882187); (true, 3319694814746175231177657945279081277758448209010645936447652082816322285667); (true, 624188804944949486659628520052471236117362367496213899493063456861430036); (true, 3244303460326191365174734838489984489350432809122442799626763639539763437289); (true, 1278070929792543231612339571130584395270105985319498184445818563483003912526); (false, 503619345081667137963542561667928968120330668000429308670877229295982128933); (true, 1111383959729686782390576197985057414539061550691511905939602168676117127034); (false, 2924564448163507170490128286716335903469814198610004050473140831485557243175); (true, 1403600772300434067651331196903265546646486090538217246660418379142847340065); (true, 5978130955601478783350093657266379622103444457909005093930741886587625001864); (true, 796735531738503517008247961672553609737038548383838612763795957915124714588); (false, 1783644772387480017832262591223744411649380084428996886835548810732101908408); (true, 5233621513625983521000447087253254346433962791098202422540445776612972272235); (true, 204006419436186595076679944825506192833000811534589351921780910103392679192); (false, 542301126335997824612887692652653458586505642340463302660554185310935285539); (true, 2470636584016230770986975666986549136313990552616330985476267005807380263656); (true, 333632536907829373715408651470701434907608281471735505168270433490515253519); (false, 1074097387289399424478748164011774699952899958576248814797851921268567889337); (true, 533269740462918414358978448761478375767783079223030433681294045046662561746); (true, 517299869452827507828137990769223750235107460725218299404166889575616354437); (false, 2129598772347324175047691267240709987058296840250105154125716065239027800179); (true, 4035238093240688757490506925442918209422568978588489427198800436358936909177); (true, 5194812793040263803473777140817707778818721531596585927271307520181466670769); (false, 1499403744144367243076740460438240512015709714126374326016264204854760627831); (true, 1147881349716991231887518784090801767248277123871736499868452187191129614917); (true, 944847255702453138801855289985086600956375867374703496239383793673596996); (true, 1006235325650259946655448096362251267286747286524007187597433413675101520515); (true, 2005255856234549515034305136219826217657032534715044157850183821699941420611); (true, 4993809532328126882956497807537129409706806174203812216103159017646536635907); (true, 1338953585564126970176207371512957167638718721556232504637384575879589283011); (true, 3606608262782617440606597996816618318888114769297131269679933842936027845873); (false, 2654756300776392190344079532113705251757516344985731391928143936441880214086); (true, 2275131161070513957636305505667115368575773246239771793642918876077463822925); (true, 467378890769473938729038612389148494797254312103987659080013923691875517781); (false, 933765342344097441794358727329134131262092218572796654301813637574270743795); (true, 765759301451981868312941533979193381935403726090464385203877873988746230634); (false, 2584553683539188530365419335307724550426143975863932613899432005948984027312); (true, 3344814982485563482520108453825016238102694867728723306590383908164246789163); (false, 1433245314329216646502167480452124462019916221725967006706894837933977016141); (true, 6909644799187711837033311224625183244956172886381278218875354076725916122253); (true, 6835072797343370630124725612054760370308744864262326335113264698080281412993); (false, 937340029498349846596036888649386686080136959028556445081542442119406939998); (true, 79055331879187261091625398311235219050493237426898181612269428247626166554); (true, 6421677783251102935587331043824533250787522236349206071844726029880569359135); (true, 44850210931177579246502581096191950993781448750499622401647555724947963229); (false, 2196879275516554895779862724881536510138151869642877829701185170776805850911); (true, 4374244941148981042470161168300696943075354702777507525224179255421931779062); (false, 2241662186192365747043410470374768604885251823886478809845540226861553159687); (true, 1948098209476901246078112880231140588645122737065704820849403535937283519705); (true, 760933587440885121113167154250681117627777318943987482296345740896948168551); (true, 7023131375178362863617492813438442484180127481549223060804029929320282760271); (false, 839697585206345607903894968530188674654541713968279747918674875219375638223); (true, 66589938648558040103527670392804443900014007710180134158821716605869205); (true, 5405222262501548546982559515287274332423644664359568939182196905995237071508); (false, 1414448193710626396890639380350061420408663026374783804155008715877024319677); (true, 3948208832478625375979463428360242461822876106420698538496777143924201414509); (false, 1730189174056104906699523451970072862598717920228546014040616636588761503547)].
Lemma l0_fermat : 2 ^ (7237005577332262213973186563042994240857116359379907606001950938285454250989 - 1) mod 7237005577332262213973186563042994240857116359379907606001950938285454250989 = 1.
Proof. apply (fermat_from _ _ 276602624281642239937218680557139826668747 2975531125133123119648879457563281269120703404158613135195788908093573672641 l0_a_chain l0_c_chain); [reflexivity | reflexivity | exact l0_a_pow | vm_compute; reflexivity | vm_compute; reflexivity]. Qed.
Lemma prime_l0 : prime 7237005577332262213973186563042994240857116359379907606001950938285454250989.
Proof. eapply pocklington1; [reflexivity | exact prime_l1 | exact l0_fermat | exact l0_a_wit | reflexivity]. Qed.
Theorem prime_ell : prime ell. Proof. exact prime_l0. Qed.

#[local] Opaque zmul.
Lemma base_nonzero : base_point <> pzero.
Proof. intros E. assert (X : fval (px base_point) = 0) by (rewrite E; reflexivity). revert X. vm_compute. discriminate. Qed.
(** The multiples of the base point repeat exactly with period ell. *)
Theorem base_order n : zmul n base_point = pzero <-> (ell | n).
Proof.
  split.
  - intros H. destruct (Zdivide_dec ell n) as [D | D]; [exact D |]. exfalso. apply base_nonzero. pose proof (prime_rel_prime ell prime_ell n D) as R. destruct (rel_prime_bezout _ _ R) as [u v E].
    rewrite <- (zmul_1 base_point), <- E. rewrite zmul_add, !zmul_mul by exact base_on. rewrite H, ell_base. rewrite <- (zmul_0 base_point), <- !zmul_mul, !Z.mul_0_r, zmul_0 by exact base_on. exact (padd_0_r pzero).
  - intros [k ->]. rewrite zmul_mul by exact base_on. rewrite ell_base. rewrite <- (zmul_0 base_point), <- zmul_mul, Z.mul_0_r by exact base_on. reflexivity.
Qed.
Theorem base_mult_eq n m : zmul n base_point = zmul m base_point <-> n mod ell = m mod ell.
Proof.
  assert (E0 : 0 < ell) by (unfold ell; lia). split; intros H.
  - assert (Q : zmul (n - m) base_point = pzero). { replace (n - m) with (n + - m) by ring. rewrite zmul_add by exact base_on. rewrite H, zmul_opp. apply padd_neg_r. apply zmul_on. exact base_on. }
    apply base_order in Q. destruct Q as [k Q]. replace n with (m + k * ell) by lia. apply Z.mod_add. lia.
  - rewrite <- (zmul_mod n ell), <- (zmul_mod m ell) by (try exact base_on; try exact ell_base; lia). rewrite H. reflexivity.
Qed.
