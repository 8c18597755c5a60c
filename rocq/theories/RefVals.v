(** Reference values, copied from the self-check files of /repo/src (generated by a script from
    the text; see the line ranges at each table). *)
From Coq Require Import NArith List Strings.Byte.
From Verif Require Import Bytes.
Import ListNotations.
Local Open Scope N_scope.

(** src/t1ha_selfcheck.c:47-53 *)
Definition t1ha_test_pattern : list byte :=
  map n2b [0; 1; 2; 3; 4; 5; 6; 7; 255; 127; 63; 31; 15; 8; 16; 32; 64; 128; 254; 252; 248; 240; 224; 192; 253; 251; 247; 239; 223; 191; 85; 170; 11; 17; 19; 23; 29; 37; 42; 43; 97; 98; 99; 100; 101; 102; 103; 104; 105; 106; 107; 108; 109; 110; 111; 112; 113; 114; 115; 116; 117; 118; 119; 120].

(** src/t1ha0_selfcheck.c:51-72 *)
Definition t1ha_refval_32le : list N :=
  [ 0; 14493192460000208142; 4463407302174426179; 10848891596636781491;
    9631787077437388559; 7407545881165219798; 15972642529870332454; 3861147458999196812;
    10114351047668293774; 4653589952972028011; 1158820015830392653; 4166419617953784592;
    9148252748596692932; 438601308073570717; 16296779515371024191; 15142240264100569333;
    16874564012319092628; 10182509601132619214; 4914411919466922508; 10706055901437605783;
    10874445677029626060; 7997189851811116808; 4400837082402753468; 6748505426382957640;
    18035317410335555090; 9355648019273747240; 6279580304760715329; 6673186079112961746;
    6314083386541689651; 13414556311523039672; 16542607895288946490; 846983859724643269;
    11809162382844831903; 9709124207352100343; 11637465310336625372; 8652199475274727464;
    3495749890587620459; 8646518318964275545; 10546361651134771683; 14815817637365165584;
    8990565248177327507; 9911054271777490469; 15556530146948756102; 4138611095504252004;
    8361692346984156575; 6976410047707722529; 13755021071558017496; 13001963116726305630;
    1868585010844482815; 6767947915877635524; 8708855765356273437; 7287088117895141406;
    8631976985925435260; 723355694141029542; 18256918727641512085; 14336644101257790389;
    9536543402436503850; 11179367974937991188; 8031372749306737132; 10264116528578612874;
    9572694505524964696; 8773710349836260429; 16633727895283434570; 5887897840635059364;
    7678684818779452304; 10196024117129059715; 14923325807050354756; 17222578872280123121;
    9912805194016219919; 6424581710849625215; 12156781728469897669; 2451376705843923749;
    7957126074394077166; 10923701454436493382; 9290681445161898570; 18222793762237252228;
    4616443836415376437; 16961820195349388414; 15227881773000026375; 13080901369856552972;
    11862129318115506764 ].

(** src/t1ha0_selfcheck.c:74-95 *)
Definition t1ha_refval_32be : list N :=
  [ 0; 14493192460000208142; 1144497471948881423; 10848891596636781491;
    16623115169871500203; 12265421130409288552; 499461965177745209; 7010327477282563659;
    9712174366629451781; 9473856018175402060; 2627351925011585632; 11311289965504777464;
    18429172517347125508; 668069564463572469; 13527353023726904593; 3943116766486393865;
    12253072630189106384; 18012248925902136915; 4242196776366933934; 12261629812085004922;
    17405100014607494840; 235144644666806108; 12551115549892087391; 11947662507895449016;
    6796106821813312267; 16360754293239790546; 13491100950567391742; 12700772070881337997;
    9746469464687906351; 671184119505877496; 17639819377981697701; 8356914776857932454;
    6161843630578224591; 780470028699506714; 6790612228784638571; 7288111529175261784;
    17269135247052130737; 9344174439611870252; 1441376940797916247; 6235476069101176334;
    7479374032271421607; 758045349236579945; 3359685371041888519; 12580654924287823918;
    13882745415152984860; 12192161039283374320; 8050990891663745345; 13245814319626456250;
    7881603195822031695; 17705501280658095079; 4359718657804098996; 12416998995706246701;
    15061478992732174694; 7071877277629998944; 924763914025551405; 6609371333679157174;
    6894369527577818386; 14454244601686685132; 17411079915854219707; 3106792307145275830;
    14330185795805571923; 16619409797023439772; 7265285820590488537; 10447989440648488344;
    17022381671734443851; 3540331699013753641; 4269910337107947201; 13008522027924516214;
    6681178933644714724; 11108027586790102815; 3449753395840893514; 17675036309835392955;
    6879501241922842681; 13311116061030161594; 1377083250239833795; 9561694301375774119;
    16810838484695874562; 16864002306897845470; 14755710258865162067; 9905615725526713897;
    8839043676914421854 ].

(** src/t1ha0_selfcheck.c:98-119 *)
Definition t1ha_refval_ia32aes_a : list N :=
  [ 0; 8587365109531344706; 12840233566937490357; 8211996563828176178;
    6149763574310237792; 16827709842293114406; 3364628378964704009; 8907513762941082759;
    16334911112290292058; 1838848640912162672; 638692777144110969; 5513426692110734672;
    10582592370691379325; 15455165334169552201; 17773887373210023531; 7940234740944331358;
    3955035083443995805; 5732606989912063839; 282333365204386207; 7163669452563116242;
    4242170404710191432; 10579409285866572226; 2899870610817140019; 18051457173320149508;
    10119307122046686092; 8891988918327030562; 5850704931332006911; 7951667342000834473;
    13415188003954063280; 12236930906937264683; 2511623014923364497; 8905832838314096357;
    14238339115466110201; 12850483038911985063; 7410575589795385523; 13489625192521438674;
    9171265734610933421; 5414920709348967860; 8793959754133282217; 729396113415058510;
    10323686934512161348; 7083420303813509287; 710938404218330149; 4473577898419561142;
    10831614142386910081; 5849710033065278448; 1923706551081938460; 7464557033915202493;
    434515669034533206; 9110795147724641134; 477479253124623283; 6330463643127551791;
    1266560931289888743; 13947018111945278164; 11492284726281039639; 14161523682109202746;
    13146448099235786952; 11906860321512405413; 9084622593977196243; 9189970721227737227;
    3312368528856528959; 17304914692080800949; 11220910627947415874; 10573952425895913470;
    10920223263057181991; 17100501939659976321; 11389772473509444515; 16128979876470319526;
    2126367587917262292; 4585724040340787918; 17187134562058497868; 3045385441262844907;
    2514331893347084034; 27876396604432661; 7805215675860538420; 13473395359276458820;
    18397942345050932400; 1337827352893876335; 12083391276071244222; 12597642984977902931;
    18191116895422365382 ].

(** src/t1ha0_selfcheck.c:121-142 *)
Definition t1ha_refval_ia32aes_b : list N :=
  [ 0; 8587365109531344706; 4870913659611051818; 8211996563828176178;
    6149763574310237792; 16827709842293114406; 3364628378964704009; 8907513762941082759;
    16334911112290292058; 1838848640912162672; 638692777144110969; 5513426692110734672;
    10582592370691379325; 15455165334169552201; 17773887373210023531; 7940234740944331358;
    3955035083443995805; 5732606989912063839; 282333365204386207; 7163669452563116242;
    4242170404710191432; 10579409285866572226; 2899870610817140019; 18051457173320149508;
    10119307122046686092; 8891988918327030562; 5850704931332006911; 7951667342000834473;
    13415188003954063280; 12236930906937264683; 2511623014923364497; 8905832838314096357;
    14238339115466110201; 12850483038911985063; 7410575589795385523; 16722138707440607514;
    5194049995916854164; 11289295205370623632; 941255779870408977; 16835421834590801240;
    14380630081822104956; 14089259234879268296; 5947297896592110797; 549949903909737331;
    2484721937209551341; 6485112491944689860; 696745465398275340; 13861926061507576600;
    8885802321230415457; 873541970740962769; 1023342377824476074; 17709208276238498862;
    1599498978783038097; 11809451739336055385; 1601846728095111352; 1797356584947021739;
    10543176223247387461; 8915914577473635300; 4443445554279660936; 11711655737286645468;
    13578630541699965937; 11809704897845343175; 8331170417913657847; 4808634255234071750;
    5763323098828172434; 3060646925149090118; 13693762407637487263; 6094552224925917816;
    3971396830341613314; 15800131436107828391; 16746968411556612919; 157140753153170091;
    1259540838265152813; 11772695378018603080; 2845348198973455834; 12681176623199521421;
    9497099828897586087; 11859249038174683180; 18189366946825456191; 5680875576061458343;
    7136257971813265048 ].

(** src/t1ha1_selfcheck.c:51-72 *)
Definition t1ha_refval_64le : list N :=
  [ 0; 7662881813307885172; 11744983530009856121; 16405377621421248547;
    7706158177029018690; 12922373614085102978; 785663083534956480; 6841635720217643329;
    11202791189195960115; 7607629943458295920; 17431567122534198348; 5629137847918560576;
    6907807463000261860; 6165747603044840481; 4035563733276551485; 11306078604917824228;
    3843533821043193552; 17737235782786893470; 9592364187604053396; 17097422182260835989;
    15890830334595355564; 2695904950615179983; 17946483608282366137; 7556941913258265164;
    10722127229267812660; 17711544537348153170; 4673542296708906407; 578594199746335430;
    16568600134971065485; 7197279102514927946; 2316511808530287962; 12493302793276314337;
    3058465252033819319; 9953100974115726664; 849995048443938894; 1009524457987354285;
    13719893914674706068; 12686160841498288852; 6653151343700086402; 1018579219681917892;
    101058226704398413; 11024836058970887662; 10059617304433329199; 7684669872746792292;
    12307870563223214607; 1871268823763100205; 9284938354590133369; 8165606946484502342;
    15634821832243849535; 7795666788445836194; 6574799084364618968; 755603563735248871;
    12049226323200252212; 5601751947978638845; 2663344627250900404; 4488667546877744694;
    9557105562359992889; 3863110107466190797; 14932311242193092901; 13906942995885673591;
    6818208578359924332; 1675973834967917158; 12072737018606248141; 8933785056343851846;
    7240730539142140481; 239504441874785326; 8017247848588774968; 858970711643202490;
    10550232025805411869; 2065030182122946668; 8911820642628172637; 12494211171320155933;
    12717973476621135795; 12907809593047886684; 15352514024893700164; 2160950574411670297;
    16118008334924086904; 12060705063865813790; 4741450707395825379; 17747893963002724147;
    18419682451956609130 ].

(** src/t1ha1_selfcheck.c:74-95 *)
Definition t1ha_refval_64be : list N :=
  [ 0; 7662881813307885172; 16054373184710607223; 16405377621421248547;
    16429688408171542889; 7483607840427054307; 1226710185376456819; 6125803354538671035;
    2957224137434613179; 11638076754086196554; 1404370757066626106; 17785478661437308636;
    4135499279922029748; 2497280162428392793; 6574528605944231943; 6261120630559882248;
    11403743061226260352; 14821513978774761429; 15398871790276258111; 16571993804909745986;
    6717466425049665341; 14467865871620543078; 12438980708045141395; 14652467858388096597;
    9091313779837729941; 14260933877147757405; 5532620268092011793; 9477226423236902547;
    17399263330472637578; 17833946627430829197; 13391680972932758206; 18306777525587136489;
    13015321805973419365; 1672864922977046670; 11780431170435588842; 13924961772667341678;
    866085045953185406; 8550588660340279662; 2321751882041700689; 14889356851957032059;
    7441746953901246884; 17316683555291561783; 9885306491911227720; 5573124331285023282;
    1908676582959317222; 8985528372941438892; 1404225872005775935; 13293947648578810470;
    3689744343669861687; 6683574709765127175; 5372600435915449583; 16729198493037624314;
    4080748083039183841; 8633848821098312574; 18088554432576347942; 14457145854013108925;
    6852812241721335898; 2790111503068084140; 8423333588535550968; 16847421826522043580;
    2995900495762782696; 18243285597964068834; 9602325223303603466; 16610294060101402597;
    2852780548357165354; 14521458575285508777; 3714938333445849638; 18188733074427664390;
    9904482853629830412; 11271744255882407538; 2215524310017273208; 9271064777727490137;
    7709354048321831419; 14078089893118295791; 6436381137534798874; 1543009553186836385;
    15722832132952889593; 17302338656016160352; 8528169676044415365; 14909541860962759663;
    6985209078441172527 ].

(** src/t1ha2_selfcheck.c:51-72 *)
Definition t1ha_refval_2atonce : list N :=
  [ 0; 8587365109531344706; 4919993280392887811; 8211996563828176178;
    6149763574310237792; 16827709842293114406; 3364628378964704009; 8907513762941082759;
    16334911112290292058; 1838848640912162672; 638692777144110969; 5513426692110734672;
    10582592370691379325; 15455165334169552201; 17773887373210023531; 7940234740944331358;
    3955035083443995805; 5732606989912063839; 282333365204386207; 7163669452563116242;
    4242170404710191432; 10579409285866572226; 2899870610817140019; 18051457173320149508;
    10119307122046686092; 8891988918327030562; 5850704931332006911; 7951667342000834473;
    13415188003954063280; 12236930906937264683; 2511623014923364497; 8905832838314096357;
    14238339115466110201; 12850483038911985063; 7410575589795385523; 2713172607390835363;
    10454389574461462954; 6629407187089329740; 1689776602685460008; 18442300823615829051;
    18304694762612846878; 4005710469106233641; 7853400347192885079; 16148168667224519649;
    12564134218199447526; 2978733110941318202; 8554244584753714014; 12783478637941107479;
    3438127950018894554; 2953071917902824757; 17016726206630150577; 1607656061356615861;
    13169423262134139053; 9182618708970328196; 10727201993508800723; 11057316484618738159;
    8022220428029123927; 10924327422006382092; 17857348427511874996; 7272665222543342610;
    1245401315809168354; 2689807712849540516; 10043938886416931187; 4632569127280047814;
    14239746433246874966; 260403689172212012; 6609957025371061638; 4747658380280127322;
    15224297381275429199; 17100799304313658623; 8821370843411175545; 2448611605801085144;
    1846957908137900205; 8034505652811373246; 3047781366395943553; 11995597942591474656;
    5834313582105554777; 1141634168311407698; 6535200332675925220; 17576846593941124293;
    14354855677594572285 ].

(** src/t1ha2_selfcheck.c:74-95 *)
Definition t1ha_refval_2atonce128 : list N :=
  [ 5676777041944621066; 13238325219434531870; 3632526106215795318; 7799890091913133052;
    13877549678295544233; 8779960666838443121; 14907003252066046233; 18087810685012145343;
    13638033169977473778; 3989066664468612241; 12027509499626615807; 16187633538494672351;
    16229823959678351511; 17323591048605788688; 8484466865866388986; 4003457046028189829;
    11273195708443594123; 8211771904982841224; 8834690567225397097; 18395436245573397857;
    14747861669860984499; 14373389773173281453; 8878718417278534773; 7287034923705806182;
    2612449577837752935; 12039712159439844467; 11162333066330176871; 15204127803811436186;
    8722233599609375931; 11587814329862828461; 12180042259207672001; 1929704082043804640;
    15364089677196302884; 16524392704553646321; 13975062857019891533; 7840477776469533682;
    2319619353674702664; 2923406955261178234; 539137791773361337; 11473346921880819540;
    5850134201093508339; 17643273876451172116; 2927558878116853304; 10701762931834613788;
    15051700138878356049; 10359024923832823458; 10302110050607101438; 6910392418172562240;
    11802909397030681940; 12160775475947089948; 7088278636461496051; 1923705821045406405;
    15999469045441703698; 5406592832256898596; 5384225176094343853; 10574833054621268698;
    18386254263292655065; 447599591387415333; 7381701801282248793; 5464561617593515389;
    17460785967001113800; 2415472887370770044; 12663767024568033832; 8091055441506467179;
    5796429696559507796; 9699194353680345663; 6503668168730818697; 12070059883164381576;
    2423974327357089206; 1185051541552302914; 7109040761697663409; 3104643800339869143;
    7005688771797342786; 5603508650304215983; 14414819870962166019; 4485262975761738119;
    10346935298302270640; 5519028535642967745; 17224629236118654119; 6893871026815298299;
    3699326455242701812 ].

(** src/t1ha2_selfcheck.c:97-118 *)
Definition t1ha_refval_2stream : list N :=
  [ 4360653096619349510; 18263431781140391447; 17599473392076063878; 9813269592172045243;
    1919322698621271371; 17182740197752733397; 15339864121849078291; 11572923967006414427;
    15310868133011123358; 12432344841278254609; 10734365825385820740; 1659458938599508274;
    10236195282743752688; 11516365242891923986; 11125640468017435687; 15218651404640838327;
    11111996595525587295; 8306181976776986307; 13728678919427051160; 7300455935213654897;
    2912195200490527226; 13267316051948622701; 3241947308410826374; 12872849865630887994;
    15159279778555823669; 11767174008435551642; 95103443316536037; 10544236153677769653;
    1209557465464167467; 15558904959958278774; 11745246592353398781; 13049210391038381192;
    1072864668759407359; 4218548214432905372; 17016574534235021565; 7014752221004007294;
    18037408113848774988; 3025759483947185013; 14102568161044147930; 1813748823250794787;
    7861379852106748847; 9182652972315167262; 7635845557712514504; 15056168452240909750;
    7115937549835870195; 6306845200691836733; 10973251715296780599; 16125426221750473994;
    11138402234698990889; 9400917111206990376; 11867931700542029995; 4439620529731515474;
    4774307811523503743; 7282220643887700306; 8659826886207582689; 5669545265544707605;
    4669656257812292407; 12503128551246012786; 894043257145237863; 9087032897614780444;
    4556151998570005185; 14260047223263591876; 18415901488003044700; 242348202477383835;
    9939561708702538653; 10304052277305845592; 10039839021137528991; 14322838770869226852;
    13670440293389486394; 16894895984601881814; 8368068225828170105; 7860220420549567805;
    16825447741466139714; 14581310002872777690; 15966044757713850030; 7414596781033901042;
    15334645968093600507; 8263568395880036023; 13267722298875736801; 4060125587322446969;
    227794777301478182 ].

(** src/t1ha2_selfcheck.c:120-141 *)
Definition t1ha_refval_2stream128 : list N :=
  [ 14783067785699407830; 1217331427669005421; 10448474605565103366; 15462296455089427439;
    2655825736190162138; 4560730110827291682; 13831218057919546779; 11626020530830435657;
    15273383281829860377; 1077442055190287733; 5095744442782939931; 17159535118031860361;
    6245779032200784316; 11310453029104669806; 12629727537298192691; 6007693878566164151;
    2237229091655442728; 1750018345300092663; 4027906589626879153; 7884728254801839881;
    5708847525814551011; 12763136399873990934; 5242096282165905307; 16263844728697207504;
    9354806868860679073; 17784752796456338588; 14448888745787528451; 8150074328064960953;
    2189102114139376797; 3867251927966139739; 3742626989551718775; 16533618543597430556;
    7873523065210681170; 15345442210819918216; 15411986463753487522; 6581082999683593466;
    9177620767936194712; 12563474748900258758; 255803030617076739; 15714801830990746296;
    7651610796328734251; 15859481995955121696; 10115863741119318500; 6825123972443315403;
    13230722309333051405; 16032722553238867923; 9329366160688831750; 7670312675331359760;
    7835818266325553427; 7505735055492190536; 18049936368962657222; 2516816786254346825;
    1581123204143212189; 3359884096316232472; 16134269294251103491; 7731577432055237305;
    13973906309412967706; 3826117929663740057; 8887462505701555518; 8159047207962857469;
    16804759360651407347; 10948669824341510022; 13598909124404797329; 916290649444349721;
    13697145473290987689; 8678135865196336811; 13235979194098876024; 2780047530367275054;
    5527203731589357748; 9479252167239145159; 8130872124892411901; 17574174372455776486;
    11231811614418173815; 7653620822690712148; 9766565147933763567; 173537386008764590;
    15385223465782332994; 10666208787180675677; 3885243127312251318; 5247834216092309420;
    7676346086861355738 ].
