(* The data file data/nist/compounds.json.gz of the Gibbs energies of formation that
   entries/nist.py:19 reads, written out in the order of the file: the formula, its
   number of atoms (counted from the formula, not in the file), and the energies of one formula
   unit at 300, 400, 500, ... K in millionths of an eV. Simplification: the file has about 16
   decimals, here they are rounded to six. *)
From Coq Require Import String.
From Verif Require Import Prelude.
Open Scope string_scope.
Open Scope Z_scope.
Open Scope list_scope.

Definition nist_1 : list (string * Z * list Z) := [
  ("Al2O", 3, [-1794543; -1889314; -1981048; -2070222; -2157043; -2241564; -2323732; -2387669; -2441543; -2493509; -2543734; -2592353; -2639469; -2685196; -2729618; -2772795; -2814802; -2855689]);
  ("Al2O3", 5, [-16393128; -16066964; -15740407; -15414979; -15090992; -14768373; -14446842; -14110304; -13766718; -13424096; -13082448; -12741764; -12402064; -12063329; -11725537; -11388687; -11052729; -10717653]);
  ("Al2S3", 5, [-6635922; -6594206; -6529792; -6455149; -6374359; -6289186; -6166960; -5874407; -5575388; -5277881; -4981836; -4687211; -4393923]);
  ("Al2SiO5", 8, [-25325794; -24810741; -24295430; -23782149; -23271315; -22762771; -22256197; -21735485; -21208556; -20683419; -20160054; -19638472; -19118673; -18600635; -18079727; -17534431; -16991001; -16449479]);
  ("Al4C3", 7, [-2106839; -2063475; -2019934; -1976291; -1932139; -1886971; -1840249; -1759895; -1661973; -1562611; -1461974; -1360197; -1257373; -1153616; -1048999; -943584; -837433; -730598]);
  ("Al6Si2O13", 21, [-66740224; -65422666; -64103159; -62787881; -61478604; -60175328; -58877286; -57536107; -56175506; -54819269; -53467260; -52119355; -50775441; -49435371; -48089716; -46695296; -45304535; -43917360]);
  ("AlBO2", 4, [-5705563; -5735039; -5761426; -5785295; -5806977; -5826670; -5844434; -5852445; -5854840; -5855741; -5855275; -5853534; -5850601; -5846527; -5841366; -5835189; -5828007; -5819871]);
  ("AlBr", 2, [-255707; -361744; -450483; -537439; -622779; -706564; -788804; -861603; -929084; -995343; -1060483; -1124606; -1187766; -1250056; -1311505; -1372178; -1432104; -1491336]);
  ("AlBr3", 4, [-5061641; -4897222; -4719444; -4581071; -4458497; -4336603; -4215134; -4085974; -3953063; -3820359; -3687852; -3555510; -3423324; -3291278; -3159351; -3027533; -2895798; -2764136]);
  ("AlC", 2, [6557403; 6361321; 6166162; 5972329; 5780041; 5589442; 5400636; 5221572; 5048178; 4876359; 4706022; 4537074; 4369432; 4203034; 4037806; 3873699; 3710658; 3548634]);
  ("AlCl", 2, [-807439; -897660; -985912; -1072412; -1157285; -1240614; -1322409; -1394772; -1461798; -1527621; -1592336; -1656024; -1718759; -1780623; -1841659; -1901917; -1961439; -2020266]);
  ("AlCl2", 3, [-3023756; -3062124; -3098669; -3133648; -3167218; -3199399; -3230212; -3251718; -3268031; -3283236; -3297424; -3310670; -3323045; -3334601; -3345380; -3355444; -3364802; -3373508]);
  ("AlCl2F", 4, [-8067259; -8023657; -7978997; -7933571; -7887481; -7840738; -7793249; -7737064; -7676226; -7614776; -7552767; -7490239; -7427245; -7363784; -7299909; -7235620; -7170936; -7105880]);
  ("AlCl3", 4, [-6524817; -6264829; -6067939; -5941283; -5815518; -5690410; -5565708; -5433309; -5297159; -5161221; -5025480; -4889915; -4754517; -4619263; -4484154; -4349165; -4214289; -4079512]);
  ("AlClF", 3, [-5203217; -5245120; -5284939; -5323049; -5359635; -5394790; -5428526; -5452923; -5472087; -5490121; -5507108; -5523131; -5538263; -5552545; -5566029; -5578766; -5590789; -5602128]);
  ("AlClF2", 4, [-10216167; -10168719; -10119821; -10069937; -10019235; -9967777; -9915499; -9854464; -9788734; -9722340; -9655356; -9587833; -9519791; -9451273; -9382299; -9312879; -9243055; -9172837]);
  ("AlClO", 3, [-7637308; -7442895; -7249922; -7058743; -6869346; -6681567; -6495196; -6302099; -6106194; -5911397; -5717679; -5524955; -5333185; -5142306; -4952277; -4763046; -4574572; -4386813]);
  ("AlF", 2, [-3019423; -3106691; -3191698; -3274768; -3356117; -3435839; -3513955; -3582587; -3645850; -3707860; -3768729; -3828531; -3887348; -3945254; -4002298; -4058535; -4114005; -4168759]);
  ("AlF2", 3, [-7301495; -7334308; -7364686; -7393157; -7419979; -7445268; -7469065; -7483471; -7492592; -7500551; -7507423; -7513310; -7518253; -7522337; -7525591; -7528068; -7529820; -7530856]);
  ("AlF3", 4, [-14827449; -14552869; -14281045; -14012113; -13746103; -13483566; -13223050; -12956087; -12686533; -12418316; -12151373; -11885675; -11621158; -11357812; -11109878; -10954554; -10799261; -10643994]);
  ("AlH", 2, [2395525; 2299428; 2206015; 2114778; 2025376; 1937590; 1851329; 1774405; 1702705; 1632093; 1562466; 1493730; 1425813; 1358663; 1292228; 1226467; 1161337; 1096809]);
  ("AlHO", 3, [287629; 270756; 257987; 247872; 239601; 232750; 227102; 230481; 238720; 247716; 257345; 267564; 278301; 289516; 301196; 313291; 325791; 338694]);
  ("AlHO2", 4, [-4632094; -4583403; -4530980; -4476091; -4419388; -4361182; -4301639; -4232914; -4159182; -4084549; -4009160; -3933065; -3856370; -3779114; -3701330; -3623080; -3544363; -3465222]);
  ("AlI", 2, [202134; 40286; -77317; -164916; -250888; -335295; -418167; -491598; -559691; -626562; -692302; -756996; -820705; -883492; -945398; -1006454; -1066701; -1126161]);
  ("AlI3", 4, [-3119708; -3103436; -2980143; -2802458; -2645170; -2525923; -2407102; -2280580; -2150291; -2020178; -1890210; -1760351; -1630549; -1500762; -1370939; -1241023; -1110967; -980714]);
  ("AlN", 2, [-2972504; -2863659; -2753756; -2643636; -2533598; -2423685; -2313845; -2196055; -2074326; -1952670; -1831097; -1709618; -1588221; -1466928; -1345728; -1224611; -1103588; -982637]);
  ("AlO", 2, [-2074596; -2083789; -2091831; -2098978; -2105279; -2110710; -2115193; -2110757; -2101449; -2091329; -2080457; -2068890; -2056671; -2043834; -2030418; -2016457; -2001968; -1986976]);
  ("AlO2", 3, [-950539; -969101; -987031; -1004547; -1021637; -1038231; -1054192; -1061519; -1064214; -1066328; -1067872; -1068898; -1069437; -1069500; -1069106; -1068287; -1067033; -1065385]);
  ("AlOF", 3, [-6043386; -6047501; -6050040; -6051522; -6052113; -6051864; -6050724; -6040733; -6025954; -6010449; -5994281; -5977490; -5960120; -5942210; -5923783; -5904868; -5885476; -5865639]);
  ("AlOF2", 4, [-11364217; -11320832; -11276225; -11230871; -11184936; -11138390; -11091191; -11035338; -10974873; -10913827; -10852264; -10790192; -10727664; -10664681; -10601282; -10537480; -10473294; -10408745]);
  ("AlS", 2, [1942337; 1769098; 1606545; 1450159; 1298301; 1150165; 1016455; 944061; 876859; 810673; 745336; 680725; 616726; 553245; 490199; 427537; 365195; 303155]);
  ("B(HO)2", 5, [-6441841; -6151361; -5859861; -5568900; -5279405; -4991941; -4706851; -4424321; -4144439; -3867242; -3592708; -3412665; -3299425; -3186236; -3073100; -2960026; -2846972; -2733940]);
  ("B(HO)3", 7, [-10029931; -9591668; -9152036; -8713451; -8277281; -7844355; -7415139; -6989883; -6568679; -6151589; -5738552; -5329495; -4924283]);
  ("B10Pb2O17", 29, [-68549411; -66913815; -65286572; -63673394; -62061252; -60468409; -58896252; -57345311; -55815483; -54306248; -52816663; -51345496; -49891430; -48453087; -47029285; -45619039; -44221365; -42835475]);
  ("B2O", 3, [644461; 526982; 410705; 296221; 183634; 72902; -36088; -143421; -249188; -353484; -456370; -557919; -658162; -757141; -854918; -951513; -1046947; -1141262]);
  ("B2O3", 5, [-12357374; -12081933; -11806772; -11532668; -11260015; -11016465; -10784989; -10556944; -10331760; -10108980; -9888283; -9669358; -9452009; -9236028; -9021239; -8807528; -8594749; -8382810]);
  ("B2OF4", 7, [-19105313; -18913501; -18717275; -18517959; -18316499; -18113556; -17909535; -17704747; -17499348; -17293472; -17087182; -16880518; -16673513; -16466165; -16258496; -16050475; -15842122; -15633417]);
  ("B2PbO4", 7, [-15023904; -14655174; -14289005; -13926825; -13561060; -13200217; -12844567; -12494161; -12148969; -11808803; -11473457; -11142640; -10816072; -10493515; -10174741; -9859584; -9547858; -9239417]);
  ("B3H2O3F", 9, [-15811226; -15555798; -15294608; -15029936; -14763232; -14495430; -14227120; -13958643; -13690240; -13422002; -13154013; -12886263; -12618761; -12351456; -12084317; -11817312; -11550380; -11283480]);
  ("B3HO3F2", 9, [-19775995; -19499010; -19218066; -18934914; -18650674; -18366029; -18081364; -17796907; -17512760; -17228976; -16945554; -16662454; -16379654; -16097093; -15814729; -15532500; -15250343; -14968206]);
  ("B4C", 5, [-643683; -641870; -640419; -639030; -637341; -635092; -632127; -628386; -623888; -618706; -612902; -606538; -599698; -592432; -584814; -576906; -568760; -560417]);
  ("B4PbO7", 12, [-27630259; -26967629; -26307612; -25652952; -24997018; -24348733; -23708573; -23076622; -22452807; -21836941; -21228735; -20627794; -20033734; -19446142; -18864634; -18288857; -17718418; -17152985]);
  ("B5H7", 12, [1088720; 1499399; 1894532; 2293955; 2695441; 3097135; 3497890; 3896966; 4293944; 4688647; 5081079; 5471398; 5859892]);
  ("B5H9", 14, [1790055; 2243751; 2704878; 3172939; 3645083; 4117560; 4589227; 5059599; 5528520; 5996063; 6462373; 6927625; 7391996]);
  ("B6PbO10", 17, [-40626880; -39670651; -38717781; -37772632; -36829773; -35899383; -34982570; -34079551; -33189965; -32313210; -31448446; -30594772; -29751297; -28917159; -28091572; -27273904; -26463480; -25659782]);
  ("BBr", 2, [1983577; 1867901; 1767388; 1667249; 1567700; 1468814; 1370623; 1273137; 1176345; 1080237; 984803; 890001; 795841; 702304; 609378; 517032; 425277; 334092]);
  ("BBr2", 3, [225672; 150023; 105260; 61025; 17391; -25610; -67959; -109685; -150790; -191273; -231165; -270466; -309187; -347327; -384919; -421940; -458412; -494345]);
  ("BBr2Cl", 4, [-2981304; -2969820; -2928031; -2886419; -2844889; -2803370; -2761830; -2720228; -2678532; -2636712; -2594758; -2552648; -2510351; -2467868; -2425178; -2382259; -2339102; -2295697]);
  ("BBr2F", 4, [-5490981; -5477290; -5432713; -5387857; -5342751; -5297428; -5251888; -5206150; -5160205; -5114043; -5067663; -5021065; -4974218; -4927134; -4879790; -4832186; -4784293; -4736120]);
  ("BBr3", 4, [-2455338; -2360805; -2235439; -2121307; -2016100; -1918271; -1826724; -1740638]);
  ("BBrCl", 3, [-405523; -471554; -521924; -571714; -620851; -669325; -717125; -764282; -810807; -856711; -902003; -946704; -990835; -1034385; -1077376; -1119818; -1161711; -1203054]);
  ("BBrCl2", 4, [-3507550; -3480312; -3437953; -3395678; -3353412; -3311126; -3268788; -3226367; -3183832; -3141183; -3098368; -3055408; -3012251; -2968908; -2925357; -2881589; -2837582; -2793337]);
  ("BBrF", 3, [-2780848; -2843324; -2889632; -2934996; -2979448; -3023030; -3065824; -3107851; -3149163; -3189771; -3229725; -3269026; -3307706; -3345774; -3383230; -3420106; -3456402; -3492117]);
  ("BBrF2", 4, [-8504528; -8472585; -8424215; -8374975; -8325050; -8274586; -8223687; -8172395; -8120760; -8068793; -8016516; -7963938; -7911059; -7857870; -7804370; -7750569; -7696457; -7642024]);
  ("BBrO", 3, [-2802033; -2836152; -2855243; -2874241; -2893000; -2911448; -2929576; -2947371; -2964835; -2981977; -2998788; -3015278; -3031436; -3047272; -3062777; -3077940; -3092771; -3107261]);
  ("BC", 2, [7973629; 7768229; 7561866; 7355731; 7150374; 6946032; 6742788; 6540685; 6339732; 6139888; 5941153; 5743476; 5546845; 5351219; 5156567; 4962880; 4770125; 4578272]);
  ("BCl", 2, [1167618; 1067893; 968106; 868764; 770065; 672061; 574792; 478239; 382390; 287235; 192755; 98927; 5742; -86832; -178794; -270176; -360977; -451209]);
  ("BCl2", 3, [-2380922; -2330002; -2279456; -2229091; -2178819; -2128568; -2078306; -2027993; -1977612; -1927133; -1876529; -1825786; -1774897; -1723848; -1672623; -1621211; -1633917; -1671425]);
  ("BCl2F", 4, [-6545515; -6501021; -6455967; -6410458; -6364565; -6318361; -6271888; -6225155; -6178195; -6131006; -6083569; -6035914; -5988000; -5939847; -5891436; -5842765; -5793836; -5744616]);
  ("BCl3", 4, [-4020052; -3967951; -3915798; -3863552; -3811212; -3758780; -3706222; -3653551; -3600745; -3547784; -3494667; -3441363; -3387884; -3334197; -3280303; -3226191; -3171840; -3117262]);
  ("BClF", 3, [-3394962; -3442161; -3488427; -3533678; -3577944; -3621297; -3663822; -3705549; -3746539; -3786815; -3826417; -3865366; -3903682; -3941377; -3978471; -4014974; -4050907; -4086270]);
  ("BClF2", 4, [-9034889; -8987078; -8937952; -8887799; -8836889; -8785369; -8733361; -8680938; -8628153; -8575015; -8521567; -8467797; -8413716; -8359335; -8304643; -8249639; -8194325; -8138711]);
  ("BClO", 3, [-5349764; -5254130; -5159048; -5064571; -4970688; -4877351; -4784504; -4692086; -4600041; -4508320; -4416876; -4325667; -4234655; -4143805; -4053083; -3962469; -3871923; -3781432]);
  ("BF", 2, [-1491129; -1587962; -1684453; -1780116; -1874824; -1968559; -2061371; -2153302; -2244383; -2334666; -2424183; -2512963; -2601028; -2688409; -2775117; -2861182; -2946625; -3031446]);
  ("BF2", 3, [-7266044; -7214176; -7161184; -7107320; -7052778; -6997718; -6942223; -6886365; -6830180; -6773689; -6716919; -6659869; -6645323; -6674654; -6703352; -6731429; -6758915; -6785810]);
  ("BF3", 4, [-11596812; -11537871; -11476929; -11414484; -11350930; -11286496; -11221377; -11155688; -11089502; -11022870; -10955824; -10888394; -10820590; -10752425; -10683906; -10615026; -10545792; -10476206]);
  ("BH", 2, [4274900; 4170241; 4065749; 3961971; 3859075; 3757049; 3655842; 3555412; 3455697; 3356656; 3258247; 3160460; 3063244; 2966597; 2870499; 2774941; 2679900; 2585378]);
  ("BH2", 3, [1945664; 1901460; 1859185; 1818526; 1779183; 1740887; 1703430; 1666637; 1630393; 1594616; 1559243; 1524232; 1489553; 1455206; 1421159; 1387413; 1353978; 1320844]);
  ("BH2N", 4, [-1338926; -1194520; -1045537; -893880; -740686; -586656; -432228; -277686; -123204; 31103; 185168; 338957; 492451; 645642; 798540; 951150; 1103491; 1255576]);
  ("BH3", 4, [477612; 569988; 668236; 770325; 874890; 980994; 1088021; 1195550; 1303302; 1411096; 1469395; 1509867; 1550930; 1592502; 1634529; 1676981; 1719837; 1763056]);
  ("BHBr2", 4, [-1298281; -1302385; -1273873; -1243972; -1213066; -1181413; -1149180; -1116491; -1083429; -1050036; -1016362; -982419; -948217; -913766; -879056; -844097; -808869; -773372]);
  ("BHCl2", 4, [-2490711; -2462199; -2431292; -2398728; -2364951; -2330293; -2294971; -2259121; -2222846; -2186209; -2149260; -2112021; -2074513; -2036735; -1998708; -1960433; -1921899; -1883105]);
  ("BHF2", 4, [-7512988; -7479574; -7442397; -7402485; -7360571; -7317166; -7272641; -7227235; -7181124; -7134413; -7087203; -7039538; -6991458; -6942995; -6894158; -6844970; -6795439; -6745566]);
  ("BHO", 3, [-3994211; -3870817; -3746035; -3620907; -3496228; -3372503; -3250029; -3128946; -3009291; -2891024; -2774067; -2658322; -2543703; -2441833; -2460561; -2478906; -2496898; -2514518]);
  ("BHO2", 4, [-7349972; -7182455; -7013821; -6845035; -6676526; -6508473; -6340945; -6173973; -6007540; -5841636; -5676232; -5511299; -5346807; -5182713; -5018992; -4855613; -4692535; -4529726]);
  ("BHOF2", 5, [-10897483; -10783144; -10664380; -10542714; -10419110; -10294179; -10168325; -10041809; -9914795; -9787418; -9659740; -9531845; -9403743; -9275464; -9147020; -9018430; -8889685; -8760795]);
  ("BHS", 3, [172959; 60082; -42639; -139690; -232782; -322837; -399232; -423028; -446296; -469077; -491412; -513332; -534848; -555960; -576699; -597044; -617006; -636584]);
  ("BI", 2, [2640599; 2469537; 2340512; 2240051; 2140129; 2040850; 1942254; 1844353; 1747136; 1650604; 1554755; 1459559; 1365026; 1271147; 1177920; 1085347; 993426; 902168]);
  ("BI2", 3, [1931869; 1746183; 1645214; 1601218; 1557792; 1514977; 1472805; 1431265; 1390357; 1350071; 1310417; 1271396; 1233017; 1195280; 1158218; 1121850; 1086176; 1051238]);
  ("BI3", 4, [212737; 50443; 14044; 61844; 109343; 156656; 203907; 251157; 298460; 345876; 393449; 441228; 489256; 537584; 586276; 635382; 684954; 735045]);
  ("BN", 2, [-2330521; -2239626; -2147653; -2055214; -1962651; -1870150; -1777825; -1685770; -1594015; -1502602; -1411510; -1320740; -1230260; -1140028; -1050025; -960198; -870506; -780917]);
  ("BO", 2, [-2403428; -2417124; -2431033; -2444776; -2458193; -2471242; -2483907; -2496204; -2508133; -2519720; -2530966; -2541884; -2552472; -2562743; -2572692; -2582326; -2591638; -2600634]);
  ("BO2", 3, [-3007318; -3027217; -3047573; -3068136; -3088771; -3109396; -3129948; -3150366; -3170638; -3190714; -3210603; -3230253; -3249676; -3268840; -3287734; -3306358; -3324682; -3342716]);
  ("BOF", 3, [-8050842; -7908627; -7766695; -7625375; -7484946; -7345623; -7207546; -7070807; -6935419; -6801367; -6668597; -6537030; -6440027; -6449542; -6458683; -6467451; -6475836; -6483858]);
  ("BOF2", 4, [-8538025; -8492018; -8444540; -8396118; -8347053; -8297512; -8247598; -8197372; -8146857; -8096072; -8045028; -7993714; -7942132; -7890289; -7838157; -7785745; -7733043; -7680040]);
  ("BS", 2, [1965066; 1782116; 1608069; 1439121; 1273925; 1111786; 963442; 867915; 773185; 679233; 586027; 493547; 401781; 310711; 220324; 130600; 41519; -46919]);
  ("Ba(HO)2", 5, [-8902267; -8603372; -8309535; -8018765; -7736297; -7479139; -7226769; -6978741; -6726050; -6476489; -6229809; -5985813; -5744305; -5505097; -5268015; -5032901; -4799591; -4567949]);
  ("BaBr", 2, [-1556009; -1657973; -1740856; -1818660; -1892589; -1963128; -2030838; -2096226; -2151032; -2203672; -2254416; -2303491; -2351063; -2397256; -2442185; -2485933; -2528540; -2570060]);
  ("BaBr2", 3, [-7647558; -7515020; -7354229; -7193655; -7033931; -6875181; -6717645; -6561631; -6398715; -6257885; -6128052; -6000354; -5874687; -5750938; -5628981; -5508735; -5390064; -5272865]);
  ("BaCl", 2, [-1737508; -1823625; -1906062; -1983494; -2057080; -2127319; -2194738; -2259857; -2314404; -2366796; -2417311; -2466158; -2513512; -2559509; -2604262; -2647844; -2690316; -2731722]);
  ("BaCl2", 3, [-8394957; -8229170; -8065643; -7902011; -7738836; -7576200; -7414393; -7253768; -7085991; -6919852; -6779281; -6645955; -6514982; -6386205; -6259513; -6134779; -6011879; -5890690]);
  ("BaF", 2, [-3595107; -3678840; -3758904; -3833962; -3905216; -3973113; -4038190; -4100956; -4153150; -4203158; -4251269; -4297680; -4342578; -4386087; -4428312; -4469333; -4509205; -4547977]);
  ("BaF2", 3, [-12002833; -11829832; -11659298; -11488951; -11319267; -11150309; -10982356; -10815906; -10642885; -10472278; -10306647; -10146167; -9988858; -9835187; -9692129; -9556543; -9422243; -9289145]);
  ("BaHO", 3, [-2416855; -2438392; -2456301; -2469495; -2479206; -2485912; -2490110; -2492307; -2484223; -2474263; -2462675; -2449679; -2435428; -2420047; -2403630; -2386239; -2367936; -2348741]);
  ("BaI", 2, [-931489; -1089347; -1201136; -1279573; -1354134; -1425295; -1493606; -1559595; -1614992; -1668202; -1719516; -1769129; -1817209; -1863880; -1909234; -1953334; -1996221; -2037927]);
  ("BaI2", 3, [-6232887; -6212075; -6109054; -5949683; -5791120; -5633448; -5476927; -5326334; -5193589; -5063932; -4937177; -4813158; -4691688; -4572624; -4455766; -4340982; -4228074; -4116917]);
  ("BaO", 2, [-5391598; -5295905; -5200564; -5103741; -5006203; -4908084; -4809675; -4711277; -4604442; -4497441; -4390440; -4283554; -4176864; -4070433; -3964293; -3858463; -3752955; -3647757]);
  ("BaS", 2, [-4754568; -4736493; -4709992; -4677417; -4641049; -4601799; -4549190; -4444501; -4331312; -4217896; -4104428; -3991022; -3877772; -3764749; -3651986; -3539513; -3427340; -3315469]);
  ("Be(BO2)2", 7, [-13681327; -13571932; -13461055; -13349110; -13236378; -13123034; -13009162; -12894792; -12779915; -12664540; -12548615; -12432110; -12314984; -12191742; -12063598; -11934967; -11805808; -11676130]);
  ("Be(HO)2", 5, [-8450965; -8147873; -7845495; -7545232; -7247466; -6952219; -6659377; -6368825])].

Definition nist_2 : list (string * Z * list Z) := [
  ("Be2C", 3, [-915186; -906542; -896872; -885378; -872040; -857581; -842336; -826561; -810486; -794307; -778222; -762282; -746497; -719933; -685037; -650648; -616726; -583218]);
  ("Be2O", 3, [-959441; -1061167; -1160425; -1257466; -1352558; -1445878; -1537540; -1627636; -1716199; -1803259; -1888826; -1972912; -2055505; -2125692; -2186001; -2245326; -2303677; -2361106]);
  ("Be2OF2", 5, [-12405775; -12378983; -12351134; -12322374; -12292825; -12262530; -12231520; -12199764; -12167220; -12133847; -12099614; -12064448; -12028308; -11980249; -11922738; -11864646; -11805984; -11746731]);
  ("Be2SiO4", 7, [-20750144; -20350539; -19950250; -19551422; -19154989; -18761385; -18370631; -17982562; -17596918; -17213408; -16831775; -16451759; -16073141; -15684803; -15284451; -14859299; -14435555; -14013128]);
  ("Be3(BO3)2", 11, [-30448750; -29870911; -29291164; -28712631; -28137289; -27566456; -27000826; -26440544; -25885413; -25335059; -24789018; -24246863; -23708180; -23156241; -22594528; -22036112; -21480794; -20928420]);
  ("Be3N2", 5, [-5519286; -5324935; -5129185; -4933798; -4739478; -4546433; -4354642; -4163981; -3974263; -3785281; -3596827; -3408706; -3220718; -3016345; -2799183; -2582424; -2366008; -2149871]);
  ("BeAl2O4", 7, [-22571146; -22144242; -21716654; -21290495; -20866307; -20444045; -20023422; -19588340; -19146698; -18706454; -18267548; -17829958; -17393612; -16953047; -16509508; -16067503; -15627125; -15188592]);
  ("BeAl6O10", 17, [-55089735; -54018432; -52946103; -51877650; -50814182; -49755441; -48700607; -47601424; -46481740; -45365539; -44252800; -43143470; -42037540; -40929496; -39820612; -38715366; -37613799; -36516016]);
  ("BeBO2", 4, [-5135383; -5180789; -5224060; -5265465; -5305222; -5343508; -5380425; -5416047; -5450446; -5483643; -5515658; -5546534; -5576248; -5599371; -5617166; -5634081; -5650125; -5665319]);
  ("BeBr", 2, [800257; 685483; 587053; 489702; 393397; 298108; 203793; 110421; 17992; -73524; -164129; -253821; -342622; -425080; -502450; -579187; -655312; -730847]);
  ("BeBr2", 3, [-3495568; -3368337; -3214168; -3063264; -2915294; -2769955; -2627001; -2486171; -2347290; -2210181; -2074699; -1940731; -1808172]);
  ("BeC2", 3, [5239378; 5033595; 4827543; 4622393; 4418611; 4216383; 4015782; 3816778; 3619359; 3423495; 3229144; 3036276; 2844879; 2660364; 2481445; 2303667; 2126977; 1951344]);
  ("BeCl", 2, [328309; 228605; 129978; 32482; -63927; -159299; -253666; -347058; -439497; -531013; -621597; -711269; -800039; -882456; -959783; -1036469; -1112553; -1188036]);
  ("BeCl2", 3, [-4622227; -4469427; -4321145; -4176874; -4037692; -3916451; -3802859; -3695931; -3594889; -3499113; -3408073; -3321314; -3282298; -3237996; -3189216; -3140369; -3091445; -3042427]);
  ("BeClF", 3, [-6015859; -6040785; -6065359; -6089466; -6113097; -6136271; -6158969; -6181190; -6202913; -6224119; -6244795; -6264923; -6284470; -6297974; -6306680; -6315024; -6323004; -6330622]);
  ("BeF", 2, [-2055702; -2153520; -2249990; -2345072; -2438848; -2531411; -2622845; -2713190; -2802510; -2890813; -2978132; -3064477; -3149868; -3228854; -3302710; -3375882; -3448411; -3520318]);
  ("BeF2", 3, [-10147566; -9983821; -9822615; -9664414; -9507769; -9352678; -9203837; -9058664; -8915699; -8774942; -8636403; -8500061; -8365916; -8228517; -8089118; -7952154; -7817657; -7685636]);
  ("BeH", 2, [3011702; 2906411; 2802385; 2699675; 2598178; 2497790; 2398396; 2299936; 2202346; 2105595; 2009674; 1914571; 1820267; 1732222; 1649173; 1566684; 1484713; 1403260]);
  ("BeH2", 3, [1198338; 1166665; 1139116; 1114574; 1092166; 1071282; 1051538; 1032665; 1014507; 996960; 979983; 963546; 947637; 937708; 932505; 927592; 922959; 918606]);
  ("BeHO", 3, [-1288424; -1320647; -1350962; -1379827; -1407499; -1434167; -1459922; -1484858; -1508997; -1532399; -1555066; -1577028; -1598285; -1613396; -1623615; -1633389; -1642727; -1651661]);
  ("BeI", 2, [1234209; 1062991; 934951; 836169; 738371; 641559; 545700; 450763; 356759; 263677; 171498; 80240; -10095; -94045; -172876; -251012; -328475; -405264]);
  ("BeI2", 3, [-1939922; -1928625; -1837876; -1695211; -1556569; -1435307; -1335229; -1240759; -1151232; -1066100; -984917; -907268; -832811]);
  ("BeN", 2, [4100438; 3993437; 3887214; 3781830; 3677244; 3573435; 3470404; 3368150; 3266674; 3165985; 3066094; 2967011; 2868737; 2776734; 2689746; 2603319; 2517440; 2432091]);
  ("BeO", 2, [-5999670; -5897188; -5794302; -5691675; -5589556; -5487996; -5387007; -5286535; -5186531; -5086940; -4987733; -4888838; -4790211; -4686372; -4578531; -4471106; -4364074; -4257446]);
  ("BeS", 2, [-2414502; -2408294; -2394841; -2378694; -2361334; -2343383; -2313969; -2233915; -2155116; -2077446; -2000812; -1925112; -1850261; -1770715; -1687656; -1605457; -1524066; -1443463]);
  ("BeSO4", 6, [-11283189; -10893503; -10496738; -10098595; -9701249; -9306090; -8902982; -8453463; -8009997; -7572687; -7141409; -6715903; -6295881; -5875558; -5455857; -5040913; -4630404; -4224063]);
  ("BeWO4", 6, [-14552941; -14175858; -13800661; -13428304; -13059035; -12692824; -12329629; -11969418; -11612141; -11257797; -10906344; -10557742; -10211990; -9863605; -9513853; -9167178; -8823571; -8483074]);
  ("BrCl", 2, [-11017; -32305; -38286; -44266; -50246; -56237; -62217; -68187; -74156; -80116; -86075; -92014; -97953; -103871; -109778; -115665; -121542; -127387]);
  ("BrF", 2, [-765961; -786223; -791095; -795935; -800754; -805563; -810362; -815160; -819938; -824716; -829473; -834220; -838946; -843652; -848336; -853000; -857633; -862235]);
  ("BrF3", 4, [-2375709; -2252084; -2114332; -1977804; -1842405; -1708011; -1574499; -1441774; -1309733; -1178314; -1047444; -917083; -787156; -657644; -528485; -399657; -271140; -142892]);
  ("BrF5", 6, [-3636813; -3336270; -3023455; -2713771; -2406947; -2102693; -1800730; -1500809; -1202732; -906325; -611420; -317893; -25620; 265491; 555535; 844595; 1132742; 1420040]);
  ("BrN", 2, [2919470; 2886471; 2868447; 2850019; 2831188; 2812014; 2792550; 2772837; 2752927; 2732831; 2712600; 2692254; 2671795; 2651253; 2630639; 2609952; 2589223; 2568443]);
  ("BrNO", 3, [854213; 888394; 938018; 987570; 1036977; 1086196; 1135230; 1184087; 1232778; 1281325; 1329736; 1378023; 1426196; 1474287; 1522284; 1570218; 1618091; 1665922]);
  ("C(ClF)2", 5, [-4688859; -4553388; -4418434; -4284300; -4151036; -4018591; -3886903; -3755898; -3625505; -3495672; -3366326; -3237436; -3108950; -2980817; -2853015; -2725493; -2598240; -2471216]);
  ("C2N", 3, [2647020; 2606127; 2562815; 2518119; 2472656; 2426768; 2380663; 2334454; 2288208; 2241979; 2195795; 2149669; 2103626; 2057676; 2011830; 1966092; 1920469; 1874964]);
  ("C2NF3", 6, [-4783163; -4666254; -4549998; -4434530; -4319798; -4205749; -4092291; -3979383; -3866951; -3754955; -3643342; -3532082; -3421112; -3310411; -3199948; -3089683; -2979594; -2869660]);
  ("C2O", 3, [2600396; 2475392; 2348316; 2220317; 2092039; 1963812; 1835834; 1708177; 1580883; 1453962; 1327404; 1201209; 1075355; 949844; 824654; 699765; 575186; 450898]);
  ("C3O2", 5, [-1137469; -1194980; -1254979; -1316221; -1378003; -1439919; -1501762; -1563450; -1624921; -1686163; -1747157; -1807902; -1868388; -1928615; -1988572; -2048270; -2107689; -2166827]);
  ("CBr", 2, [4819024; 4693461; 4581350; 4468297; 4354850; 4241309; 4127872; 4014632; 3901661; 3789002; 3676674; 3564677; 3453023; 3341711; 3230751; 3120133; 3009847; 2899892]);
  ("CBr4", 5, [371310; 451748; 590349; 726525; 860763; 993457; 1124866; 1255196; 1384625; 1513267; 1641224; 1768580; 1895418; 2021779; 2147736; 2273331; 2398604; 2523607]);
  ("CBrF3", 5, [-6451531; -6326683; -6186351; -6046361; -5906899; -5767997; -5629676; -5491883; -5354598; -5217758; -5081354; -4945313; -4809623; -4674225; -4539106; -4404225; -4269562; -4135075]);
  ("CBrN", 3, [1709835; 1668575; 1641234; 1613012; 1584252; 1555128; 1525766; 1496217; 1466545; 1436758; 1406888; 1376956; 1346951; 1316905; 1286807; 1256678; 1226518; 1196338]);
  ("CCl", 2, [1028022; 1007501; 985482; 962618; 939288; 915699; 891975; 868189; 844388; 820596; 796831; 773118; 749456; 725857; 702325; 678870; 655488; 632195]);
  ("CCl2", 3, [113173; 171472; 228320; 284054; 338917; 393086; 446690; 499812; 552535; 604906; 656970; 708776; 760349; 811714; 862903; 913932; 964820; 1015590]);
  ("CCl2O", 4, [-2132957; -2083799; -2035087; -1986738; -1938679; -1890827; -1843130; -1795548; -1748059; -1700642; -1653278; -1605954; -1558652; -1511360; -1464067; -1416765; -1369431; -1322056]);
  ("CCl3", 4, [-255847; -111038; 30683; 169829; 306839; 442057; 575746; 708108; 839299; 969453; 1098685; 1227078; 1354714; 1481671; 1526802; 1565845; 1604876; 1643919]);
  ("CCl3F", 5, [-2581637; -2445471; -2310787; -2177565; -2045638; -1914841; -1785018; -1656045; -1527818; -1400255; -1273272; -1146807; -1020808; -895235; -770024; -645155; -520587; -396299]);
  ("CCl4", 5, [-552975; -407005; -263408; -121853; 18003; 156459; 293744; 430034; 565454; 700117; 834127; 967536; 1100427; 1232851; 1364861; 1496487; 1627761; 1758744]);
  ("CClF3", 5, [-6913996; -6772264; -6630098; -6488097; -6346510; -6205432; -6064861; -5924809; -5785223; -5646072; -5507336; -5368963; -5230921; -5093180; -4955708; -4818485; -4681480; -4544661]);
  ("CClO", 3, [-793831; -842315; -891535; -940931; -990192; -1039163; -1087782; -1136018; -1183859; -1231317; -1278392; -1325093; -1371442; -1417428; -1463062; -1508364; -1553335; -1597964]);
  ("CClOF", 4, [-4285596; -4239309; -4192555; -4145605; -4098531; -4051384; -4004185; -3956955; -3909683; -3862391; -3815058; -3767703; -3720297; -3672860; -3625360; -3577799; -3530175; -3482478]);
  ("CF", 2, [62098; 46007; 29041; 11598; -6094; -23900; -41747; -59589; -77411; -95175; -112888; -130522; -148080; -165549; -182929; -200212; -217396; -234476]);
  ("CF2", 3, [-3230792; -3170260; -3110007; -3050024; -2990284; -2930773; -2871463; -2812345; -2753409; -2694628; -2635992; -2577491; -2519093; -2460789; -2409849; -2436837; -2463463; -2489716]);
  ("CF3", 4, [-6517065; -6367840; -6218936; -6070748; -5923373; -5776802; -5630982; -5485851; -5341347; -5197403; -5053972; -4911002; -4768441; -4626254; -4484393; -4342837; -4201557; -4060515]);
  ("CF4", 5, [-9205847; -9049119; -8890898; -8732138; -8573295; -8414587; -8256138; -8097989; -7940152; -7782625; -7625399; -7468464; -7311776; -7155317; -6999076; -6843021; -6687132; -6531399]);
  ("CIF3", 5, [-5917968; -5850735; -5741309; -5604138; -5467579; -5331662; -5196356; -5061610; -4927393; -4793642; -4660305; -4527342; -4394690; -4262307; -4130152; -3998184; -3866350; -3734620]);
  ("CIN", 3, [2037813; 1939839; 1882618; 1852738; 1822329; 1791630; 1760755; 1729787; 1698798; 1667808; 1636850; 1605944; 1575131; 1544411; 1513816; 1483355; 1453071; 1422952]);
  ("CN", 2, [1541836; 1521071; 1499130; 1476505; 1453480; 1430244; 1406883; 1383470; 1360031; 1336597; 1313184; 1289803; 1266457; 1243158; 1219911; 1196721; 1173593; 1150522]);
  ("CN2", 3, [5951113; 5914755; 5877320; 5839210; 5800717; 5762017; 5723224; 5684410; 5645606; 5606854; 5568164; 5529547; 5491012; 5452550; 5414171; 5375886; 5337694; 5299584]);
  ("CNCl", 3, [1357429; 1332503; 1306375; 1279501; 1252149; 1224497; 1196649; 1168644; 1140526; 1112335; 1084072; 1055757; 1027400; 998991; 970542; 942061; 913548; 885016]);
  ("CNF", 3, [303082; 279255; 254681; 229724; 204622; 179478; 154365; 129315; 104347; 79473; 54713; 30046; 5503; -18936; -43250; -67451; -91527; -115489]);
  ("CNO", 3, [1564715; 1535166; 1505017; 1474442; 1443588; 1412547; 1381381; 1350133; 1318843; 1287522; 1256202; 1224891; 1193601; 1162353; 1131157; 1100012; 1068940; 1037940]);
  ("CO", 2, [-1423305; -1516687; -1610753; -1704778; -1798388; -1891449; -1983888; -2075705; -2166910; -2257535; -2347601; -2437148; -2526188; -2614740; -2702836; -2790497; -2877723; -2964534]);
  ("CO2", 3, [-4087607; -4090519; -4093255; -4095774; -4098013; -4099961; -4101640; -4103070; -4104262; -4105268; -4106086; -4106739; -4107237; -4107599; -4107817; -4107910; -4107869; -4107703]);
  ("COF", 3, [-1898476; -1938616; -1978477; -2017882; -2056759; -2095065; -2132833; -2170071; -2206802; -2243067; -2278865; -2314238; -2349197; -2383752; -2417912; -2451689; -2485104; -2518145]);
  ("COF2", 4, [-6459346; -6404177; -6347640; -6290263; -6232337; -6174007; -6115397; -6056559; -5997556; -5938396; -5879102; -5819705; -5760193; -5700567; -5640838; -5581005; -5521048; -5460987]);
  ("COF4", 6, [-7331966; -7132858; -6933190; -6733740; -6534819; -6336540; -6138924; -5941962; -5745600; -5549809; -5354535; -5159749; -4965388; -4771421; -4577806; -4384512; -4191509; -3998754]);
  ("CS", 2, [2368247; 2190572; 2020909; 1855609; 1693450; 1533850; 1387631; 1293865; 1200587; 1107796; 1015471; 923612; 832220; 741284; 650793; 560738; 471108; 381903]);
  ("CS2", 3, [689276; 518379; 363693; 217173; 76094; -60849; -172057; -179364; -186723; -194081; -201430; -208726; -215971; -223143; -230211; -237176; -244027; -250753]);
  ("CSF8", 10, [-16337762; -15848807; -15352109; -14853609; -14355274; -13857903; -13350613; -12794186; -12240413; -11689075; -11140007; -10593033; -10047986; -9504701; -8963075; -8422972; -7884288; -7346942]);
  ("CSO", 3, [-1718085; -1810918; -1895646; -1976249; -2054033; -2129651; -2192282; -2202864; -2213384; -2223810; -2234164; -2244435; -2254602; -2264687; -2274668; -2284545; -2294308; -2303967]);
  ("Ca(HO)2", 5, [-9305842; -9002220; -8701625; -8404119; -8109328; -7815812; -7524192; -7234314]);
  ("CaBr", 2, [-932339; -1038231; -1126627; -1212983; -1297327; -1378593; -1457693; -1534741; -1609644; -1675851; -1739477; -1801818; -1862978; -1923039; -1982063; -2017198; -1987847; -1958391]);
  ("CaBr2", 3, [-6882084; -6751909; -6594828; -6440639; -6288678; -6137390; -5987471; -5838868; -5717492; -5597153; -5479073; -5364174; -5252230; -5143021; -5036394; -4909255; -4720822; -4535302]);
  ("CaCl", 2, [-1359057; -1449506; -1537840; -1624175; -1708519; -1789796; -1868927; -1946006; -2020950; -2087199; -2150856; -2213249; -2274460; -2334573; -2393639; -2428836; -2399547; -2370154]);
  ("CaCl2", 3, [-7750164; -7586430; -7426198; -7268589; -7112938; -6957723; -6803595; -6650526; -6514142; -6385977; -6259202; -6134799; -6012605; -5892441; -5774206; -5634837; -5433594; -5234714]);
  ("CaF", 2, [-3088128; -3176660; -3263005; -3347328; -3429641; -3508876; -3585945; -3660962; -3733812; -3797946; -3859489; -3919726; -3978761; -4036666; -4093514; -4126452; -4094883; -4063189]);
  ("CaF2", 3, [-12159064; -11978933; -11802408; -11628703; -11457247; -11286641; -11117589; -10950113; -10784015; -10612735; -10442336; -10274124; -10111187; -9952531; -9798839; -9641074; -9421248; -9203619]);
  ("CaHO", 3, [-2090142; -2115503; -2138616; -2159914; -2179513; -2196334; -2211311; -2224515; -2235853; -2238766; -2239356; -2238932; -2237553; -2235314; -2232257; -2205528; -2114519; -2023593]);
  ("CaI", 2, [-554882; -716752; -834127; -921177; -1006174; -1088062; -1167753; -1245361; -1320781; -1387475; -1451537; -1514282; -1575784; -1636114; -1695336; -1730574; -1701233; -1671674]);
  ("CaI2", 3, [-5524924; -5505615; -5405714; -5252468; -5101854; -4952391; -4804700; -4658678; -4533934; -4426125; -4319704; -4215657; -4113777; -4013886; -3915829; -3796547; -3615255; -3436171]);
  ("CaO", 2, [-6252817; -6143474; -6035282; -5928105; -5821622; -5714466; -5607320; -5500081; -5392500; -5277892; -5162257; -5046810; -4931559; -4816516; -4701690; -4564166; -4363317; -4163463]);
  ("CaS", 2, [-4851495; -4832663; -4806587; -4777059; -4745220; -4710386; -4662513; -4562477; -4461995; -4354414; -4245724; -4137138; -4028655; -3920286; -3812031; -3680985; -3486510; -3292957]);
  ("Cl2O", 3, [1090031; 1149843; 1209428; 1268639; 1327477; 1385983; 1444210; 1502187; 1559968; 1617562; 1675012; 1732326; 1789526; 1846644; 1903668; 1960630; 2017551; 2074419]);
  ("ClF", 2, [-536797; -541896; -546902; -551835; -556738; -561598; -566439; -571248; -576046; -580814; -585561; -590276; -594982; -599646; -604289; -608911; -613492; -618053]);
  ("ClF3", 4, [-1229503; -1090705; -952746; -815824; -679896; -544891; -410705; -277265; -144488; -12313; 119324; 250484; 381198; 511508; 641466; 771081; 900396; 1029442]);
  ("ClF5", 6, [-1514801; -1196628; -880891; -567941; -257635; 50236; 355919; 659624; 961535; 1261819; 1560611; 1858055; 2154245; 2449295; 2743288; 3036307; 3328393; 3619639]);
  ("ClO", 2, [1010092; 997084; 983943; 970645; 957172; 943563; 929841; 916025; 902137; 888177; 874175; 860131; 846046; 831940; 817803; 803656; 789498; 775341]);
  ("ClO2", 3, [1268970; 1331156; 1393829; 1456512; 1519029; 1581329; 1643369; 1705172; 1766746; 1828102; 1889262; 1950245; 2011052; 2071704; 2132211; 2192572; 2252830; 2312974]);
  ("ClO3F", 5, [529397; 781300; 1034230; 1286818; 1538535; 1789174; 2038683; 2287074; 2534396; 2780703; 3026046; 3270488; 3514089; 3756924; 3999013; 4240428; 4481211; 4721403]);
  ("Co3O4", 7, [-8230859; -7829876; -7429369; -7030107; -6632523; -6235157; -5840433; -5448622; -5059869; -4674266; -4291710; -3911704; -3535336]);
  ("CoCl", 2, [1675499; 1568788; 1464171; 1361565; 1260855; 1162633; 1066193; 971578; 878849; 788120; 699516; 613306; 529210; 446596; 365247; 288106; 218634; 150354]);
  ("CoCl2", 3, [-2791938; -2646040; -2505324; -2368609; -2235086; -2103605; -1974352; -1846924; -1761180; -1683448; -1607271; -1532119; -1457994; -1385330; -1314148; -1262840; -1216227; -1169012]);
  ("CoCl3", 4, [-1600772; -1569368; -1538338; -1507463; -1476484; -1444531; -1412091; -1378925; -1344837; -1309619; -1273054; -1234810; -1195094; -1154507; -1113216; -1068225; -1016061; -963162]);
  ("CoF2", 3, [-6490968; -6336965; -6187108; -6040681; -5897033; -5754980; -5614762; -5475974; -5338243; -5201217; -5064543; -4927797; -4835296; -4744619; -4655755; -4565566; -4470422; -4376656]);
  ("CoF3", 4, [-7446211; -7201210; -6961765; -6726516; -6494398; -6264094; -6035748; -5808936; -5583296; -5358526; -5134315; -4910292; -4686600]);
  ("CoO", 2, [-2216296; -2135952; -2058676; -1983525; -1909876; -1836622; -1764092; -1691978; -1620029; -1548039; -1475769; -1402877; -1329612; -1256575; -1183952; -1108780; -1027587; -946849]);
  ("CoSO4", 6, [-8102280; -7733519; -7360012; -6986960; -6615971; -6246920; -5869298; -5444394; -5024340; -4607240; -4192638; -3779985; -3369321; -2961073; -2555260; -2148783; -1738006; -1329290]);
  ("Cr23C6", 29, [-3510970; -3546768; -3595159; -3654598; -3722245; -3795832; -3873709; -3954322; -4035910; -4116720; -4195146; -4269562; -4338495; -4400629; -4454740; -4499773; -4534711; -4558653]);
  ("Cr2N", 3, [-1057809; -977144; -898458; -821576; -746259; -672393; -599863; -528568; -458350; -389044; -320494; -252536; -185033; -117831; -50806; 16148; 83142; 150292])].

Definition nist_3 : list (string * Z * list Z) := [
  ("Cr2O3", 5, [-10909018; -10627742; -10350788; -10077524; -9807213; -9539287; -9273288; -9008802; -8745456; -8482898; -8220816; -7958911; -7696913; -7434593; -7171734; -6908140; -6643633; -6378080]);
  ("Cr3C2", 5, [-894261; -898779; -907288; -919176; -933603; -949958; -967754; -986606; -1006132; -1025990; -1045879; -1065520; -1084652; -1103059; -1120533; -1136919; -1152041; -1165763]);
  ("Cr7C3", 10, [-1722490; -1743084; -1769679; -1800948; -1835544; -1872575; -1911431; -1951561; -1992355; -2033232; -2073642; -2113057; -2150980; -2186986; -2220659; -2251659; -2279653; -2304330]);
  ("CrN", 2, [-960136; -876683; -795448; -715964; -637807; -560717; -484478; -408922; -333854; -259138; -184619; -110172; -35674; 38980; 113883; 189117; 264766; 340891]);
  ("CrO", 2, [1599798; 1484039; 1370229; 1258088; 1147439; 1038189; 930256; 823618; 718296; 614301; 511684; 410487; 310762; 212561; 115924; 20894; -72488; -164191]);
  ("CrO2", 3, [-906407; -946579; -984513; -1020777; -1055622; -1089233; -1121653; -1152932; -1183030; -1211925; -1239557; -1265861; -1290798; -1314283; -1336276; -1356725; -1375577; -1392792]);
  ("CrO3", 4, [-2832887; -2763467; -2692213; -2620036; -2547269; -2474045; -2400376; -2326230; -2251524; -2176166; -2100071; -2023127; -1945250; -1866336; -1786313; -1705109; -1622641; -1538846]);
  ("Cs2O", 3, [-1094612; -1123591; -1146651; -1165369; -1180522; -1192586; -1201924; -1132141; -991011; -849767; -708398; -566915; -425298; -283556; -141669; 352; 142519; 284862]);
  ("Cs2O2", 4, [879180; 756032; 638149; 524204; 413534; 305767; 200569; 174410; 219515; 264683; 309912; 355225; 400621; 446099; 491660; 537325; 583115; 629028]);
  ("Cs2SO4", 7, [-13705848; -13274425; -12836794; -12399359; -11964692; -11534782; -11100239; -10548041; -9933616; -9326601; -8733941; -8170425; -7612340; -7059272; -6510857; -5966774; -5426733; -4890475]);
  ("CsCl", 2, [-4292705; -4187280; -4083161; -3980627; -3879793; -3783737; -3691754; -3578317; -3436409; -3298067; -3162989; -3030917; -2901644; -2774972; -2650725; -2528758; -2408937; -2291147]);
  ("CsF", 2, [-5443264; -5335092; -5228299; -5123008; -5019231; -4916966; -4816236; -4684257; -4537468; -4393944; -4253404; -4115601; -3980337; -3847436; -3716732; -3588090; -3475083; -3375338]);
  ("CsHO", 3, [-3839248; -3673647; -3515240; -3374234; -3243903; -3116474; -2991502; -2830317; -2636464; -2445243; -2256385; -2069704; -1884992; -1702104; -1520895; -1341251; -1163048; -986192]);
  ("Cu(HO)2", 5, [-3857354; -3589386; -3325283; -3064809; -2807816; -2554192; -2303760; -2056282; -1811488; -1569099; -1328793; -1086072; -839091]);
  ("Cu2O", 3, [-1531269; -1451952; -1373100; -1294954; -1217574; -1140972; -1065105; -989964; -915487; -841662; -768449; -687369; -595303; -540984; -495081; -450131; -406083; -362884]);
  ("Cu2SO5", 8, [-8202420; -7731260; -7256255; -6782971; -6313096; -5847139; -5374000; -4854304; -4339718; -3829972; -3324755; -2815341; -2298350]);
  ("CuCN", 3, [1123373; 1167307; 1207344; 1244272; 1278640; 1310801; 1341012; 1369452]);
  ("CuCl", 2, [-1251683; -1193519; -1138847; -1087461; -1038956; -1007915; -980046; -954508; -931002; -909268; -889037; -865883; -839288; -823621; -807456; -790825; -773752; -756257]);
  ("CuCl2", 3, [-1672845; -1521537; -1373981; -1229597; -1087948; -948694; -811543; -676279; -542694; -410622; -279877; -146064; -7473]);
  ("CuF", 2, [-2688658; -2618409; -2551622; -2487871; -2426805; -2368112; -2311544; -2256862; -2203848; -2152317; -2102061; -2048644; -1990334; -1932895; -1876265; -1820381; -1765201; -1710685]);
  ("CuF2", 3, [-5092475; -4930015; -4771172; -4615957; -4464224; -4315745; -4170283; -4027587; -3887442; -3796930; -3713840; -3628988; -3540508; -3454049; -3369487; -3286697; -3205576; -3126020]);
  ("CuO", 2, [-1327871; -1232053; -1137842; -1045247; -954093; -864246; -775558; -687929; -601252; -515415; -430325; -341638; -247696; -154334; -61543; 30658; 122278; 213297]);
  ("CuSO4", 6, [-6841498; -6460486; -6073899; -5687332; -5302621; -4920438; -4529747; -4091203; -3656463; -3225237; -2797224; -2367936; -1935580; -1505825; -1078589; -653768; -231258; 189003]);
  ("Fe(CO)5", 11, [-7219203; -6992940; -6785790; -6589926; -6400653]);
  ("Fe(HO)2", 5, [-5093625; -4810629; -4531654; -4256151; -3983746; -3714068; -3446659; -3180857; -2915480; -2650901; -2387483; -2125909; -1865942]);
  ("Fe(HO)3", 7, [-7303475; -6860423; -6417578; -5976672; -5538512; -5103295; -4670877; -4240822; -3812114; -3385220; -2960596; -2538936; -2120002]);
  ("Fe2(SO4)3", 17, [-23430946; -22311604; -21171296; -20026106; -18881289; -17738670; -16564937; -15241450; -13921664; -12606292; -11296093; -9992475; -8695034; -7403345; -6116703; -4834228; -3541648; -2251576]);
  ("Fe2O3", 5, [-7700799; -7417990; -7140248; -6867802; -6600352; -6337514; -6078749; -5823332; -5567387; -5310384; -5053225; -4797549; -4543148; -4289834; -4037091; -3784172; -3516991; -3248267]);
  ("Fe3O4", 7, [-10538361; -10181716; -9832388; -9491538; -9159695; -8837169; -8523868; -8214743; -7902374; -7588088; -7273346; -6960542; -6649323; -6339349; -6029778; -5719482; -5387287; -5052293]);
  ("Fe877S1000", 1877, [-1107650509; -1112635724; -1112925924; -1112760096; -1113153938; -1112449167; -1099099985; -1033338677; -966167828; -898302573; -830489140; -763712133; -698178839; -634106908; -571610346; -510689153]);
  ("Fe947O1000", 1947, [-2539371085; -2467505221; -2398074961; -2330354806; -2263795449; -2197961591; -2132397205; -2066584076; -1999547962; -1931807079; -1863910731; -1796698425; -1730107975; -1664097925; -1598429896; -1532792959; -1460522888; -1387662054]);
  ("FeBr2", 3, [-2459338; -2356151; -2227178; -2101947; -1980125; -1861164; -1744255; -1648324; -1588190; -1529818; -1473509; -1419885; -1368706; -1331939; -1305302; -1277656; -1242008; -1204759]);
  ("FeCl", 2, [2232734; 2110425; 1989640; 1870513; 1753210; 1637856; 1524678; 1414049; 1306841; 1202390; 1100012; 998722; 898520; 799386; 701506; 605159; 517312; 431548]);
  ("FeCl2", 3, [-3131016; -2996570; -2866561; -2739878; -2615714; -2493468; -2372579; -2276025; -2203828; -2132988; -2063838; -1997050; -1932387; -1878250; -1848069; -1816878; -1777680; -1736886]);
  ("FeCl3", 4, [-3456734; -3232751; -3015630; -2823373; -2729327; -2638293; -2546880; -2454508; -2360137; -2264314; -2167594; -2070849; -1974016; -1877032; -1779649; -1681520; -1575634; -1468374]);
  ("FeF", 2, [147287; 32896; -79110; -188806; -296169; -401180; -503683; -603335; -699319; -792318; -883046; -972480; -1060649; -1147574; -1233089; -1316905; -1392067; -1465021]);
  ("FeF2", 3, [-6870507; -6724070; -6580660; -6439540; -6300141; -6161985; -6024606; -5887373; -5749197; -5610564; -5471983; -5344886; -5247908; -5152567; -5058480; -4965233; -4865694; -4766187]);
  ("FeF3", 4, [-10072642; -9834959; -9602985; -9374132; -9147382; -8922094; -8697687; -8473528; -8248562; -8023294; -7798296; -7574417; -7351586; -7129738; -6908637; -6687941; -6460621; -6233073]);
  ("FeI2", 3, [-1158404; -1177786; -1117714; -1004723; -895079; -789478; -709880; -666392; -625069; -586058; -549607; -516307; -485836; -457925; -432118; -407896; -378078; -348913]);
  ("FeO", 2, [-2604552; -2534510; -2466925; -2401050; -2336366; -2272429; -2208813; -2144938; -2079799; -2013944; -1947934; -1882660; -1818049; -1754029; -1697937; -1649578; -1594346; -1538597]);
  ("FeS", 2, [-1056679; -1058047; -1062255; -1067862; -1074205; -1079449; -1072049; -1012278; -951088; -889109; -827090; -766106; -714544; -677637; -640896; -603957; -559754; -514648]);
  ("FeS2", 3, [-1617759; -1575722; -1518407; -1453931; -1384843; -1312314; -1214454; -1012662; -809978; -607015; -404393; -203026]);
  ("FeSO4", 6, [-8542586; -8179867; -7811500; -7442719; -7075150; -6709229; -6333669; -5908682; -5485042; -5063113; -4643318; -4226364; -3812073; -3400269; -2990590; -2582611; -2169221; -1756734]);
  ("H10SO8", 19, [-17450792; -16336000; -15245648; -14181330; -13142789; -12129598; -11130119; -10104699]);
  ("H2C", 3, [355085; 385344; 419406; 456116; 494723; 534693; 575642; 617306; 659473; 702008; 744797; 787768; 830857; 874035; 917274; 960545; 1003842; 1047154]);
  ("H2CCl2", 5, [-712637; -617047; -517022; -414198; -309560; -203741; -97175; 9856; 117137; 224532; 331947; 439310; 546591; 653747; 760779; 867666; 974407; 1081004]);
  ("H2CClF", 5, [-2450508; -2358908; -2262148; -2162018; -2059650; -1955811; -1850976; -1745509; -1639638; -1533550; -1427336; -1321103; -1214879; -1108718; -1002629; -896634; -790742; -684944]);
  ("H2CF2", 5, [-4383103; -4283150; -4177185; -4067189; -3954478; -3839901; -3724080; -3607409; -3490189; -3372607; -3254817; -3136902; -3018926; -2900960; -2783004; -2665090; -2547227; -2429427]);
  ("H2CO", 4, [-1138868; -1115351; -1087451; -1056296; -1022695; -987290; -950528; -912761; -874237; -835132; -795593; -755701; -715539; -675139; -634553; -593790; -552882; -511840]);
  ("H2N", 3, [777600; 948201; 1116263; 1281387; 1443318; 1601902; 2305066; 2347414; 2390167; 2433231; 2476522; 2519990; 2563582; 2607267; 2651015; 2694814; 2738635; 2782465]);
  ("H2O2", 4, [-1090891; -982087; -870371; -756996; -642606; -527552; -412032; -296190; -180110; -63865; 52495; 168927; 285422; 305808; 276768; 247913; 219204; 190640]);
  ("H2S", 3, [-346250; -387033; -416426; -439435; -458111; -473585; -475409; -424769; -373798; -322629; -271326; -219951; -168533; -117096; -65668; -14241; 37177; 88583]);
  ("H2SO4", 7, [-7142528; -6715717; -6293684; -5881476; -5481156; -5093895; -4709287; -4288612]);
  ("H2WO4", 7, [-10396526; -9952914; -9513179; -9079476; -8652768; -8233285; -7820673; -7414590]);
  ("H30S2O21", 53, [-47320262; -44264356; -41290245; -38388974; -35552004; -32772741; -30023659; -27222114]);
  ("H3C", 4, [1533539; 1543572; 1557139; 1573473; 1591973; 1612204; 1633772; 1656387; 1679841; 1703949; 1728584; 1753645; 1779048; 1804741; 1830683; 1856842; 1883199; 1909721]);
  ("H3CCl", 5, [-621856; -535615; -442782; -345462; -245011; -142405; -38265; 66912; 172793; 279162; 385820; 492655; 599584; 706532; 813471; 920378; 1027213; 1133976]);
  ("H3CF", 5, [-2178674; -2090640; -1995278; -1894817; -1790770; -1684194; -1575836; -1466234; -1355750; -1244677; -1133209; -1021472; -909579; -797593; -685566; -573538; -461521; -349535]);
  ("H3N", 4, [-167725; -61574; 49749; 164574; 281805; 400703; 520774; 641652; 763070; 884829; 1006796; 1128856; 1250926; 1372945; 1494880; 1616681; 1738348; 1859838]);
  ("H4BrN", 6, [-1818038; -1452957; -1078651; -704190; -331356; 38244; 403616; 764137; 1119466; 1469395; 1813820; 2152742; 2486171]);
  ("H4C", 5, [-524619; -435859; -339337; -237207; -131035; -21920; 89299; 202020; 315820; 430366; 545430; 660836; 776471; 892239; 1008081; 1123954; 1239816; 1355668]);
  ("H4C2O", 7, [-133844; 9805; 162605; 321292; 483856; 648969; 815772; 983642; 1152155; 1321009; 1489999; 1658988; 1827864; 1996573; 2165076; 2333340; 2501355; 2669132]);
  ("H4IN", 6, [-1154652; -835837; -474020; -84749; 302678; 687566; 1069375; 1447713; 1822298; 2192883; 2559302; 2921523; 3279639; 3633828; 3984358; 4331551; 4675769; 5017437]);
  ("H4NCl", 6, [-2097729; -1710613; -1329726; -954653; -581218; -210726; 155848; 517778; 874631; 1226207; 1572467; 1913535; 2249358]);
  ("H4NClO4", 10, [-905029; -182567; 540652; 1243277; 1936274; 2620523; 3294823; 3958157; 4609728; 5248851; 5875133; 6488439; 7088810]);
  ("H4SO5", 10, [-9837664; -9230628; -8635304; -8054263; -7487948; -6936403; -6388351; -5804428]);
  ("H6SO6", 13, [-12417932; -11637896; -10875034; -10134434; -9418149; -8727349; -8051630; -7352280]);
  ("H8SO7", 16, [-14947125; -13998732; -13069907; -12164339; -11283158; -10426914; -9584682; -8717389]);
  ("HBr", 2, [-555722; -581519; -591033; -599770; -607916; -615617; -622986; -630106; -637050; -643870; -650596; -657261; -663873; -670444; -676984; -683493; -689981; -696438]);
  ("HC", 2, [1083543; 1053228; 1023223; 993597; 964380; 935552; 907086; 878927; 851041; 823379; 795914; 768609; 741450; 714414; 687488; 660655; 633915; 607253]);
  ("HC2", 3, [4537364; 4401240; 4264515; 4127965; 3992007; 3856805; 3722411; 3588816; 3455977; 3323874; 3192445; 3061658; 2931472; 2801857; 2672780; 2544201; 2416119; 2288483]);
  ("HC2Cl", 4, [2049141; 1992645; 1935020; 1876918; 1818774; 1760776; 1703036; 1645587; 1588418; 1531529; 1474919; 1418558; 1362446; 1306572; 1250937; 1195529; 1140350; 1085388]);
  ("HC2F", 4, [1134898; 1078786; 1021751; 964447; 907268; 850399; 793893; 737781; 682042; 626665; 571621; 516908; 462485; 408363; 354520; 300947; 247634; 194589]);
  ("HCCl", 3, [3306535; 3252931; 3200435; 3148935; 3098233; 3048101; 2998322; 2948687; 2899063; 2849335; 2799442; 2749362; 2699074; 2648600; 2597940; 2547144; 2496225; 2445212]);
  ("HCCl2F", 5, [-2617694; -2509988; -2400137; -2289167; -2177617; -2065827; -1953997; -1842229; -1730626; -1619210; -1508022; -1397073; -1286362; -1175868; -1065603; -955544; -845683; -736008]);
  ("HCCl3", 5, [-727095; -611813; -495143; -377871; -260402; -142965; -25672; 91382; 208166; 324661; 440844; 556738; 672320; 787623; 902666; 1017450; 1131996; 1246324]);
  ("HCClF2", 5, [-4666472; -4556165; -4443184; -4328742; -4213502; -4097847; -3982016; -3866174; -3750395; -3634761; -3519292; -3404000; -3288905; -3174007; -3059284; -2944728; -2830358; -2716123]);
  ("HCF", 3, [1142744; 1090788; 1040386; 991446; 943812; 897328; 851840; 807201; 763329; 720130; 677544; 635496; 593956; 552882; 512254; 472010; 432149; 392640]);
  ("HCF3", 5, [-6865004; -6742322; -6615691; -6486656; -6356139; -6224709; -6092751; -5960493; -5828089; -5695644; -5563230; -5430879; -5298620; -5166465; -5034414; -4902467; -4770633; -4638893]);
  ("HCN", 3, [1292010; 1256067; 1220590; 1185600; 1151087; 1117009; 1083326; 1049984; 1016942; 984139; 951565; 919176; 886964; 854887; 822954; 791136; 759432; 727841]);
  ("HCNO", 4, [-956643; -923218; -888363; -852534; -815979; -778844; -741242; -703257; -664961; -626406; -587644; -548695; -509601; -470362; -430998; -391521; -351929; -312234]);
  ("HCO", 3, [292428; 240182; 189189; 139451; 90843; 43229; -3534; -49572; -94978; -139824; -184173; -228055; -271534; -314618; -357329; -399677; -441694; -483369]);
  ("HCOF", 4, [-3814073; -3782462; -3747814; -3711011; -3672642; -3633133; -3592765; -3551732; -3510213; -3468290; -3426055; -3383572; -3340861; -3297963; -3254900; -3211681; -3168317; -3124807]);
  ("HCl", 2, [-987902; -997872; -1007055; -1015543; -1023441; -1030882; -1037940; -1044708; -1051248; -1057612; -1063830; -1069945; -1075967; -1081906; -1087793; -1093628; -1099411; -1105153]);
  ("HClO", 3, [-638346; -592474; -544705; -495682; -445798; -395283; -344291; -292946; -241311; -189449; -137410; -85236; -32938; 19464; 71938; 124496; 177115; 229807]);
  ("HF", 2, [-2846641; -2853740; -2860342; -2866405; -2871961; -2877018; -2881641; -2885859; -2889725; -2893259; -2896514; -2899509; -2902276; -2904826; -2907199; -2909396; -2911438; -2913324]);
  ("HI", 2, [14572; -66622; -104555; -113468; -121842; -129844; -137586; -145162; -152635; -160035; -167393; -174721; -182017; -189283; -196496; -203648; -210737; -217743]);
  ("HN", 2, [1264809; 1320191; 1377883; 1436986; 1496943; 1557413; 1618169; 1679074; 1740021; 1800953; 1861822; 1922598; 1983266; 2043814; 2104232; 2164521; 2224681; 2284711]);
  ("HNO", 3, [1165753; 1211708; 1259653; 1308831; 1358798; 1409261; 1460036; 1510997; 1562062; 1613168; 1664295; 1715401; 1766476; 1817520; 1868533; 1919505; 1970435; 2021334]);
  ("HNO2", 4, [-431900; -308928; -183790; -57708; 68736; 195211; 321541; 447623; 573403; 698863; 823970; 948735; 1073148; 1197239; 1320999; 1444458; 1567617; 1690506]);
  ("HNO3", 5, [-762468; -549897; -334258; -117469; 99549; 316307; 532578; 748218; 963173; 1177412; 1390927; 1603747; 1815872; 2027335; 2238165; 2448383; 2658032; 2867141]);
  ("HO2", 3, [150344; 194610; 240824; 288324; 336683; 385665; 435103; 484872; 534890; 585084; 635413; 685835; 736330; 786856; 837402; 887949; 938495; 989031]);
  ("HOF", 3, [-886798; -841341; -793883; -745077; -695318; -644855; -593852; -542435; -490696; -438699; -386484; -334092; -281566; -228905; -176141; -123273; -70311; -17267]);
  ("HPb", 2, [2166112; 2074109; 1985256; 1898849; 1822713; 1748370; 1675405; 1603581; 1532700; 1462627; 1393238; 1324471; 1256274; 1188585; 1121383; 1054637; 988337; 922451]);
  ("HS", 2, [1088756; 969816; 852907; 736527; 620260; 503952; 393086; 307280; 220593; 133108; 44857; -44110; -133741; -224003; -314846; -406248; -498179; -590598]);
  ("HSO3F", 6, [-7154944; -6934113; -6703000; -6467503; -6229829; -5991026; -5740459; -5439118; -5138990; -4840032; -4542215; -4245475; -3949752; -3654992; -3361144; -3068146; -2775956; -2484513]);
  ("HgBr", 2, [-925146; -849026; -759919; -673045; -520141; -340969; -164393; 9810; 181826; 351810; 519898; 678829; 708149; 737532; 766956; 796422; 825929; 855477]);
  ("HgBr2", 3, [-1576157; -1452138; -1301203; -1186253; -1014745; -820633; -632200; -448804; -269917; -95134; 75898; 243488; 407876]);
  ("HgCl", 2, [-1089010; -995468; -903982; -814450; -658655; -476425; -296662; -119205; 56091; 229351; 400683; 570190; 607004; 636864; 666796; 696800; 726857; 756975]);
  ("HgCl2", 3, [-1904290; -1746121; -1591641; -1459269; -1283211; -1084642; -891815; -704066; -520877; -341814; -166523; 5296; 173902])].

Definition nist_4 : list (string * Z * list Z) := [
  ("HgF", 2, [-2427966; -2397862; -2368822; -2342191; -2249804; -2131496; -2016146; -1903528; -1769549; -1622677; -1478458; -1336732; -1197358; -120454; -88811; -57086; -25268; 6623]);
  ("HgF2", 3, [-3874507; -3708679; -3547172; -3389345; -3166689; -2918859; -2674708; -2455804; -2246145; -2040642; -1838912; -1640664; -1445619; -1253559; -1064276; -877605; -693391; -511487]);
  ("HgH", 2, [2228184; 2148907; 2072440; 1997848; 1992728; 2016794; 2040808; 2064729; 2088515; 2112135; 2135600; 2158888; 2182021; 2204978; 2227780; 2250426; 2272916; 2295261]);
  ("HgI", 2, [-575284; -558152; -501123; -427490; -304969; -157578; -13883; 126527; 263994; 398791; 531148; 661266; 789322; 841185; 867355; 893494; 919612; 945698]);
  ("HgI2", 3, [-1059063; -1041361; -950062; -833246; -665770; -475648; -291174; -111706; 63284; 234201; 401419; 565236; 725924]);
  ("HgO", 2, [-604123; -492324; -381986; -273472; -98730; 102337; 300844; 496967]);
  ("IBr", 2, [35695; -56257; -90667; -96823; -102990; -109167; -115344; -121511; -127688; -133855; -140011; -146147; -152251; -158325; -164346; -170306; -176193; -182007]);
  ("ICl", 2, [-144240; -115748; -61574; 8841; 70052; 124050; 172306; 215960]);
  ("IF", 2, [-1220994; -1296177; -1329073; -1333747; -1338452; -1343179; -1347946; -1352724; -1357523; -1362342; -1367151; -1371971; -1376769; -1381537; -1386263; -1390927; -1395529; -1400037]);
  ("IF5", 6, [-7992927; -7751170; -7470350; -7164459; -6861459; -6561040; -6262912; -5966836; -5672594; -5380000; -5088910; -4799176; -4510666; -4223275; -3936890; -3651426; -3366813; -3082956]);
  ("IF7", 8, [-8654551; -8216526; -7740712; -7241393; -6746499; -6255626; -5768360; -5284338; -4803260; -4324845; -3848855; -3375084; -2903333; -2433438; -1965232; -1498601; -1033422; -569569]);
  ("INO", 3, [1079729; 1056710; 1075915; 1123187; 1170240; 1217066; 1263685; 1310117; 1356362; 1402462; 1448428; 1494290; 1540069; 1585785; 1631471; 1677147; 1722843; 1768570]);
  ("K2B4O7", 13, [-32497497; -31796344; -31083230; -30367359; -29650504; -28933359; -28216192; -27499068; -26698479; -25934322; -25187451; -24457143; -23742734; -23043550; -22358948; -21688307; -21031026; -20386555]);
  ("K2B8O13", 23, [-57836827; -56563939; -55279743; -53992293; -52704864; -51420192; -50139966; -48865233; -47500973; -46164231; -44876967; -43603499; -42342426; -41092547; -39852835; -38622450; -37400534; -36186421]);
  ("K2CO3", 6, [-11027555; -10721114; -10411461; -10105373; -9803638; -9506753; -9215061; -8928810; -8552618; -8127590; -7728337; -7336309; -6950934; -6571695; -6198166; -5829986; -5466812; -5108332]);
  ("K2O", 3, [-3335627; -3185262; -3032980; -2884294; -2739267; -2597960; -2460416; -2326593; -2100879; -1817790; -1540069; -1267613; -1000349; -738175; -481058; -228916; 18303; 260630]);
  ("K2O2", 4, [-4449880; -4212859; -3974294; -3740373; -3511395; -3287630; -3069213; -2856165; -2552865; -2193857; -1841907; -1496922; -1158850; -827587; -503103; -185344; 125750; 430211]);
  ("K2S", 3, [-3758697; -3698978; -3624697; -3546219; -3465574; -3383831; -3290532; -3148386; -2918341; -2634391; -2367283; -2106341; -1848375; -1593165; -1340546; -1090332; -842387; -596588]);
  ("K2SO4", 7, [-13669045; -13247115; -12813060; -12378600; -11946472; -11518448; -11088631; -10617741; -10056122; -9438473; -8827738; -8239078; -7666763; -7099091; -6535752; -5976444; -5420898; -4868866]);
  ("K2SiO3", 6, [-15081674; -14751002; -14416257; -14084891; -13757805; -13435279; -13117303; -12803701; -12398644; -11936449; -11500870; -11090300; -10683875; -10281244; -9877504; -9450859; -9027385; -8606886]);
  ("K3Al2Cl9", 14, [-27200411; -26379540; -25563447; -24759604; -23967680; -23187178; -22417424; -21641792; -20724585; -19725532; -18738863; -17764663; -16803118]);
  ("K3AlCl6", 10, [-20080892; -19538477; -18996872; -18464075; -17940151; -17424902; -16918027; -16411203; -15764680; -15033999; -14313039; -13601377; -12898627; -12204387; -11518324; -10840075; -10169331; -9505789]);
  ("K3AlF6", 10, [-32776358; -32199110; -31619581; -31046945; -30481812; -29924494; -29375084; -28825425; -28135838; -27361845; -26597303; -25841769; -25094795; -24355957; -23624861; -22901155; -22184497; -21474544]);
  ("KAlCl4", 6, [-11337343; -10983465; -10636801; -10299413; -9971010; -9651200; -9339422; -9027032]);
  ("KB3O5", 9, [-22551708; -22059115; -21561127; -21060994; -20559529; -20057582; -19555910; -19055186; -18508072; -17931937; -17358104; -16786426; -16216790; -15649072; -15083182; -14519050; -13956581; -13395718]);
  ("KBF4", 6, [-18493230; -18135963; -17780645; -17442552; -17123167; -16807160; -16507052; -16220677; -15890419; -15533080; -15179638; -14829709; -14482972]);
  ("KBH4", 6, [-1651257; -1412702; -1170334; -926815; -682736; -439113; -196247; 45852; 335046; 654193; 972024; 1288683; 1604306; 1919028; 2232951; 2546160; 2858757; 3170804]);
  ("KBO2", 4, [-9703591; -9495705; -9284968; -9074915; -8866023; -8658520; -8452520; -8248033; -7997249; -7717362; -7461996; -7216923; -6976472; -6740270; -6508017; -6279433; -6054279; -5832349]);
  ("KBr", 2, [-3942030; -3858587; -3758241; -3659106; -3561288; -3464890; -3370026; -3276882; -3162336; -3021030; -2882335; -2746024; -2611952; -2479942; -2349871; -2221623; -2095075; -1970155]);
  ("KCN", 3, [-1056534; -1013926; -970935; -929281; -888384; -847901; -808424; -785560; -715653; -615783; -517198; -419753; -323334; -227817; -133119; -39187; 54060; 146675]);
  ("KCl", 2, [-4234707; -4133655; -4031028; -3929635; -3829609; -3731024; -3633973; -3538570; -3411918; -3268467; -3127948; -2990144; -2854849; -2721886; -2591120; -2462406; -2335630; -2210679]);
  ("KClO4", 6, [-3103861; -2650238; -2201154; -1767699; -1361430; -964064; -575321; -194879; 225361; 668454; 1103318; 1530254; 1949540]);
  ("KF", 2, [-5583752; -5476471; -5367366; -5259267; -5152297; -5046520; -4941975; -4838664; -4688859; -4527249; -4376127; -4227587; -4081430; -3937491; -3795614; -3655686; -3517593; -3381230]);
  ("KH", 2, [-549099; -536538; -531615; -533719; -542259; -556717; -576616; -601522; -631070; -664930; -702801; -744414; -789540]);
  ("KHF2", 4, [-8940968; -8699926; -8465569; -8264377; -8069052; -7877324; -7688673; -7502676; -7271200; -7011223; -6753899; -6499000; -6246319; -5995669; -5746896; -5499884; -5254499; -5010628]);
  ("KHO", 3, [-3924069; -3761288; -3598610; -3450349; -3310017; -3183148; -3059088; -2937452; -2770142; -2574164; -2380684; -2189494; -2000408; -1813240; -1627854; -1444137; -1261954; -1081222]);
  ("KI", 2, [-3347598; -3322257; -3253034; -3156792; -3061990; -2968825; -2877464; -2800105; -2691342; -2554213; -2419881; -2288120; -2158733; -2031553; -1906415; -1783183; -1661725; -1548562]);
  ("KO2", 3, [-2490700; -2336553; -2185493; -2039792; -1898911; -1762351; -1629647; -1500384; -1326420; -1124731; -926442; -731272; -539004]);
  ("Li2B4O7", 13, [-32845415; -32175065; -31492038; -30796751; -30099090; -29400881; -28703282; -28007135; -27313133; -26632573; -26056900; -25495643; -24947798; -24412422; -23740019; -23042037; -22355342; -21679394]);
  ("Li2B8O13", 23, [-57650923; -56435618; -55217008; -53994397; -52775092; -51558917; -50345665; -49135139; -47927131; -46721528; -45518174; -44316986; -43117974; -41921067; -40577546; -39199533; -37824464; -36452317]);
  ("Li2BeF4", 7, [-22498804; -22144978; -21787224; -21425231; -21067943; -20759834; -20481419; -20211595; -19949359; -19693890; -19444515; -19200664; -18961851; -18722229; -18333942; -17913235; -17497358; -17086031]);
  ("Li2CO3", 6, [-11728211; -11435969; -11137333; -10832986; -10534205; -10242233; -9954200; -9674748; -9444547; -9219310; -8998562; -8781866; -8568890; -8359345; -8004234; -7615470; -7230334; -6848618]);
  ("Li2ClF", 4, [-7804691; -7798452; -7780635; -7750983; -7718035; -7682600; -7645123; -7605915; -7565193; -7523125; -7479843; -7435464; -7390079; -7343781; -7147876; -6914555; -6681349; -6448267]);
  ("Li2O", 3, [-5823425; -5694805; -5558069; -5412720; -5267102; -5121889; -4977411; -4833907; -4691554; -4550475; -4410765; -4272464; -4135614; -4000205; -3717468; -3399502; -3102566; -2821984]);
  ("Li2O2", 4, [-5913553; -5698267; -5475777; -5245845; -5016961; -4789890; -4565068; -4342806; -4123364; -3906926; -3693671; -3483732; -3277235; -3074261; -2726156; -2345103; -1968662; -1596823]);
  ("Li2SO4", 7, [-13684933; -13281991; -12865544; -12440392; -12017021; -11597403; -11189828; -10754674; -10326515; -9909789; -9500566; -9095862; -8695314; -8298580; -7756673; -7181456; -6610209; -6042692]);
  ("Li2Si2O5", 9, [-25039605; -24536389; -24026155; -23510191; -22997263; -22487973; -21982518; -21480980; -20983350; -20489617; -20000413; -19554656; -19115377; -18679248; -18087997; -17410412; -16736372; -16065679]);
  ("Li2SiO3", 6, [-16149360; -15832400; -15507822; -15175399; -14843452; -14512562; -14183040; -13855042; -13528702; -13204093; -12881236; -12560151; -12245999; -11948254; -11498839; -10988191; -10480000; -9974120]);
  ("Li2TiO3", 6, [-16367290; -16050475; -15726964; -15396334; -15066646; -14738306; -14411396; -14085844; -13761505; -13436978; -13111343; -12787056; -12465235; -12152109; -11692475; -11198441; -10757876; -10328744]);
  ("Li3AlF6", 10, [-33401966; -32848970; -32292046; -31729981; -31174829; -30628612; -30092115; -29556158; -29060300; -28624804; -28200470; -27786407; -27381837; -26986109; -26375529; -25717760; -25068615; -24427616]);
  ("Li3N", 4, [-1330949; -1204246; -1065250; -913590; -762354; -613005; -466475; -323396; -184266; -49427; 80831]);
  ("LiAlF4", 6, [-18786062; -18643015; -18494505; -18340678; -18185784; -18030082; -17873613; -17708447; -17538670; -17368334; -17197499; -17026219; -16854514; -16682416; -16435570; -16170058; -15904650; -15639324]);
  ("LiAlH4", 6, [-496397; -254008; -3731; 253210; 511777; 771247; 1031318; 1299825; 1572654; 1845753; 2119089; 2392665; 2666458; 2940479; 3289102; 3656267; 4023224; 4389995]);
  ("LiAlO2", 4, [-11669300; -11451391; -11229606; -11004204; -10779330; -10555120; -10331552; -10100636; -9866414; -9632928; -9400219; -9168329; -8937288; -8707118; -8403476; -8082422; -7762716; -7456845]);
  ("LiB3O5", 9, [-22701384; -22221176; -21740046; -21256210; -20773225; -20291126; -19809913; -19329606; -18850202; -18371688; -17894056; -17417310; -16941486; -16466590; -15918273; -15352612; -14788360; -14225503]);
  ("LiBH4", 6, [-1288538; -1058348; -822229; -580565; -338197; -95756; 146509; 388619; 630604; 872516; 1114387; 1356279; 1598223; 1840259; 2156805; 2491820; 2826575; 3161134]);
  ("LiBO2", 4, [-9977913; -9782142; -9582547; -9379024; -9175946; -8973874; -8773201; -8574280; -8377389; -8209696; -8051941; -7898405; -7748755; -7602670; -7385529; -7153162; -6924090; -6698129]);
  ("LiBeF3", 5, [-16332062; -16070167; -15807049; -15543113; -15305418; -15096568; -14894247; -14697533; -14505732; -14318273; -14134712; -13954632; -13777704; -13598205; -13342757; -13071669; -12803514; -12538106]);
  ("LiBr", 2, [-3540156; -3475897; -3394548; -3310545; -3227922; -3147080; -3085454; -3030969; -2978308; -2927295; -2877806; -2829716; -2782921; -2737360; -2618554; -2482513; -2367868; -2261645]);
  ("LiC", 2, [-290666; -285515; -278203; -267823; -258034; -248815; -240104; -231854; -224029; -216608; -209576; -202922; -196647; -190749; -110856; -13023; 83992; 180219]);
  ("LiCl", 2, [-3978523; -3895277; -3810352; -3722867; -3636730; -3552106; -3473047; -3415142; -3358936; -3304192; -3250692; -3198269; -3146780; -3096088; -2971727; -2829654; -2688513; -2570324]);
  ("LiClO", 3, [-188536; -200113; -205005; -203368; -199616; -194268; -187593; -179799; -171010; -161361; -150904; -139741; -127916; -115468; -28087; 78147; 184463; 290842]);
  ("LiClO4", 6, [-2623456; -2184478; -1748266; -1370592; -1006806; -650099; -299393; 46131; 387116; 724038; 1057311; 1387279; 1714199]);
  ("LiF", 2, [-6099219; -6001318; -5900847; -5797162; -5694235; -5592302; -5491489; -5391878; -5293531; -5216255; -5145758; -5076576; -5008628; -4941820; -4801705; -4644293; -4488258; -4333530]);
  ("LiH", 2, [-707973; -629298; -545451; -457096; -369082; -282250; -197160; -123501; -66860; -11929; 41426; 93351; 143960; 193345; 315976; 455852; 594308; 731427]);
  ("LiHO", 3, [-4546516; -4386388; -4223182; -4057001; -3892178; -3745575; -3615100; -3487640; -3362844; -3240442; -3120206; -3001929; -2885476; -2770681; -2583067; -2378569; -2175855; -1974808]);
  ("LiI", 2, [-2794850; -2790145; -2741816; -2663079; -2586124; -2523120; -2470697; -2420037; -2370972; -2323349; -2277031; -2231925; -2187939; -2144979; -2030542; -1924334; -1818121; -1711888]);
  ("LiN", 2, [3209950; 3124631; 3044526; 2970007; 2896959; 2825062; 2754150; 2684108; 2614864; 2546336; 2478481; 2411227; 2344543; 2278388; 2287094; 2314580; 2342066; 2369542]);
  ("LiNO", 3, [1809094; 1792086; 1780820; 1775389; 1771534; 1768860; 1767171; 1766341; 1766269; 1766891; 1768155; 1770000; 1772394; 1775307; 1853080; 1949623; 2046166; 2142730]);
  ("LiOF", 3, [-994338; -1005884; -1011159; -1010185; -1007304; -1002961; -997406; -990793; -983248; -974853; -965701; -955845; -945325; -934204; -848129; -743212; -638201; -533117]);
  ("Mg(HO)2", 5, [-8634341; -8317722; -8002493; -7689720; -7379486; -7071657; -6765973; -6454848]);
  ("Mg2C3", 5, [768407; 746767; 720120; 690167; 658225; 625235; 591862; 573352; 559888; 547068; 534859; 588867; 770097; 949906; 1128369; 1305556; 1481490; 1656211]);
  ("Mg2Si", 3, [-798567; -795665; -792535; -789312; -785954; -782409; -778533; -759432; -735169; -710326; -685027; -609917; -456391; -304533; -149577; 30119; 208363; 385219]);
  ("Mg2SiO4", 7, [-21320769; -20906095; -20491939; -20079555; -19669171; -19260705; -18853938; -18433874; -18010473; -17588170; -17167039; -16681462; -16070426; -15462499; -14852966; -14220196; -13590390; -12963497]);
  ("Mg2TiO4", 7, [-21215614; -20809997; -20405957; -20004351; -19605244; -19208510; -18813921; -18406460; -17995994; -17585641; -17174646; -16699952; -16100555; -15505024; -14913234; -14325062; -13740382; -13154386]);
  ("Mg3(PO4)2", 13, [-36289007; -35439582; -34586136; -33733343; -32883359; -32037655; -31197237; -30340485; -29482945; -28608978; -27652210; -26604092; -25372754; -24150672; -23000393; -21880160; -20772945; -19678022]);
  ("Mg3N2", 5, [-4151399; -3942372; -3733346; -3524236; -3314971; -3105447; -2896503; -2665214; -2426566; -2187380; -1947074; -1607219; -1076278; -547161; -19744; 506098; 1030468; 1553449]);
  ("MgAl2O4", 7, [-22551216; -22123845; -21696205; -21269871; -20845194; -20422104; -20000340; -19556491; -19103624; -18652114; -18202139; -17721019; -17178346; -16638513; -16101550; -15567489; -15036352; -14508157]);
  ("MgB2", 3, [-927157; -918368; -908781; -897940; -885648; -871926; -856814; -833039; -805760; -777403; -748176; -685400; -558738; -432605; -307073; -182183; -57988; 65481]);
  ("MgB4", 5, [-1075739; -1071034; -1064038; -1053995; -1040988; -1025275; -1007200; -979693; -948051; -914688; -879844; -810942; -677637; -544383; -411192; -278094; -145079; -12157]);
  ("MgBr", 2, [-789695; -896624; -986140; -1073832; -1159845; -1244283; -1327187; -1401198; -1471405; -1540162; -1607582; -1640955; -1609820; -1578572; -1547199; -1515713; -1484112; -1452418]);
  ("MgBr2", 3, [-5222940; -5088910; -4927994; -4770291; -4615345; -4462804; -4312408; -4163193; -4049311; -3938486; -3830459; -3692189; -3492936; -3296834; -3103685; -2916434; -2761737; -2607418]);
  ("MgC2", 3, [878807; 865811; 849052; 829795; 808952; 787166; 764873; 749772; 736993; 724380; 711943; 732485; 816528; 899764; 982243; 1063996; 1145045; 1225409]);
  ("MgCO3", 5, [-10650388; -10360158; -10071544; -9785324; -9501820; -9221114; -8943154; -8660510]);
  ("MgCl", 2, [-728339; -819607; -908822; -996235; -1081989; -1166178; -1248843; -1322616; -1392595; -1461134; -1528336; -1561492; -1530160; -1498705; -1467135; -1435462; -1403685; -1371825]);
  ("MgCl2", 3, [-6133369; -5963354; -5797028; -5633811; -5473217; -5314861; -5158443; -5002233; -4885003; -4769680; -4656087; -4511267; -4304572; -4100179; -3897930; -3697713; -3499393; -3302876]);
  ("MgClF", 3, [-5942977; -5956917; -5968878; -5979201; -5988031; -5995462; -6001504; -5998789; -5992384; -5984621; -5975614; -5932613; -5825177; -5717668; -5610087; -5502413; -5394676; -5286846]);
  ("MgF", 2, [-2724974; -2813848; -2900514; -2985284; -3068343; -3149806; -3229715; -3300710; -3367891; -3433600; -3497952; -3528237; -3494014; -3459646; -3425133; -3390506; -3355744; -3320879]);
  ("MgF2", 3, [-11097845; -10914252; -10733023; -10554094; -10377228; -10202154; -10028594; -9848919; -9668011; -9487994; -9308847; -9097706; -8823996; -8577482; -8347499; -8119682; -7893917; -7670069]);
  ("MgH", 2, [1455942; 1358901; 1264524; 1172261; 1081740; 992752; 905174; 826323; 751088; 677119; 604299; 565361; 590743; 616083; 641414; 666703; 691971; 717228]);
  ("MgH2", 3, [-377995; -238264; -95299; 49064; 193864; 338549; 482882; 634128; 787198; 939853; 1092032; 1276557; 1523952; 1769969; 2014669; 2258147; 2500453; 2741671]);
  ("MgHO", 3, [-1788013; -1813178; -1835969; -1857039; -1876648; -1894941; -1911970; -1920365; -1925226; -1928884; -1931465; -1900238; -1804762; -1709379; -1614101; -1518926; -1423844; -1328855]);
  ("MgI", 2, [-248297; -410508; -528371; -616177; -702314; -786876; -869904; -944040; -1014382; -1083263; -1150797; -1184263; -1153212; -1122005; -1090622; -1059073; -1027348; -995437]);
  ("MgI2", 3, [-3743617; -3717260; -3610280; -3450194; -3293071; -3138571; -2986393; -2860570; -2737816; -2617684; -2499956; -2351581; -2141860; -1934916; -1730543; -1528533; -1328741; -1130991]);
  ("MgN", 2, [2692514; 2593721; 2496608; 2400894; 2306424; 2213176; 2121152; 2037761; 1957956; 1879426; 1802067; 1758630; 1779566; 1800533; 1821531; 1842550; 1863589; 1884670]);
  ("MgO", 2, [-5894628; -5782207; -5670065; -5558484; -5447462; -5336875; -5226589; -5109089; -4989350; -4869591; -4749853; -4597332; -4381517; -4166707; -3952871; -3739958; -3527946; -3316785]);
  ("MgS", 2, [-3538425; -3522194; -3498522; -3471347; -3441944; -3410820; -3367052; -3264031; -3158719; -3053335; -2947920; -2809661; -2608055; -2407403; -2207673; -2008824; -1810825; -1613634]);
  ("MgSO4", 6, [-11884690; -11485044; -11078308; -10669749; -10261262; -9853697; -9436328; -8962701; -8489894; -8020195; -7553679; -7057510; -6511603; -5968847; -5429013; -4891895; -4357296; -3825059]);
  ("MgSiO3", 5, [-15147218; -14844498; -14541831; -14240044; -13939355; -13639869; -13341586; -13037819; -12732664; -12428099; -12124592; -11789526; -11391527; -10994804; -10594587; -10169237; -9766202; -9386403]);
  ("MgTi2O5", 8, [-24541747; -24053600; -23567992; -23085650; -22606571; -22130582; -21657494; -21179608; -20701629; -20222996; -19741990; -19230866; -18659048; -18090713; -17525725; -16963940; -16405202; -15868623])].

Definition nist_5 : list (string * Z * list Z) := [
  ("MgTiO3", 5, [-15376217; -15069020; -14763502; -14460316; -14159451; -13860732; -13563920; -13261325; -12957714; -12653833; -12348782; -12012212; -11613540; -11216941; -10822301; -10429474; -10038347; -9666746]);
  ("MgWO4", 6, [-14546588; -14159368; -13775082; -13394247; -13016655; -12642070; -12270262; -11893697; -11517339; -11143489; -10772220; -10370781; -9908721; -9450382; -8995753; -8544835; -8097627; -7654129]);
  ("Mo(ClO)2", 5, [-6190849; -6067359; -5944252; -5821860; -5700215; -5579254; -5458883; -5339010; -5219530; -5100383; -4981463; -4862720; -4744059; -4625430; -4506748; -4387963; -4269002; -4149813]);
  ("Mo(HO2)2", 7, [-8155003; -7932524; -7710158; -7488954; -7269252; -7051115; -6834502; -6619329; -6405483; -6192860; -5981346; -5770827; -5561189; -5352318; -5144110; -4936472; -4729300; -4522481]);
  ("Mo1000O2889", 3889, [-6778213357; -6519935691; -6264746578; -6012614926; -5763385270; -5516933239; -5273238104; -5032320595; -4794232531; -4559025736; -4326772758; -4097525419; -3871345904]);
  ("Mo2S3", 5, [-4099930; -4056307; -3991043; -3916503; -3836895; -3754167; -3635901; -3364844; -3096865; -2831861; -2569738; -2310404; -2053774; -1799756; -1548256; -1299203; -1052513; -808102]);
  ("Mo4O11", 15, [-26374503; -25381647; -24400482; -23431091; -22472769; -21525143; -20588088; -19661563; -18745776; -17840893; -16947078; -16064539; -15193567]);
  ("Mo8O23", 31, [-54076627; -52016873; -49981745; -47970910; -45983043; -44017313; -42073556; -40151937; -38252705; -36376357; -34523474; -32694553; -30889926]);
  ("MoBr", 2, [4227245; 4090395; 3970573; 3852265; 3735325; 3619608; 3505021; 3391490; 3278955; 3167373; 3056724; 2946977; 2838121; 2730146; 2623063; 2516870; 2411559; 2307149]);
  ("MoBr2", 3, [-1928636; -1807653; -1661030; -1518356; -1378987; -1242510; -1108614; -977071; -847694; -720327; -594837; -471098; -349007; -228460; -109364; 8364]);
  ("MoBr3", 4, [-2683745; -2503759; -2284845; -2071549; -1862999; -1658615; -1457994; -1260793; -1066774; -875719; -687431; -501776; -318587]);
  ("MoBr4", 5, [-2767582; -2513315; -2207403; -1909182; -1617531; -1331664; -1050989; -775061]);
  ("MoCl4", 5, [-4163328; -3909476; -3665957; -3434264; -3236980; -3046485; -2861824; -2682232; -2507128; -2336024; -2168517; -2004274; -1842975]);
  ("MoCl5", 6, [-4382429; -4029888; -3705227; -3420873; -3146593; -2880718; -2622057; -2369708; -2122935; -1881157]);
  ("MoCl6", 7, [-4044295; -3594195; -3160139; -2741671; -2338118; -1948203; -1570488; -1203634; -846502; -498159; -157827; 175156; 501372]);
  ("MoF", 2, [2569500; 2450000; 2332417; 2216441; 2101885; 1988593; 1876462; 1765419; 1655392; 1546349; 1438250; 1331083; 1224819; 1119476; 1015035; 911496; 808869; 707165]);
  ("MoF2", 3, [-1812908; -1855225; -1897916; -1940679; -1983349; -2025801; -2067963; -2109793; -2151250; -2192303; -2232920; -2273051; -2312694; -2351788; -2390322; -2428266; -2465577; -2502226]);
  ("MoF3", 4, [-6177645; -6139007; -6099861; -6060477; -6020906; -5981159; -5941257; -5901209; -5861017; -5820669; -5780144; -5739433; -5698505; -5657338; -5615881; -5574123; -5532013; -5489530]);
  ("MoF4", 5, [-9494741; -9385626; -9276863; -9168660; -9061017; -8953861; -8847119; -8740709; -8634548; -8528563; -8422681; -8316841; -8210960; -8104985; -7998855; -7892507; -7785900; -7678962]);
  ("MoF5", 6, [-13141700; -12863129; -12587196; -12314077; -12043559; -11775389; -11509302; -11245064; -10982455; -10721285; -10461386; -10233423; -10053354; -9873669; -9694274; -9515096; -9336054; -9157052]);
  ("MoF6", 7, [-15261111; -14879105; -14513619; -14163991; -13829971; -13511539; -13208747; -12921656]);
  ("MoI", 2, [4571090; 4377122; 4227079; 4106760; 3987778; 3869999; 3753338; 3637725; 3523086; 3409410; 3296647; 3184796; 3073846; 2963809; 2854694; 2746501; 2639272; 2532997]);
  ("MoI2", 3, [-1092446; -1092291; -1013294; -882362; -755327; -631702; -511145; -393407; -278260; -165528; -55034; 53345; 159765]);
  ("MoI3", 4, [-1269167; -1253092; -1118015; -904480; -696324; -492914; -293796; -98616]);
  ("MoI4", 5, [-1290984; -1285087; -1120015; -849559]);
  ("MoO", 2, [2879019; 2764887; 2651720; 2539558; 2428390; 2318198; 2208948; 2100620; 1993184; 1886619; 1780914; 1676058; 1572063; 1468928; 1366654; 1265250; 1164737; 1065126]);
  ("MoO2", 3, [-5510310; -5316986; -5125734; -4936752; -4749946; -4565213; -4382460; -4201645; -4022706; -3845643; -3670414; -3497019; -3325460; -3155734; -2987833; -2821777; -2657565; -2495188]);
  ("MoO3", 4, [-6919199; -6652723; -6389512; -6129462; -5872386; -5618182; -5366838; -5118365; -4885065; -4690258; -4499255; -4311662; -4127178; -3945471; -3766325; -3589490; -3414769; -3241955]);
  ("MoOF4", 6, [-12368287; -12154327; -11940854; -11728532; -11517474; -11307597; -11098799; -10890954; -10683938; -10477626; -10271927; -10066724; -9861906; -9657398; -9453097; -9248942; -9044838; -8840724]);
  ("MoS2", 3, [-2768297; -2734323; -2685642; -2630452; -2571428; -2509802; -2423861; -2235387; -2048219; -1862252; -1677364; -1493471; -1310500; -1128348; -946952; -766241; -586151; -406621]);
  ("N2O", 3, [1081159; 1158726; 1236779; 1314718; 1392274; 1469364; 1545935; 1622009; 1697585; 1772695; 1847369; 1921619; 1995485; 2068989; 2142140; 2214980; 2287509; 2359758]);
  ("N2O3", 5, [1451827; 1650469; 1849629; 2048395; 2246363; 2443398; 2639480; 2834618; 3028876; 3222283; 3414914; 3606808; 3798019; 3988618; 4178615; 4368074; 4557046; 4745541]);
  ("N2O5", 7, [1229980; 1601249; 1971057; 2338076; 2701997; 3062933; 3421132; 3776834; 4130308; 4481760; 4831388; 5179379; 5525847; 5870946; 6214791; 6557465; 6899102; 7239755]);
  ("NClO", 3, [685959; 736143; 786389; 836490; 886373; 936008; 985373; 1034479; 1083346; 1131975; 1180377; 1228570; 1276567; 1324367; 1371991; 1419449; 1466752; 1513899]);
  ("NClO2", 4, [562003; 708388; 855581; 1002681; 1149336; 1295379; 1440748; 1585464; 1729528; 1872990; 2015872; 2158215; 2300060; 2441439; 2582372; 2722912; 2863068; 3002882]);
  ("NF", 2, [564822; 635242; 706242; 777253; 848010; 918425; 988461; 1058125; 1127431; 1196410; 1265079; 1333462; 1401581; 1469467; 1537125; 1604576; 1671830; 1738912]);
  ("NF2", 3, [416804; 570880; 691971; 743761; 795458; 846968; 898271; 949388; 1000318; 1051093; 1101733; 1152258; 1202681; 1253030; 1303318; 1353553; 1403737; 1453890]);
  ("NF3", 4, [-936143; -790867; -644906; -499195; -354085; -209711; -66072; 76861; 219121; 360770; 501848; 642419; 782513; 922192; 1061467; 1200380; 1338960; 1477240]);
  ("NO", 2, [897308; 884394; 871418; 858390; 845352; 832282; 819202; 806081; 792950; 779797; 766635; 753452; 740268; 727064; 713870; 700677; 687483; 674300]);
  ("NO2", 3, [509129; 596568; 661935; 727883; 794069; 860318; 926535; 992680; 1058731; 1124669; 1190513; 1256243; 1321890; 1387444; 1452926; 1518335; 1583702; 1649018]);
  ("NO2F", 4, [-685648; -537108; -387375; -237466; -87827; 61336; 209939; 357972; 505434; 652348; 798743; 944652; 1090093; 1235110; 1379723; 1523973; 1667881; 1811468]);
  ("NO3", 4, [1206401; 1364260; 1523268; 1682090; 1840218; 1997465; 2153831; 2309326; 2464012; 2617943; 2771189; 2923792; 3075815; 3227300; 3378286; 3528817; 3678933; 3828676]);
  ("NO3F", 5, [767537; 988275; 1209438; 1429876; 1649122; 1867051; 2083644; 2298961; 2513077; 2726042; 2937960; 3148904; 3358916; 3568098; 3776482; 3984130; 4191094; 4397426]);
  ("NOF", 3, [-520100; -466061; -411576; -356966; -302398; -247924; -193563; -139327; -85215; -31217; 22677; 76488; 130206; 183862; 237456; 291008; 344508; 397988]);
  ("NOF3", 5, [-994493; -761370; -528008; -295465; -64113; 165932; 394703; 622240; 848627; 1073946; 1298270; 1521672; 1744214; 1965968; 2186996; 2407330; 2627032; 2846133]);
  ("Na2B4O7", 13, [-31925172; -31239575; -30539095; -29835226; -29129015; -28421250; -27712541; -27003386; -26366149; -25705530; -24938377; -24184853; -23443777; -22714111; -21994996; -21285666; -20585424; -19893671]);
  ("Na2CO3", 6, [-10856534; -10565028; -10264775; -9968627; -9679163; -9397296; -9119078; -8844994; -8575824; -8261548; -7832892; -7411191; -6996164; -6587511; -6184931; -5788166; -5396956; -5011074]);
  ("Na2O", 3, [-3926494; -3786722; -3636222; -3486645; -3338767; -3192921; -3049210; -2907603; -2769396; -2582932; -2283850; -1992200; -1737011; -1486734; -1239360; -994701; -752591; -512907]);
  ("Na2O2", 4, [-4655973; -4431348; -4197738; -3966469; -3738061; -3513861; -3298979; -3086584; -2876345; -2617393; -2240030; -1865538; -1493709; -1124316; -757214; -392246; -29279; 331802]);
  ("Na2S", 3, [-3673927; -3628832; -3566201; -3500647; -3433880; -3366709; -3288397; -3159859; -3033135; -2859130; -2572195; -2294919; -2030827; -1775410; -1521983; -1270442; -1020674; -772563]);
  ("Na2SO4", 7, [-13153474; -12737038; -12303241; -11888535; -11479820; -11074629; -10662141; -10203315; -9750075; -9260871; -8668107; -8080474; -7497566; -6919012; -6344489; -5773739; -5206503; -4642562]);
  ("Na2Si2O5", 9, [-24078879; -23566085; -23043146; -22523719; -22009310; -21500372; -20996876; -20499017; -20010031; -19495860; -18882118; -18274326; -17671934; -17074486; -16472290; -15821963; -15175772; -14533477]);
  ("Na2SiO3", 6, [-15201755; -14869404; -14526129; -14184346; -13845144; -13509052; -13176296; -12846972; -12521036; -12147870; -11657910; -11187517; -10745595; -10307310; -9867730; -9405100; -8945507; -8488754]);
  ("Na2WO4", 7, [-14811302; -14407976; -13996307; -13588452; -13185521; -12788175; -12413330; -12070522; -11734346; -11354423; -10861426; -10377000; -9901248]);
  ("Na3AlCl6", 10, [-18942273; -18418048; -17886112; -17361897; -16845622; -16337275; -15836681; -15335610; -14837772; -14270991; -13530796; -12799151; -12075745; -11360279; -10652451; -9952002; -9258653; -8572165]);
  ("Na3AlF6", 10, [-32659335; -32082719; -31495116; -30913163; -30338080; -29770740; -29218386; -28667515; -28118602; -27500529; -26723157; -26034223; -25359167; -24697024; -24046957; -23408227; -22780183; -22162224]);
  ("Na5Al3F14", 22, [-74601866; -73270886; -71922951; -70585607; -69259229; -67943485; -66637814; -65317883; -64222110; -63067602; -61653449; -60280007; -58944239; -57643554; -56375671; -55138592; -53930563; -52749980]);
  ("NaAlCl4", 6, [-10318141; -9816655; -9324425; -8840683; -8364932; -7896632; -7435132; -6971922]);
  ("NaAlF4", 6, [-18643626; -18494298; -18337352; -18179017; -18019801; -17859901; -17699327; -17530151; -17356394; -17156788; -16896635; -16636678; -16376898; -16117283; -15857803; -15598447; -15339216; -15080068]);
  ("NaAlO2", 4, [-11077863; -10852378; -10620674; -10389126; -10158334; -9929574; -9702286; -9467690; -9229809; -8967376; -8645689; -8325516; -8006867; -7689751; -7374159; -7060101; -6747577; -6436597]);
  ("NaB3O5", 9, [-22288601; -21801615; -21306389; -20810200; -20314751; -19821334; -19330840; -18843859; -18360676; -17856102; -17295317; -16738922; -16186708; -15638412; -15093806; -14552646; -14014683; -13479716]);
  ("NaBH4", 6, [-1312718; -1083647; -846657; -608383; -369973; -132238; 104379; 339699; 573673; 831619; 1148382; 1463363; 1776758; 2088733; 2399464; 2709096; 3017744; 3325522]);
  ("NaBO2", 4, [-9525170; -9326860; -9122964; -8919503; -8717047; -8515887; -8316157; -8117941; -7921206; -7700602; -7438656; -7192660; -6951286; -6714162; -6480997; -6251501; -6025436; -5802593]);
  ("NaBr", 2, [-3619121; -3542550; -3446556; -3351743; -3258237; -3166119; -3075391; -2986061; -2919356; -2833996; -2689798; -2547414; -2406688; -2267506; -2129785; -1993423; -1858345; -1724470]);
  ("NaCN", 3, [-832759; -797334; -759732; -723986; -689494; -655851; -630168; -609813; -590764; -547503; -445114; -344197; -244607; -146219; -48930; 47344; 142685; 237166]);
  ("NaCl", 2, [-3978388; -3882830; -3783063; -3684406; -3587023; -3491039; -3396590; -3303798; -3219910; -3132757; -2987315; -2844091; -2702899; -2563592; -2426038; -2290131; -2155789; -2022919]);
  ("NaClO4", 6, [-2626752; -2180208; -1735135; -1302872; -899070; -503382; -115551; 264745; 637838; 1029297; 1474131; 1911845; 2342657]);
  ("NaF", 2, [-5647409; -5540388; -5428713; -5317773; -5207746; -5098735; -4990843; -4884132; -4778665; -4649216; -4469582; -4311050; -4154684; -4000288; -3847705; -3696780; -3547411; -3399481]);
  ("NaH", 2, [-346250; -263709; -175125; -86894; 290; 86055; 170233; 252785; 333740; 438481; 601801; 763059; 922368]);
  ("NaHO", 3, [-3932765; -3770543; -3604352; -3445260; -3310825; -3180111; -3052548; -2927679; -2805121; -2659255; -2455058; -2253058; -2053028; -1854759; -1658097; -1462886; -1268991; -1076309]);
  ("NaI", 2, [-2949164; -2932032; -2868540; -2777988; -2688741; -2600862; -2514352; -2446870; -2389752; -2308911; -2169429; -2031926; -1896237; -1762237; -1629782; -1498788; -1369131; -1240738]);
  ("NaLiO", 3, [-1312158; -1381972; -1436467; -1481811; -1523071; -1561119; -1596513; -1629616; -1660667; -1664585; -1606763; -1548080; -1488600; -1428383; -1293119; -1138888; -984502; -829950]);
  ("NaO2", 3, [-2264096; -2118509; -1971699; -1828776; -1689739; -1554599; -1423336; -1295959; -1172448; -1027483; -826292; -629598; -437362; -249541; -66103; 112960; 287691; 458101]);
  ("NaS", 2, [-2032133; -2020199; -1995547; -1967927; -1939135; -1916214; -1889194; -1811918; -1736171; -1636488; -1477976; -1321253; -1166188]);
  ("Nb2O5", 7, [-18292806; -17830083; -17372168; -16919260; -16471161; -16027497; -15587897; -15151986; -14719412; -14289906; -13863157; -13438948; -13017039; -12597203; -12179253; -11772124; -11420091; -11072598]);
  ("Nb50C49", 99, [-70877113; -70539237; -70263029; -70038125; -69851568; -69695067; -69561368; -69445288; -69343718; -69254068; -69173226; -69100676; -69034863; -68974750; -68918265; -68864889; -68813586; -68762283]);
  ("NbBr5", 6, [-5271196; -4947562; -4555460; -4207190; -3886281; -3576389; -3274260]);
  ("NbCl5", 6, [-7083338; -6695382; -6332270; -6042827; -5768827; -5506061]);
  ("NbO", 2, [-4060214; -3964210; -3869118; -3774917; -3681555; -3588951; -3497051; -3405804; -3315178; -3225165; -3135721; -3046847; -2958533; -2870758; -2783491; -2696732; -2610449; -2524623]);
  ("NbO2", 3, [-7657425; -7464339; -7273294; -7084467; -6897931; -6713727; -6531938; -6352615; -6176184; -6005318; -5836495; -5669091; -5502973; -5337994; -5174021; -5010960; -4848686; -4687128]);
  ("Ni(CO)4", 9, [-6101603; -5965945; -5849543; -5746336; -5652653]);
  ("Ni3S2", 5, [-2180249; -2156836; -2118157; -2071880; -2020225; -1966362; -1940327; -1837078; -1746857; -1673757; -1605218; -1540691; -1479645; -1421647; -1366291; -1291005; -1209117; -1129146]);
  ("Ni3S4", 7, [-3023352; -2986455; -2921865; -2846071; -2764711; -2682844; -2558338; -2235387; -1922220]);
  ("NiCl", 2, [1542846; 1429658; 1318854; 1210340; 1104106; 999396; 895940; 793623; 692406; 592235; 493111; 395003; 297911; 201823; 106731; 20045; -62797; -144747]);
  ("NiCl2", 3, [-2679081; -2520612; -2365386; -2212575; -2061402; -1912001; -1764258; -1618039; -1473333; -1330182; -1188761; -1108241; -1032240; -958104; -885637; -807284]);
  ("NiS", 2, [-882870; -872382; -854565; -833308; -814611; -799863; -773206; -695723; -619504; -544611; -483929; -437279; -392267; -348706; -306440; -257905; -207534; -158148]);
  ("NiS2", 3, [-1293171; -1268152; -1228602; -1182118; -1131094; -1077376; -999510; -819348; -640813; -463853; -299092; -178452; -59076; 59201; 176524; 300450]);
  ("O2F", 3, [277555; 326723; 375726; 424458; 472911; 521126; 569123; 616933; 664588; 712108; 759504; 806807; 854016; 901163; 948258; 995312; 1042345; 1089368]);
  ("OF", 2, [1087896; 1074630; 1061219; 1047631; 1033888; 1020021; 1006060; 992006; 977890; 963711; 949502; 935251; 920969; 906667; 892353; 878030; 863696; 849373]);
  ("OF2", 3, [434159; 494479; 554965; 615316; 675481; 735428; 795199; 854793; 914253; 973599; 1032841; 1092011; 1151108; 1210174; 1269209; 1328223; 1387227; 1446231]);
  ("P2O3", 5, [-10799955; -10568454; -10332946; -10096408; -9859765; -9623408; -9387497; -9152093; -8917207; -8660490; -8315598; -7972406; -7630799; -7290659; -6951893; -6614411; -6278132; -5942977]);
  ("P2O5", 7, [-14103479; -13599988; -13096009; -12595985; -12101957; -11615142; -11136245; -10665655; -10203502; -9727429; -9170956; -8623717; -8085329]);
  ("P3N5", 8, [-2018007; -1581692; -1154000; -739470; -338704; 48650; 423339; 786275; 1138360; 1514003; 2013436; 2502495; 2981957]);
  ("P4S3", 7, [-2142855; -2066988; -1975824; -1884940; -1789744; -1691646; -1557823; -1270732; -986026; -658722; -155982; 342581; 837309; 1328503; 1816422; 2301283; 2783305; 3262642]);
  ("PBr", 2, [1274743; 1173961; 1091047; 1009822; 929976; 851280; 773579; 696769; 620737; 556593; 537429; 518255; 499060; 479845; 460630; 441394; 422158; 402921]);
  ("PBr3", 4, [-1758558; -1739094; -1672659; -1605882; -1538908; -1471799; -1404618; -1337354; -1270028; -1191466; -1068525; -946134; -824260; -702863; -581881; -461293; -341067; -221174]);
  ("PBr3O", 5, [-4170407; -4056628; -3896189; -3735957; -3576151; -3416841; -3258050; -3099757; -2941940; -2773386; -2560908; -2349435; -2138885; -1929185; -1720272; -1512096; -1304592; -1097711]);
  ("PC", 2, [4135987; 3962935; 3792049; 3622925; 3455490; 3289630; 3125222; 2962182; 2800406; 2650984; 2546999; 2443439; 2340284; 2237522; 2135154; 2033159; 1931527; 1830248]);
  ("PCl", 2, [1071883; 986534; 903671; 822467; 742610; 663904; 586183; 509342; 433278; 369103; 349908; 330693; 311457; 292210; 272953; 253686; 234409; 215131]);
  ("PCl2OF", 5, [-7476257; -7319995; -7161826; -7003180; -6844534; -6686096; -6527968; -6370193; -6212780; -6044547; -5832328; -5621053; -5410648; -5201061; -4992232; -4784117; -4576655; -4369826])].

Definition nist_6 : list (string * Z * list Z) := [
  ("PCl3", 4, [-2793088; -2724322; -2654311; -2583855; -2513149; -2442289; -2371325; -2300278; -2229158; -2146814; -2020080; -1893915; -1768280; -1643121; -1518397; -1394098; -1270173; -1146610]);
  ("PCl3O", 5, [-5326977; -5166082; -5004130; -4842209; -4680609; -4519445; -4358747; -4198515; -4038750; -3868237; -3653789; -3440348; -3227839; -3016179; -2805318; -2595214; -2385793; -2177036]);
  ("PCl5", 6, [-3003960; -2759695; -2516435; -2274771; -2034683; -1796056; -1558776; -1322720; -1087782; -842688; -554209; -267201; 18417; 302771; 585944; 868008; 1149035; 1429088]);
  ("PClOF2", 5, [-9574525; -9408013; -9237697; -9065722; -8892991; -8719960; -8546876; -8373866; -8201021; -8017200; -7789248; -7562136; -7335811; -7110222; -6885328; -6661076; -6437436; -6214376]);
  ("PF", 2, [-798039; -880258; -959607; -1037070; -1113030; -1187746; -1261394; -1334089; -1405965; -1465902; -1480826; -1495741; -1510645; -1525548; -1540452; -1555366; -1570291; -1585236]);
  ("PF2", 3, [-5119774; -5135953; -5148939; -5159988; -5169564; -5177959; -5185370; -5191930; -5197734; -5191682; -5140679; -5089718; -5038788; -4987889; -4937000; -4886122; -4835254; -4784386]);
  ("PF3", 4, [-9709064; -9630503; -9548956; -9465928; -9381998; -9297478; -9212522; -9127255; -9041719; -8944802; -8803351; -8662355; -8521764; -8381556; -8241690; -8102156; -7962912; -7823948]);
  ("PF5", 6, [-15756150; -15495644; -15232091; -14967761; -14703472; -14439618; -14176366; -13913776; -13651882; -13379477; -13063378; -12748521; -12434805; -12122146; -11810482; -11499751; -11189911; -10880879]);
  ("PH", 2, [2348254; 2258593; 2172310; 2088380; 2006305; 1925723; 1846364; 1768031; 1690558; 1625004; 1604452; 1583847; 1563212; 1542515; 1521755; 1500923; 1480028; 1459051]);
  ("PH2", 3, [1253548; 1237639; 1223627; 1210775; 1198545; 1186606; 1174707; 1162695; 1150476; 1138018; 1125280; 1112273; 1098996; 1085471; 1071707; 1057736; 1043558; 1029214]);
  ("PH3", 4, [320702; 355256; 397636; 445011; 495775; 548871; 603563; 659375; 715954; 784244; 897245; 1009895; 1122160; 1234032; 1345511; 1456605; 1567327; 1677696]);
  ("PH3O4", 8, [-11642405; -11123590; -10622654; -10136849; -9668529; -9219373; -8790654; -8383401]);
  ("PHC", 3, [1233649; 1130556; 1030810; 933355; 837786; 743802; 651167; 559702; 469263; 390909; 357702; 324599; 291609; 258682; 225837; 193055; 160315; 127636]);
  ("PN", 2, [855084; 781539; 711020; 642409; 575259; 509280; 444275; 380110; 316691; 265118; 258495; 251821; 245105; 238337; 231548; 224729; 217878; 211006]);
  ("PO", 2, [-490075; -568936; -645072; -719384; -792255; -863904; -934526; -1004225; -1073127; -1130120; -1142112; -1154103; -1166105; -1178096; -1190088; -1202069; -1214040; -1226000]);
  ("PO2", 3, [-3283008; -3286977; -3287692; -3286583; -3284179; -3280769; -3276530; -3271586; -3266010; -3248692; -3186527; -3124507; -3062611; -3000820; -2939111; -2877495; -2815942; -2754440]);
  ("POF3", 5, [-12494369; -12321700; -12145466; -11967708; -11789246; -11610503; -11431730; -11253040; -11074494; -10884963; -10651311; -10418467; -10186401; -9955049; -9724372; -9494326; -9264872; -9035966]);
  ("PS", 2, [935593; 773486; 622271; 476985; 335875; 198041; 74136; 3068; -67202; -125584; -138954; -152324; -165663; -178991; -192278; -205524; -218728; -231880]);
  ("PSBr3", 5, [-3134850; -3106121; -3022802; -2935711; -2846392; -2755539; -2652362; -2497759; -2343652; -2178840; -1970103; -1762351; -1555511; -1349490; -1144226; -939656; -735729; -532382]);
  ("PSCl3", 5, [-3727220; -3650224; -3564232; -3474301; -3382049; -3288200; -3181997; -3024346; -2867183; -2699302; -2487498; -2276689; -2066781; -1857713; -1649412; -1441826; -1234893; -1028581]);
  ("PSF", 3, [-2106269; -2207445; -2296619; -2379357; -2457649; -2532531; -2593462; -2601536; -2608832; -2604262; -2554710; -2505190; -2455680; -2406169; -2356659; -2307128; -2257567; -2207973]);
  ("PSF3", 5, [-10212063; -10124277; -10025226; -9920868; -9813287; -9703519; -9580961; -9406614; -9232514; -9047492; -8818358; -8590064; -8362548; -8135746; -7909588; -7684051; -7459073; -7234614]);
  ("Pb3O4", 7, [-6227674; -5824058; -5427925; -5039244; -4632436; -4231121; -3835206; -3444545; -3059015; -2678563; -2303138; -1932667; -1567068]);
  ("PbBr", 2, [325936; 223889; 139441; 56993; -15391; -86034; -155236; -223205; -290096; -356033; -421131; -485473; -549110; -612093; -674476; -736268; -797520; -858234]);
  ("PbBr2", 3, [-2701344; -2580196; -2432899; -2289571; -2157147; -2042549; -1933735; -1830082; -1731103; -1636373; -1545572; -1458398; -1374582; -1293896; -1216123; -1141086; -1068598; -998515]);
  ("PbBr4", 5, [-4907089; -4835130; -4703245; -4572219; -4433514; -4295079; -4156954; -4019140; -3881607; -3744352; -3607368; -3470632; -3334124; -3197813; -3061658; -2925627; -2789699; -2653824]);
  ("PbCl", 2, [-102855; -187894; -270715; -351577; -422417; -491515; -559204; -625660; -691038; -755473; -819078; -881917; -944071; -1005562; -1066463; -1126773; -1186554; -1245806]);
  ("PbCl2", 3, [-3252723; -3097995; -2947734; -2801307; -2650082; -2509719; -2395992; -2287405; -2183452; -2083737; -1987909; -1895677; -1806783; -1720987; -1638094; -1557906; -1480267; -1405022]);
  ("PbCl4", 5, [-5094009; -4874607; -4642842; -4401250; -4142973; -3877222; -3604932; -3326817; -3043417; -2744024; -2395847; -2044156; -1689159; -1331021; -969889; -605895; -239156; 130237]);
  ("PbF", 2, [-1092384; -1177879; -1261125; -1342422; -1413697; -1483252; -1551376; -1618257; -1684070; -1748909; -1812898; -1876109; -1938606; -2000429; -2061630; -2122219; -2182249; -2241730]);
  ("PbF2", 3, [-6535596; -6377665; -6223714; -6073723; -5922415; -5780455; -5644207; -5511233; -5381161; -5267797; -5158537; -5052697; -4950018]);
  ("PbF4", 5, [-11322107; -11180759; -11040292; -10900592; -10753181; -10606029; -10459178; -10312606; -10166315; -10020261; -9874446; -9728839; -9583418; -9438131; -9292959; -9147880; -9002863; -8857877]);
  ("PbI", 2, [627733; 470528; 357920; 275596; 203347; 132870; 63844; -3928; -70601; -136301; -201139; -265180; -328485; -391085; -453012; -514296; -574937; -634957]);
  ("PbI2", 3, [-1798885; -1786054; -1692351; -1545178; -1398752; -1286590; -1179713; -1077563; -979672; -885679; -795251; -708118; -624012]);
  ("PbI4", 5, [-2852517; -3011194; -3002105; -2880863; -2751890; -2623156; -2494701; -2366505; -2238558; -2110829; -1983307; -1855930; -1728657; -1601404; -1474090; -1346640; -1218973; -1091016]);
  ("PbO", 2, [-1959842; -1856003; -1754101; -1654148; -1547645; -1442624; -1338877; -1236219; -1134701; -1043744; -967754; -893224; -820052; -748124; -677347; -607647; -538942; -471149]);
  ("PbO2", 3, [-2228629; -2024381; -1822609; -1623335; -1418040; -1214610; -1012973; -813005; -614601; -417639]);
  ("PbS", 2, [-1001966; -995219; -981372; -964282; -936930; -908076; -867054; -774864; -683513; -593044; -503465; -416685; -343285; -271181; -200290; -130517; -61781; 5991]);
  ("S(ClO)2", 5, [-3213412; -3056662; -2891943; -2724052; -2554638; -2384425; -2202594; -1970020; -1738596; -1508261; -1278910; -1050481; -822902; -596101; -370025; -144623; 80168; 304378]);
  ("S(OF)2", 5, [-7375714; -7210248; -7035092; -6855738; -6674177; -6491361; -6296596; -6050838; -5806045; -5562153; -5319131; -5076908; -4835441; -4594648; -4354508; -4114958; -3875958; -3637466]);
  ("S2Cl", 3, [453416; 336953; 237197; 145773; 59812; -22086; -78323; -30761; 16645; 63948; 111178; 158356; 205513; 252660; 299828; 347027; 394278; 441580]);
  ("S2O", 3, [-997053; -1134525; -1267447; -1399591; -1531995; -1665031; -1787609; -1860459; -1935341; -2012068; -2090494; -2170476; -2251897; -2334656; -2418658; -2503822; -2590073; -2677351]);
  ("SBrF5", 7, [-9207371; -8880419; -8530915; -8179515; -7827928; -7476838; -7115332; -6704181; -6295186; -5888192; -5483021; -5079551; -4677624; -4277138; -3877979; -3480053; -3083288; -2687580]);
  ("SCl", 2, [-202901; -172658; -141021; -110566; -81727; -54511; -17645; 68326; 803677; 788514; 773341; 758157; 742984; 727831; 712710; 697619; 682591; 667604]);
  ("SCl2", 3, [-293858; -224272; -156241; -91651; -30523; 27434]);
  ("SClF5", 7, [-9739265; -9394104; -9041408; -8686628; -8331569; -7976945; -7611853; -7197085; -6784463; -6373810; -5964981; -5557831; -5152235; -4748070; -4345232; -3943626; -3543192; -3143826]);
  ("SClO2F", 5, [-5309461; -5154070; -4989900; -4822081; -4652439; -4481781; -4299359; -4066091; -3833879; -3602673; -3372399; -3142997; -2914392; -2686523; -2459349; -2232806; -2006844; -1781421]);
  ("SF", 2, [-1785712; -1798030; -1802352; -1802927; -1801171; -1797745; -1781815; -1714297; -1647121; -1580246; -1513640; -1447262; -1381091; -1315097; -1249258; -1183553; -1117968; -1052487]);
  ("SF2", 3, [-3145588; -3166907; -3179292; -3187221; -3192279; -3195222; -3185293; -3123429; -3061627; -2999866; -2938116; -2876386; -2814636; -2752865; -2691063; -2629219; -2567313; -2505345]);
  ("SF3", 4, [-5057869; -5004130; -4942556; -4877603; -4810712; -4742546; -4662254; -4530690; -4399779; -4269448; -4139625; -4010258; -3881296; -3752696; -3624417; -3496429; -3368689; -3241188]);
  ("SF4", 5, [-7480559; -7335656; -7183208; -7027899; -6871264; -6713945; -6545069; -6325471; -6107013; -5889601; -5673154; -5457556; -5242746; -5028652; -4815210; -4602359; -4390078; -4178294]);
  ("SF5", 6, [-9639038; -9283766; -8921291; -8557106; -8193004; -7829684; -7456239; -7033423; -6613028; -6210655; -5898380; -5587390; -5277570; -4968829; -4661072; -4354248; -4048285; -3743119]);
  ("SF6", 7, [-11564517; -11199539; -10825814; -10449301; -10072041; -9694906; -9307096; -8869444; -8433813; -8000057; -7568033; -7137636; -6708721; -6281184; -5854923; -5429863; -5005923; -4583029]);
  ("SN", 2, [2438962; 2343196; 2255846; 2172683; 2092215; 2013747; 1948048; 1934201; 1920251; 1906218; 1892122; 1877975; 1863807; 1849629; 1835450; 1821272; 1807125; 1792998]);
  ("SO", 2, [-219588; -307933; -387531; -462692; -534942; -605004; -662132; -667273; -672413; -677554; -682684; -687794; -692893; -697982; -703050; -708118; -713155; -718182]);
  ("SO2", 3, [-3110785; -3119345; -3118309; -3112443; -3103519; -3092388; -3068353; -2992425; -2916600; -2840868; -2765250; -2689715; -2614274; -2538905; -2463598; -2388343; -2313129; -2237947]);
  ("SO3", 4, [-3843715; -3754375; -3655147; -3551287; -3444721; -3336384; -3215598; -3043355; -2871619; -2700390; -2529639; -2359323; -2189421; -2019893; -1850717; -1681852; -1513277; -1344951]);
  ("SOF2", 4, [-5456105; -5393080; -5321162; -5245192; -5166880; -5087023; -4994843; -4851277; -4708282; -4565804; -4423803; -4282227; -4141055; -4000226; -3859717; -3719499; -3579529; -3439809]);
  ("Si(H3C)4", 17, [-1525642; -1030198; -514545; 14500; 552519; 1096478; 1644313; 2194521; 2746055; 3298191; 3850431; 4402411; 4953925]);
  ("Si(HBr)2", 5, [-1999009; -1938834; -1844291; -1747665; -1649889; -1551552; -1452978; -1354372; -1255860; -1157513; -1059343; -961369; -863572; -765930; -663790; -535594; -407606; -279825]);
  ("Si(HCl)2", 5, [-3054776; -2962741; -2866685; -2768359; -2668779; -2568547; -2468023; -2367428; -2266905; -2166527; -2066304; -1966279; -1866409; -1766715; -1662512; -1532254; -1402224; -1272411]);
  ("Si(HI)2", 5, [-584763; -636739; -600796; -506471; -411130; -315302; -219287; -123283; -27382; 68363; 163932; 259345; 354634; 449830; 549628; 675605; 801521; 927405]);
  ("Si(PbO2)2", 7, [-13124485; -12740344; -12359778; -11983565; -11595351; -11211251; -10831203; -10454929; -10082198; -9712795; -9346501; -8983140; -8622556; -8264574; -7904416; -7520409; -7138703; -6759216]);
  ("Si2C", 3, [4932150; 4726440; 4522108; 4319507; 4118710; 3919716; 3722453; 3526869; 3332901; 3140509; 2949620; 2760203; 2572226; 2385638; 2209673; 2087385; 1966113; 1845804]);
  ("Si2N", 3, [3737015; 3610301; 3484976; 3360802; 3237633; 3115397; 2994083; 2873660; 2754140; 2635500; 2517751; 2400894; 2284928; 2169854; 2064926; 2013218; 1962123; 1911586]);
  ("Si3N4", 7, [-6702979; -6361507; -6016274; -5669236; -5321660; -4974395; -4627990; -4282797; -3939025; -3596827; -3256320; -2917501; -2580372; -2244870; -1897004; -1472079; -1048916; -627463]);
  ("SiBr", 2, [1964828; 1839762; 1730367; 1621573; 1513474; 1406100; 1299462; 1193529; 1088311; 983766; 879896; 776678; 674103; 572149; 475440; 405502; 336020; 266963]);
  ("SiBr2", 3, [-959307; -1031981; -1073169; -1113517; -1153077; -1191902; -1230021; -1267447; -1304219; -1340339; -1375826; -1410702; -1444966; -1478629; -1507069; -1508748; -1509981; -1510779]);
  ("SiBr3", 4, [-2415777; -2425385; -2389245; -2353260; -2317368; -2281529; -2245679; -2209798; -2173823; -2137735; -2101512; -2065123; -2028537; -1991744; -1950079; -1882007; -1813789; -1745447]);
  ("SiBr4", 5, [-4599788; -4429845; -4212051; -4004485; -3805211; -3612892]);
  ("SiC", 2, [-716420; -707890; -699350; -690945; -682653; -674465; -666361; -658307; -650286; -642295; -634314; -626334; -618343; -610331; -597656; -558759; -519955; -481234]);
  ("SiC2", 3, [5732676; 5517628; 5301709; 5086008; 4871084; 4657186; 4444438; 4232893; 4022561; 3813420; 3605471; 3398673; 3193025; 2988486; 2789668; 2618077; 2447399; 2277580]);
  ("SiCl", 2, [1721298; 1610235; 1500011; 1390720; 1282351; 1174863; 1068214; 962385; 857322; 753006; 649405; 546498; 444265; 342695; 246400; 176897; 107871; 39301]);
  ("SiCl2", 3, [-1870191; -1910571; -1950038; -1988645; -2026474; -2063558; -2099926; -2135620; -2170641; -2205040; -2238807; -2271962; -2304517; -2336480; -2363230; -2363241; -2362816; -2361976]);
  ("SiCl3", 4, [-3936268; -3899734; -3863262; -3826883; -3790577; -3754292; -3717996; -3681659; -3645239; -3608715; -3572046; -3535222; -3498222; -3461024; -3418977; -3350531; -3281971; -3213318]);
  ("SiCl3F", 5, [-8346877; -8224413; -8103172; -7983039; -7863850; -7745480; -7627804; -7510708; -7394110; -7277906; -7162054; -7046472; -6931117; -6815939; -6696263; -6550510; -6404965; -6259596]);
  ("SiCl4", 5, [-6452133; -6313697; -6176298; -6039914; -5904443; -5769759; -5635770; -5502351; -5369429; -5236932; -5104777; -4972923; -4841297; -4709878; -4573961; -4411998; -4250253; -4088705]);
  ("SiClF3", 5, [-13268352; -13137368; -13006053; -12874945; -12744231; -12613952; -12484087; -12354617; -12225468; -12096609; -11967978; -11839533; -11711223; -11583007; -11450230; -11291305; -11132524; -10973868]);
  ("SiF", 2, [-536403; -645217; -752819; -859250; -964613; -1068992; -1172438; -1275013; -1376759; -1477717; -1577919; -1677395; -1776146; -1874213; -1966963; -2032890; -2098309; -2163252]);
  ("SiF2", 3, [-6201390; -6236525; -6269918; -6301954; -6332871; -6362813; -6391885; -6420138; -6447645; -6474405; -6500482; -6525874; -6550593; -6574669; -6593470; -6585469; -6576991; -6568047]);
  ("SiF3", 4, [-11122346; -11079158; -11034561; -10989134; -10943169; -10896830; -10850180; -10803241; -10756042; -10708584; -10660846; -10612839; -10564541; -10515943; -10462391; -10382358; -10302138; -10221732]);
  ("SiF4", 5, [-16297290; -16149246; -15999845; -15849947; -15699966; -15550077; -15400376; -15250861; -15101543; -14952391; -14803373; -14654470; -14505628; -14356818; -14203385; -14023772; -13844253; -13664816]);
  ("SiH", 2, [3549732; 3432564; 3317096; 3203182; 3090585; 2979106; 2868603; 2758959; 2650082; 2541921; 2434422; 2327546; 2221281; 2115607; 2015146; 1941404; 1868077; 1795144]);
  ("SiH2F2", 5, [-7915485; -7818164; -7715610; -7610039; -7502686; -7394318; -7285399; -7176201; -7066910; -6957609; -6848369; -6739213; -6630139; -6521138; -6407556; -6267856; -6128322; -5988943]);
  ("SiH3Br", 5, [-722369; -655561; -567548; -475990; -382317; -287422; -191863; -95984; -21; 95890; 191698; 287339; 382825; 478156; 577974; 703848; 829473; 954881]);
  ("SiH3CCl3", 8, [-4237288; -3812477; -3371975; -2919750; -2458364; -1989546; -1514510; -1034147; -549130; -59947; 433009; 929447; 1429140]);
  ("SiH3CF3", 8, [-11511970; -11079283; -10629307; -10166626; -9694118; -9213714; -8726748; -8234207; -7736795; -7235050; -6729367; -6220077; -5707418]);
  ("SiH3Cl", 5, [-1234924; -1152134; -1063260; -970749; -876040; -780067; -683389; -586379; -489256; -392174; -295195; -198372; -101694; -5182; 95818; 222873; 349670; 476249]);
  ("SiH3F", 5, [-3660765; -3575259; -3483080; -3386847; -3288148; -3187998; -3087009; -2985584; -2883962; -2782310; -2680709; -2579211; -2477818; -2376538; -2270740; -2138865; -2007186; -1875726]);
  ("SiH3I", 5, [-15806; -5327; 53086; 143120; 235176; 328392; 422230; 516348; 610539; 704677; 798692; 892571; 986295; 1079905; 1178055; 1302302; 1426383; 1550329]);
  ("SiH4", 5, [590422; 674092; 765433; 861561; 960664; 1061571; 1163524; 1266027; 1368778; 1471582; 1574302; 1676898; 1779338; 1881603; 1988344; 2121111; 2253607; 2385855]);
  ("SiHBr3", 5, [-3250184; -3186993; -3076593; -2965716; -2854766; -2743931; -2633344; -2523027; -2413010; -2303273; -2193806; -2084576; -1975544; -1866668; -1753303; -1613862; -1474618; -1335550]);
  ("SiHCl3", 5, [-4816319; -4706033; -4594119; -4481501; -4368655; -4255860; -4143232; -4030842; -3918721; -3806859; -3695247; -3583862; -3472684; -3361672; -3246163; -3104597; -2963239; -2822098]);
  ("SiHF3", 5, [-12100132; -11982394; -11861277; -11738357; -11614494; -11490133; -11365565; -11240945; -11116356; -10991829; -10867385; -10743035; -10618736; -10494499; -10365651; -10210632; -10055749; -9900969]);
  ("SiHI3", 5, [-1134535; -1241453; -1220756; -1115092; -1009522; -904179; -799137; -694427; -590038; -485929; -382058; -278384; -174845; -71358; 36783; 171176; 305591; 440088]);
  ("SiI", 2, [2700308; 2521254; 2384581; 2276512; 2168911; 2061868; 1955417; 1849587; 1744400; 1639835; 1535913; 1432633; 1329985; 1227969; 1131250; 1061333; 991944; 923063]);
  ("SiI2", 3, [379996; 196424; 98222; 57346; 17257; -22086; -60714; -98637; -135876; -172441; -208353; -243591; -278156; -312048; -340591; -342249; -343306; -343752]);
  ("SiI3", 4, [-210063; -389189; -441964; -410249; -378700; -347234; -315768; -284271; -252671; -220925; -189003; -156853; -124413; -91651; -53853; 10551; 75317; 140477]);
  ("SiI4", 5, [-1986313; -1981960; -1868544; -1656698; -1457497]);
  ("SiN", 2, [3541679; 3436544; 3332756; 3230077; 3128331; 3027414; 2927254; 2827798; 2729027; 2630877; 2533329; 2436340; 2339880; 2243906; 2153032; 2088764; 2024764; 1960993])].

Definition nist_7 : list (string * Z * list Z) := [
  ("SiO", 2, [-1321155; -1413759; -1504799; -1594491; -1683002; -1770466; -1856967; -1942586; -2027355; -2111347; -2194572; -2277082; -2358877; -2439988; -2515792; -2564784; -2613268; -2661276]);
  ("SiO2", 3, [-8872916; -8683312; -8493925; -8305596; -8118656; -7933353; -7750247; -7568572; -7387705; -7207584; -7028158; -6849395; -6671285; -6493787; -6312453; -6110350; -5909480; -5709750]);
  ("SiOF2", 4, [-9852516; -9795844; -9736788; -9676354; -9615029; -9553102; -9490709; -9427933; -9364825; -9301395; -9237686; -9173666; -9109356; -9044735; -8975180; -8879134; -8782902; -8686494]);
  ("SiPbO3", 5, [-10992078; -10700769; -10411368; -10124702; -9832699; -9543432; -9256808; -8972693; -8690878; -8411218; -8133539; -7857715; -7583621; -7311103; -7035434; -6734974; -6435923; -6138199]);
  ("SiS", 2, [560531; 384058; 217546; 56630; -100285; -254028; -393894; -480892; -567050; -652400; -736983; -820819; -903910; -986275; -1063312; -1113486; -1163110; -1212216]);
  ("SiS2", 3, [-2203496; -2200636; -2186468; -2168050; -2147591; -2125909; -2081094; -1934771; -1790718; -1648759; -1508737; -1372924; -1242894; -1114512; -982989; -826665; -671719; -518089]);
  ("Sr(HO)2", 5, [-9126291; -8820058; -8514063; -8210618; -7911246; -7621761; -7361732; -7108803; -6858547; -6609680; -6365280; -6124933; -5888306; -5655099; -5412824; -5102083; -4795134; -4491762]);
  ("SrBr", 2, [-1333934; -1436374; -1521175; -1603913; -1684754; -1763833; -1840477; -1915618; -1985795; -2050478; -2113389; -2174673; -2234444; -2292805; -2337620; -2309782; -2281829; -2253784]);
  ("SrBr2", 3, [-7240854; -7110378; -6953090; -6798911; -6647447; -6498440; -6351029; -6226150; -6108308; -5990601; -5876263; -5765023; -5656654; -5550959; -5435543; -5251069; -5069870; -4891760]);
  ("SrCl", 2, [-1548028; -1634902; -1719536; -1802181; -1882960; -1961988; -2038611; -2113742; -2183908; -2248601; -2311523; -2372838; -2432629; -2491032; -2535889; -2508092; -2480212; -2452228]);
  ("SrCl2", 3, [-8080619; -7913153; -7749812; -7589912; -7433018; -7278922; -7126930; -6978130; -6836409; -6703010; -6579053; -6457284; -6337545; -6219672; -6091342; -5893239; -5697769; -5504766]);
  ("SrF", 2, [-3310380; -3394911; -3477193; -3557485; -3635932; -3712648; -3786939; -3859728; -3927551; -3989882; -4050430; -4109341; -4166717; -4222674; -4265064; -4234779; -4204371; -4173848]);
  ("SrF2", 3, [-12066272; -11885551; -11708425; -11534264; -11362507; -11192709; -11023813; -10856503; -10687316; -10515839; -10346093; -10178990; -10016810; -9859843; -9693849; -9467359; -9252020; -9038827]);
  ("SrHO", 3, [-2201257; -2223489; -2243502; -2261795; -2278565; -2293914; -2307170; -2319234; -2326613; -2328790; -2329474; -2328790; -2326831; -2323701; -2307253; -2218369; -2129588; -2040901]);
  ("SrI", 2, [-808714; -967173; -1081035; -1164571; -1246210; -1326067; -1403509; -1479438; -1550391; -1615852; -1679541; -1741592; -1802098; -1861164; -1906643; -1879416; -1852013; -1824433]);
  ("SrI2", 3, [-5779927; -5760359; -5660364; -5507471; -5357842; -5211229; -5089925; -4976001; -4862606; -4748702; -4637587; -4529000; -4422756; -4318668; -4204319; -4020395; -3839227; -3660620]);
  ("SrO", 2, [-5816554; -5710818; -5606522; -5503501; -5401558; -5300486; -5199382; -5098984; -4995641; -4888724; -4781826; -4675012; -4568312; -4461747; -4343128; -4153296; -3964759; -3777456]);
  ("SrS", 2, [-4796647; -4775473; -4747106; -4715526; -4681998; -4647050; -4599011; -4499576; -4397094; -4290912; -4184637; -4078300; -3971952; -3865604; -3747058; -3557143; -3368378; -3180702]);
  ("Ta2O5", 7, [-19797491; -19330674; -18869101; -18412980; -17962123; -17516232; -17075004; -16638129; -16205359; -15776361; -15350876; -14928677; -14509556; -14093358; -13679927; -13269129; -12860777; -12454725]);
  ("TaC", 2, [-1478412; -1473955; -1470504; -1467788; -1465550; -1463643; -1461964; -1460471; -1459144; -1457942; -1456864; -1455900; -1455061; -1454356; -1453807; -1453423; -1453206; -1453133]);
  ("TaCl5", 6, [-7729156; -7343895; -6975300; -6687795; -6415630; -6154657]);
  ("TaO", 2, [1692931; 1593818; 1497005; 1401975; 1308406; 1216071; 1124803; 1034458; 944921; 856120; 767982; 680456; 593489; 507041; 421059; 335523; 250432; 165766]);
  ("TaO2", 3, [-2186219; -2219540; -2250654; -2280295; -2308766; -2336252; -2362878; -2388726; -2413829; -2438237; -2461960; -2485031; -2507459; -2529287; -2550523; -2571200; -2591286; -2610802]);
  ("Ti2O3", 5, [-14854987; -14553376; -14257362; -13969225; -13686457; -13408529; -13134922; -12865047; -12598260; -12331473; -12062666; -11796646; -11533124; -11271809; -11012433; -10754746; -10498490; -10234056]);
  ("Ti3O5", 8, [-24007935; -23517073; -23047799; -22598778; -22153777; -21712404; -21274431; -20839556; -20407345; -19973632; -19535793; -19101437; -18670459; -18242715; -17818081; -17396421; -16977580; -16547286]);
  ("Ti4O7", 11, [-33288260; -32624636; -31967707; -31318654; -30677251; -30042947; -29415090; -28792840; -28175191; -27556144; -26931862; -26312120; -25696451; -25084400; -24475519; -23869406; -23265615; -22705343]);
  ("TiB", 2, [-1655040; -1652272; -1648800; -1645111; -1641265; -1637223; -1632943; -1628279; -1623086; -1615935; -1605923; -1595559; -1584791; -1573545; -1561771; -1549407; -1536389; -1517951]);
  ("TiB2", 3, [-2853367; -2838401; -2822564; -2805961; -2788653; -2770743; -2752295; -2733338; -2713843; -2692514; -2668562; -2644600; -2620637; -2596665; -2572671; -2548647; -2524540; -2495603]);
  ("TiBr", 2, [1725973; 1600834; 1492331; 1384812; 1278091; 1172064; 1066649; 961877; 857861; 755949; 657002; 558468; 460381; 362781; 265709; 169207; 73327; -17194]);
  ("TiBr2", 3, [-3970035; -3829505; -3662641; -3499134; -3338456; -3180267; -3024315; -2870385; -2718196; -2566256; -2413611; -2262718; -2113472]);
  ("TiBr3", 4, [-5445472; -5264522; -5044011; -4830000; -4623087; -4423855; -4232479; -4048596; -3871750; -3700263; -3533004; -3372244; -3217682]);
  ("TiBr4", 5, [-6120227; -5939277; -5715492; -5502143; -5297242; -5099460; -4907804; -4721465]);
  ("TiC", 2, [-1869870; -1857278; -1845162; -1833575; -1822360; -1811364; -1800430; -1789423; -1778157; -1765212; -1749707; -1734191; -1718614; -1702964; -1687190; -1671280; -1655185; -1634176]);
  ("TiCl", 2, [1267706; 1157700; 1048947; 941148; 834127; 727779; 622043; 516939; 412581; 310327; 211037; 112173; 13743; -84199; -181613; -278457; -374689; -465563]);
  ("TiCl2", 3, [-4824786; -4653973; -4486103; -4320824; -4157835; -3996971; -3838118; -3681141; -3525863; -3370866; -3215236; -3061502; -2909583; -2759436; -2610967; -2464126; -2318850; -2170372]);
  ("TiCl2O", 4, [-5544150; -5507160; -5469786; -5432081; -5394054; -5355707; -5317006; -5277902; -5238228; -5196615; -5152183; -5107451; -5062377; -5016899; -4970974; -4924532; -4877520; -4825170]);
  ("TiCl3", 4, [-6778773; -6548220; -6322724; -6101115; -5882740; -5667174; -5454105; -5243244; -5034290; -4825740; -4616589; -4409293; -4203718]);
  ("TiCl4", 5, [-7541749; -7285731; -7042544; -6809203; -6583894; -6365446; -6152978; -5945776]);
  ("TiClO", 3, [-2590011; -2608687; -2626172; -2642755; -2658591; -2673744; -2688254; -2702111; -2715191; -2726135; -2734085; -2741578; -2748605; -2755093; -2761021; -2766328; -2770961; -2770173]);
  ("TiF", 2, [-1020777; -1128887; -1235670; -1341458; -1446448; -1550754; -1654428; -1757439; -1859682; -1959780; -2056893; -2153551; -2249731; -2345393; -2440496; -2534987; -2628835; -2717284]);
  ("TiF2", 3, [-7202236; -7224623; -7246088; -7266764; -7286705; -7305941; -7324504; -7342361; -7359400; -7374273; -7386109; -7397489; -7408382; -7418756; -7428592; -7437858; -7446522; -7449839]);
  ("TiF3", 4, [-14109993; -13856949; -13608435; -13363444; -13121428; -12882096; -12645304; -12410895; -12178704; -11947311; -11715867; -11486920; -11260440; -11036385; -10814579; -10594867; -10377093; -10156386]);
  ("TiF4", 5, [-16153941; -15845262; -15545299; -15253245; -14968300; -14689781; -14417107; -14149709; -13887016; -13627277; -13369279; -13115282; -12864974]);
  ("TiH2", 3, [-1086476; -946414; -801863; -655198; -507777; -360397; -213504; -67274; 78323; 224666; 372647; 519779; 666153; 811885; 957068; 1101805; 1246221; 1395104]);
  ("TiI", 2, [2280689; 2099377; 1961635; 1853132; 1745437; 1638405; 1531995; 1426217; 1321196; 1218268; 1118326; 1018798; 919746; 821203; 723229; 625878; 529210; 437973]);
  ("TiI2", 3, [-2682377; -2652228; -2543579; -2383099; -2226474; -2073165; -1922790; -1774965; -1629336; -1484319; -1338877; -1195405; -1053725; -913662; -775061; -637765; -501631; -361806]);
  ("TiI3", 4, [-3300150; -3279805; -3141805; -2926197; -2716486; -2511823; -2311595; -2115265; -1922324; -1731061; -1540369; -1352527; -1167297]);
  ("TiI4", 5, [-3841569; -3817327; -3691598; -3477452; -3272457; -3075173; -2884543; -2699706; -2519866; -2343113; -2168133; -1997040; -1829460]);
  ("TiN", 2, [-3199969; -3099995; -3000519; -2901924; -2804199; -2707262; -2611019; -2515336; -2420037; -2323701; -2225427; -2127733; -2030568; -1933880; -1837596; -1741685; -1646085; -1546038]);
  ("TiO", 2, [-5317867; -5215893; -5114675; -5014453; -4915287; -4817241; -4720325; -4624507; -4529674; -4434468; -4339220; -4247507; -4157089; -4067894; -3979912; -3893080; -3807357; -3717986]);
  ("TiO2", 3, [-9214508; -9023247; -8831987; -8643140; -8455878; -8270057; -8085500; -7902011; -7719341; -7535997; -7351016; -7166863; -6983426; -6800600; -6618272; -6436348; -6254724; -6068603]);
  ("TiOF", 3, [-4539479; -4554932; -4568893; -4581786; -4593808; -4605095; -4615698; -4625585; -4634675; -4641588; -4645495; -4648915; -4651838; -4654201; -4655973; -4657113; -4657549; -4652543]);
  ("TiOF2", 4, [-9425684; -9371188; -9315221; -9258394; -9200914; -9142895; -9084388; -9025343; -8965666; -8903957; -8839356; -8774393; -8709036; -8643212; -8576891; -8510000; -8442487; -8369596]);
  ("V200N93", 293, [-245034199; -235295928; -225530711; -215813169; -206174396; -196630974; -187184976; -177836403; -168585253; -159429455; -150364863; -141385257; -132486493; -123664424; -114914906; -106235864; -97616935; -89056046]);
  ("V2O3", 5, [-11800159; -11525257; -11255424; -10990399; -10729561; -10472372; -10218395; -9967300; -9718848; -9472862; -9229177; -8987659; -8748213; -8510736; -8275156; -8041401; -7809396; -7579071]);
  ("V2O5", 7, [-14702062; -14247962; -13799593; -13357422; -12920952; -12489632; -12062925; -11680949; -11333881; -10990658; -10650741; -10313632; -9978949; -9646318; -9315449; -8986062; -8657878; -8330678]);
  ("VN", 2, [-1978612; -1887935; -1797828; -1708612; -1620371; -1533073; -1446666; -1361067; -1276225; -1192068; -1108531; -1025565; -943128; -861157; -779621; -698479; -617690; -537201]);
  ("VO", 2, [-4187570; -4092841; -4000257; -3909569; -3820613; -3733273; -3647415; -3562988; -3479887; -3398072; -3317469; -3238027; -3159683; -3082386; -3006105; -2930788; -2856383; -2782869]);
  ("VO2", 3, [-6828864; -6649168; -6477753; -6309132; -6143039; -5979185; -5817316; -5657219; -5498718; -5341663; -5185914; -5031357; -4877888; -4725409; -4573836; -4423098; -4299644; -4183544]);
  ("W(ClO)2", 5, [-7278828; -7012436; -6752437; -6499280; -6253222; -6014304; -5782321; -5556898]);
  ("W10O29", 39, [-77010482; -74360752; -71740353; -69153223; -66598015; -64072242; -61572898; -59097599; -56643961; -54210430; -51795762; -49398713; -47018350; -44653845; -42304265; -39969091; -37647701; -35339681]);
  ("W25O68", 93, [-183495036; -177218433; -171011011; -164881840; -158828327; -152844256; -146922629; -141057746; -135244685; -129480077; -123760294; -118083264; -112446913; -106849429; -101288997; -95764321; -90273848; -84816281]);
  ("W25O74", 99, [-196025701; -189281928; -182613555; -176029651; -169527366; -163100221; -156740186; -150441558; -144198898; -138008059; -131865155; -125767594; -119712527; -113697622; -107721064; -101780781; -95875478; -90004118]);
  ("W3O8", 11, [-16402860; -15966203; -15536749; -15114177; -14697554; -14285947; -13878528; -13474653; -13073742; -12675381; -12279155; -11884753; -11491915; -11100364; -10709900; -10320359; -9931522; -9543256]);
  ("WBr", 2, [5565842; 5430039; 5311275; 5193941; 5077861; 4962901; 4848987; 4736027; 4623968; 4512760; 4402370; 4292747; 4183860; 4075698; 3968231; 3861427; 3755287; 3649778]);
  ("WBr5", 6, [-2791544; -2487332; -2119328; -1776322; -1462948; -1158809; -862639; -573476]);
  ("WBr6", 7, [-3010241; -2638847; -2190551; -1756122; -1334929; -926556; -530692; -147121]);
  ("WCl", 2, [5371118; 5250198; 5131009; 5013271; 4896777; 4781412; 4667094; 4553719; 4441257; 4329644; 4218839; 4108802; 3999510; 3890924; 3783032; 3675803; 3569227; 3463284]);
  ("WCl2", 3, [-2277621; -2151043; -2029667; -1912633; -1799435; -1689718; -1583246; -1479852; -1379371; -1281708; -1186751; -1094436; -1004692; -917456; -832676; -750301; -670309; -592650]);
  ("WCl4", 5, [-3720121; -3435601; -3161497; -2896400; -2639500; -2390271; -2148337; -1913410; -1685168; -1463311; -1247506; -1037443; -832821; -633371; -438854; -249033; -63709; 117313]);
  ("WCl4O", 6, [-5685176; -5268439; -4879375; -4584791; -4301867; -4028686; -3763868; -3506327]);
  ("WCl5", 6, [-4157338; -3778897; -3414613; -3093373; -2851947; -2630877; -2412450; -2196314; -1982167; -1769782; -1558947; -1349506; -1141308; -934225; -728147; -522981; -318629; -115018]);
  ("WCl6", 7, [-4712500; -4240832; -3790017; -3394662; -3018169; -2651191; -2292370; -1940700; -1595352; -1255683; -921145; -591282; -265709]);
  ("WF", 2, [3638450; 3517976; 3398631; 3279971; 3161787; 3043997; 2926611; 2809630; 2693084; 2577004; 2461432; 2346378; 2231873; 2117918; 2004544; 1891760; 1779566; 1667974]);
  ("WF6", 7, [-16902314; -16504254; -16118205; -15740832; -15370102; -15004699; -14643680; -14286382]);
  ("WO", 2, [4054555; 3938828; 3825204; 3713187; 3602486; 3492957; 3384474; 3276955; 3170369; 3064653; 2959767; 2855709; 2752429; 2649916; 2548170; 2447150; 2346865; 2247296]);
  ("WO2", 3, [-5529433; -5336046; -5144731; -4955822; -4769224; -4584760; -4402245; -4221524; -4042429; -3864827; -3688593; -3513654; -3340001; -3167643; -2996643; -2827052; -2658913; -2492245]);
  ("WO3", 4, [-7913827; -7640925; -7371070; -7104636; -6841498; -6581385; -6323999; -6069059; -5817072; -5567563; -5319660; -5073301; -4828435; -4585009; -4342982; -4126504; -3932081; -3740051]);
  ("WOF4", 6, [-13446431; -13076975; -12734716; -12407640; -12092701; -11787815; -11491491; -11202586]);
  ("ZnSO4", 6, [-8997080; -8608440; -8214277; -7826352; -7443227; -7051343; -6649458; -6198156; -5767355; -5321515; -4797135; -4275418; -3756116; -3239011; -2723938; -2210741; -1699264; -1189394]);
  ("ZrB2", 3, [-3297984; -3282987; -3268031; -3252796; -3237042; -3220625; -3203431; -3185387; -3166410; -3144168; -3120050; -3095373; -3070146; -3044381; -3018076; -2991243; -2963861; -2935919]);
  ("ZrBr", 2, [2654010; 2532106; 2427499; 2324540; 2223043; 2122852; 2023852; 1925972; 1829159; 1735684; 1644085; 1553024; 1462461; 1372385; 1282776; 1193664; 1105049; 1016963]);
  ("ZrBr2", 3, [-3959556; -3819794; -3656028; -3497569; -3343545; -3193346; -3046526; -2974805; -2905365; -2835603; -2766660; -2699634; -2634339; -2570630; -2508351; -2447357; -2387524; -2328717]);
  ("ZrBr3", 4, [-6295570; -6101406; -5866883; -5636858; -5410544; -5187318; -4966694; -4748308; -4531809; -4314626; -4097930; -3882861; -3669253; -3456972; -3245872; -3035830; -2826731; -2618450]);
  ("ZrBr4", 5, [-7514854; -7264619; -6960925; -6663657; -6371841; -6084750; -5801775; -5522447]);
  ("ZrC", 2, [-2003020; -1992096; -1982675; -1974477; -1967201; -1960589; -1954391; -1948431; -1942555; -1934336; -1925101; -1916095; -1907264; -1898548; -1889915; -1881312; -1872689; -1864004]);
  ("ZrCl", 2, [1806120; 1699627; 1595093; 1492227; 1390802; 1290684; 1191746; 1093939; 997198; 903785; 812258; 721260; 630759; 540735; 451188; 362128; 273565; 185510]);
  ("ZrCl2", 3, [-3994173; -3838999; -3687660; -3539565; -3394278; -3251490; -3110909; -2972318; -2863503; -2754399; -2646133; -2539806; -2435252; -2332283; -2230765; -2130563; -2031532; -1933559]);
  ("ZrCl3", 4, [-6694346; -6461740; -6234804; -6012615; -5794488; -5579938; -5368548; -5160008; -4954039; -4748080; -4543345; -4340972; -4140838; -3942797; -3746726; -3552479; -3359952; -3169011]);
  ("ZrCl4", 5, [-9218378; -8908185; -8605517; -8309089; -8017998; -7731550; -7449238; -7170615]);
  ("ZrF", 2, [536890; 430853; 326765; 224272; 123179; 23320; -75410; -173063; -269709; -363071; -454598; -545648; -636232; -726390; -816114; -905392; -994224; -1082579]);
  ("ZrF2", 3, [-9456528; -9285735; -9117792; -8952420; -8789421; -8628599; -8469777; -8312748; -8157366; -8009510; -7887843; -7768882; -7652357; -7538070; -7425825; -7315435; -7206735; -7099589]);
  ("ZrF3", 4, [-13733521; -13471243; -13213162; -12958999; -12708360; -12460851; -12216129; -11973875; -11733797; -11493325; -11253620; -11015802; -10779693]);
  ("ZrF4", 5, [-18752358; -18403165; -18059516; -17720957; -17386968; -17057012; -16730672; -16407597; -16087527; -15767903; -15449969; -15134905]);
  ("ZrH", 2, [5003052; 4888641; 4776800; 4666887; 4558539; 4451507; 4345656; 4240925; 4137283; 4037019; 3938724; 3841041; 3743979; 3647529; 3551691; 3456495; 3361952; 3268093]);
  ("ZrI", 2, [5571211; 5391339; 5255619; 5149748; 5045328; 4942234; 4840436; 4739872; 4640551; 4544754; 4451071; 4358156; 4266007; 4174605; 4083969; 3994121; 3905071; 3816851]);
  ("ZrI2", 3, [-2673630; -2665079; -2580351; -2445761; -2316684; -2229645; -2147705; -2071155; -2000242; -1932854; -1870544; -1814774; -1765678; -1723319; -1687780; -1659092; -1637296; -1622402]);
  ("ZrI3", 4, [-4093172; -4075025; -3936351; -3717841; -3503311; -3292087; -3083640; -2877557; -2673454; -2468749; -2264593; -2062086; -1861050; -1661300; -1462648; -1264949; -1068038; -871749]);
  ("ZrI4", 5, [-5031087; -5007021; -4821874; -4530286; -4244263; -3963049; -3686053; -3412799]);
  ("ZrN", 2, [-3487775; -3388796; -3290822; -3194020; -3098316; -3003556; -2909604; -2816336; -2723606; -2629022; -2533909; -2439532; -2345839; -2252799; -2160350; -2068450; -1977057; -1886121])].

Definition nist_8 : list (string * Z * list Z) := [
  ("ZrO", 2, [339129; 251240; 165611; 81733; -684; -81867; -161983; -241228; -319748; -395387; -469678; -544052; -618571; -693266; -768127; -843134; -918233; -993353]);
  ("ZrO2", 3, [-10772272; -10572211; -10374067; -10177995; -9983790; -9791221; -9600052; -9410065; -9221083; -9030681; -8840123; -8650664; -8463143; -8279540; -8096393; -7913609; -7731115; -7548807]);
  ("ZrSiO4", 6, [-19782950; -19384806; -18988135; -18594240; -18203435; -17815583; -17430416; -17047642; -16666942; -16285744; -15905199; -15526385; -15149084; -14773109; -14393642; -13988980; -13585260; -13182370])].

Definition nist_table : list (string * Z * list Z) := concat [nist_1; nist_2; nist_3; nist_4; nist_5; nist_6; nist_7; nist_8].
